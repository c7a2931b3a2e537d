(** Example oracles and witnesses for conditions. *)
From Verif Require Import Model_Value Model_Merge Model_Filter Model_Cond Spec_Cond Examples_Merge.
Local Open Scope string_scope.

(** An oracle in which the strings "1" and "x" are true. *)
Definition ex_expand (vars : dict) (v : value) : result value := Val v.
Definition ex_eval (vars : dict) (v : value) : result bool :=
  Val (match v with VStr "1" => true | VStr "x" => true | _ => false end).

Lemma suffix_survives : exists d d', flat_lists ex_expand /\ no_dup_keys (VDict d) /\
  process_dict ex_expand ex_eval ctx0 Early (depth (VDict d)) None [] d = Val d' /\ In "conditions" (map fst d').
Proof.
  exists [("conditions", VList [VList [VStr "1"; VDict [("conditions+", VList [VList [VStr "1"; VDict [("type", VStr "none")]]])]]])].
  eexists. split; [intros vars s l H; discriminate|]. split; [repeat constructor; cbn; intuition discriminate|].
  split; [reflexivity|]. left. reflexivity.
Qed.
