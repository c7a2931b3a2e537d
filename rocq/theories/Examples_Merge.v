(** Concrete merges: witnesses and counterexamples. *)
From Verif Require Import LibFacts Str StrFacts Model_Path Model_Value Model_Merge Spec_Merge Spec_Path Proof_Merge Proof_Merge2 Proof_Merge3.
Local Open Scope string_scope.

Definition base_path_sections : list string :=
  ["destination"; "files"; "include_dirs"; "inputs"; "libraries"; "outputs"; "sources"].
Definition ctx0 : ctx := mk_ctx (plain_realpath ["w"]) base_path_sections "a/x.gyp" "b/y.gypi".
Definition ctx1 : ctx := mk_ctx (plain_realpath ["w"]) base_path_sections "a/x.gyp" "a/x.gyp".

Lemma prepend_repeats : exists c to fro r, merge_lists c false false to fro = Val r /\
  In (VStr "a") fro /\ ~ In (VStr "a") to /\ hd_error r = Some (VStr "x") /\ ~ In (VStr "x") fro.
Proof.
  exists ctx1, [VStr "x"], [VStr "a"; VStr "a"], [VStr "x"; VStr "a"].
  split; [reflexivity|]. split; [left; reflexivity|]. split; [intros [H|[]]; discriminate|]. split; [reflexivity|].
  intros [H|[H|[]]]; discriminate.
Qed.

Lemma replace_kind : exists c to fro to' s l, merge_dicts c to fro = Val to' /\
  assoc "x" to = Some (VStr s) /\ assoc "x" to' = Some (VList l).
Proof.
  exists ctx1, [("x", VStr "s")], [("x=", VList [VStr "a"])], [("x", VList [VStr "a"])], "s", [VStr "a"].
  split; [reflexivity|]. split; reflexivity.
Qed.

Lemma copy_loses : exists c l l', c_to_file c = c_fro_file c /\
  merge_dicts c [] [("action", VList l)] = Val [("action", VList l')] /\ length l' < length l.
Proof.
  exists ctx1, [VStr "cp"; VStr "a"; VStr "a"], [VStr "cp"; VStr "a"].
  split; [reflexivity|]. split; [reflexivity|]. cbn. lia.
Qed.

Lemma copy_pair_breaks : exists c p, c_to_file c = c_fro_file c /\ p = [VStr "exclude"; VStr "exclude"] /\
  merge_dicts c [] [("sources/", VList [VList p])] = Val [("sources/", VList [VList [VStr "exclude"]])].
Proof. exists ctx1, [VStr "exclude"; VStr "exclude"]. split; [reflexivity|]. split; reflexivity. Qed.

Lemma no_repeats_strings : forall copies, NoDup (map fst copies) -> no_repeats copies.
Proof.
  intros copies ND l x r E H. rewrite E, map_app in ND. cbn [map fst] in ND. apply NoDup_remove_2 in ND.
  apply ND. apply in_app_iff. left. exact H.
Qed.
