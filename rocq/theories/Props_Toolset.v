(** Property theorems: toolset expansion (C20). *)
From Verif Require Import Model_Value Model_Filter Model_Toolset Spec_Toolset Proof_Toolset.
Local Open Scope string_scope.

(** C20: every target is replaced, in place and in order, by one copy for each
    toolset it asks for; targets fixing their toolset stay; so in every branch
    of every condition; nothing else changes.  [good_toolsets]: the toolsets of
    each target are given as a list. *)
Theorem C20_expanded : forall m fuel d d', good_toolsets fuel d -> process_toolsets m fuel d = Val d' -> expanded m d d'.
Proof. exact process_toolsets_expanded. Qed.
Print Assumptions C20_expanded.

(** C20: toolsets are processed only once: expanding again changes nothing. *)
Theorem C20_idempotent : forall m m' fuel d d', process_toolsets m fuel d = Val d' -> process_toolsets m' fuel d' = Val d'.
Proof. exact toolsets_twice. Qed.
Print Assumptions C20_idempotent.

Theorem C20_terminates : forall m fuel d, depth (VDict d) <= fuel -> process_toolsets m fuel d <> Exn NoFuel.
Proof. exact toolsets_terminates. Qed.
Print Assumptions C20_terminates.

Definition ex_toolset_data : dict :=
  [("targets", VList [VDict [("target_name", VStr "a"); ("toolsets", VList [VStr "host"; VStr "target"])]; VDict [("target_name", VStr "b")];
                      VDict [("target_name", VStr "c"); ("toolset", VStr "host")]])].
Example C20_witness : good_toolsets 9 ex_toolset_data /\ process_toolsets true 9 ex_toolset_data = Val
  [("targets", VList [VDict [("target_name", VStr "a"); ("toolset", VStr "target")]; VDict [("target_name", VStr "a"); ("toolset", VStr "host")];
                      VDict [("target_name", VStr "b"); ("toolset", VStr "target")];
                      VDict [("target_name", VStr "c"); ("toolset", VStr "host")]])].
Proof.
  split; [|reflexivity]. split; [|discriminate]. intros l E. inversion E. repeat constructor; discriminate.
Qed.

(** Finding: toolsets given as a string are taken letter by letter. *)
Theorem C20_string_refuted : exists t, expand_target true (VDict t) =
  Val [VDict [("target_name", VStr "t"); ("toolset", VStr "b")]; VDict [("target_name", VStr "t"); ("toolset", VStr "a")]]
  /\ assoc "toolsets" t = Some (VStr "ab").
Proof. exact string_toolsets_letters. Qed.
Print Assumptions C20_string_refuted.
