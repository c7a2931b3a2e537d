From Verif Require Import Lib Str Model_Quote Spec_Quote Model_Make Spec_Make Proof_Make Proof_Make2.
Local Open Scope string_scope.

(** C70.  The comparison in the Makefile tells two commands apart exactly if they
    differ, though make has no way to compare texts. *)
Theorem C70_comparison : forall cmd old, command_changed cmd old = false <-> cmd = old.
Proof. exact changed_iff. Qed.
Print Assumptions C70_comparison.
Example C70_comparison_witness : command_changed "aa" "a" = true /\ command_changed "" "a" = true /\ command_changed "cc -g a.c" "cc -g a.c" = false.
Proof. repeat split; reflexivity. Qed.
(** C70.  A command is read back from the depfile as it was written there. *)
Theorem C70_recorded : forall c, plain c -> recorded c = c.
Proof. exact plain_recorded. Qed.
Print Assumptions C70_recorded.
Example C70_recorded_witness : plain "cc a.c" /\ recorded "cc '-DA=$HOME' \b a.c" = "cc '-DA=$HOME' \b a.c".
Proof. split; [exact plain_cc|reflexivity]. Qed.

(** C71.  After any history of edits, removed files, changed Makefiles, builds that
    ended well, failed or were stopped between commands, a build gives exactly the
    files that a build from scratch gives, and fails exactly if that fails. *)
Theorem C71_incremental : forall exec tracked st rules, honest exec -> history exec tracked st -> good exec tracked rules ->
  match from_scratch exec rules (contents st) with
  | Some fs => exists st', make exec tracked rules st = (st', true) /\ forall x, contents st' x = fs x
  | None => snd (make exec tracked rules st) = false
  end.
Proof. exact (fun exec tracked st rules HON => incremental exec tracked HON st rules). Qed.
Print Assumptions C71_incremental.
Example C71_incremental_witness : honest sample /\ history sample sample_tracked (write again_state "b.h" "2") /\ good sample sample_tracked rules1 /\
  contents (write again_state "b.h" "2") "prog" = Some "ld a.occ a.c1" /\ contents (fst (make sample sample_tracked rules1 (write again_state "b.h" "2"))) "prog" = Some "ld a.occ a.c2".
Proof. split; [exact sample_honest|]. split; [exact header_history|]. split; [exact sample_good|]. split; reflexivity. Qed.
(** C71.  Right after a build there is nothing to do. *)
Theorem C71_nothing_twice : forall exec tracked st rules st', honest exec -> history exec tracked st -> good exec tracked rules -> finds exec rules ->
  make exec tracked rules st = (st', true) -> make exec tracked rules st' = (st', true).
Proof. exact (fun exec tracked st rules st' HON => nothing_twice exec tracked HON st rules st'). Qed.
Print Assumptions C71_nothing_twice.
Example C71_nothing_twice_witness : finds sample rules1 /\ snd (make sample sample_tracked rules1 edited_state) = true.
Proof. split; [exact sample_finds|reflexivity]. Qed.

(** C71.  Not so if make is killed after a compiler has run and before its depfile
    is written: the object is new, but the depfile tells of the headers of before;
    a header that was added is not looked at from then on (make.py:562-566). *)
Theorem C71_killed_refuted :
  ~ (forall exec tracked st rules r st1 f c st2 fs, honest exec -> history exec tracked st -> good exec tracked rules -> In r rules -> killed_before_depfile exec st r = Some st1 -> saved_command st (out r) = command r ->
       saved st1 f = None -> make exec tracked rules (write st1 f c) = (st2, true) -> from_scratch exec rules (contents (write st1 f c)) = Some fs -> forall x, contents st2 x = fs x).
Proof. exact kill_before_depfile. Qed.
Print Assumptions C71_killed_refuted.
(** C71.  Nor if it is killed while the depfile is written: with the command in it
    and the headers not, none of them is looked at (make.py:565-566; the comment at
    401-403 says that a broken depfile cannot come about). *)
Theorem C71_killed_in_depfile_refuted :
  ~ (forall exec tracked st rules r st1 f c st2 fs, honest exec -> history exec tracked st -> good exec tracked rules -> In r rules -> killed_in_depfile exec st r = Some st1 ->
       saved st1 f = None -> make exec tracked rules (write st1 f c) = (st2, true) -> from_scratch exec rules (contents (write st1 f c)) = Some fs -> forall x, contents st2 x = fs x).
Proof. exact kill_in_depfile. Qed.
Print Assumptions C71_killed_in_depfile_refuted.
(** C71.  Nor if it is killed after a changed command and the change is taken back:
    the depfile has the old command, so the result of the new one is kept. *)
Theorem C71_reverted_refuted :
  ~ (forall exec tracked st rules r rules' st1 st2 fs, honest exec -> history exec tracked st -> good exec tracked rules -> good exec tracked rules' -> In r rules -> tracked (command r) = false -> killed_before_depfile exec st r = Some st1 ->
       make exec tracked rules' st1 = (st2, true) -> from_scratch exec rules' (contents st1) = Some fs -> forall x, contents st2 x = fs x).
Proof. exact kill_and_revert. Qed.
Print Assumptions C71_reverted_refuted.
(** C71.  Nor if a command fails having written to its target: the Makefile has no
    .DELETE_ON_ERROR, so the next build takes the broken file for a good one. *)
Theorem C71_failed_refuted :
  ~ (forall exec tracked st rules r c st1 st2 fs, honest exec -> history exec tracked st -> good exec tracked rules -> In r rules -> half_written st r c = Some st1 ->
       make exec tracked rules st1 = (st2, true) -> from_scratch exec rules (contents st1) = Some fs -> forall x, contents st2 x = fs x).
Proof. exact failed_halfway. Qed.
Print Assumptions C71_failed_refuted.
(** C71.  Nor with a number sign in a command: make reads what is behind it as a
    comment, so a change there goes unnoticed. *)
Theorem C71_number_sign_refuted :
  ~ (forall exec tracked st rules rules' st1 st2 fs, honest exec -> history exec tracked st -> proper exec tracked rules -> proper exec tracked rules' -> fed rules -> fed rules' ->
       make exec tracked rules st = (st1, true) -> make exec tracked rules' st1 = (st2, true) -> from_scratch exec rules' (contents st1) = Some fs -> forall x, contents st2 x = fs x).
Proof. exact number_sign. Qed.
Print Assumptions C71_number_sign_refuted.
(** C71.  And such a command is run at every build. *)
Theorem C71_sign_again_refuted :
  ~ (forall exec tracked st rules st1, honest exec -> history exec tracked st -> proper exec tracked rules -> fed rules -> finds exec rules -> make exec tracked rules st = (st1, true) -> make exec tracked rules st1 = (st1, true)).
Proof. exact sign_again. Qed.
Print Assumptions C71_sign_again_refuted.
(** C71.  Nor for a rule without inputs, such as an action that only generates: if
    its output is removed it is not made again, and make says that all is well. *)
Theorem C71_no_inputs_refuted :
  ~ (forall exec tracked st rules f st1 st2 fs, honest exec -> history exec tracked st -> proper exec tracked rules -> plainly rules ->
       make exec tracked rules st = (st1, true) -> make exec tracked rules (remove st1 f) = (st2, true) -> from_scratch exec rules (contents (remove st1 f)) = Some fs -> forall x, contents st2 x = fs x).
Proof. exact no_inputs. Qed.
Print Assumptions C71_no_inputs_refuted.
