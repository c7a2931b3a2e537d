(** Property theorems: replacing output files (C36).  A run of
    [write_on_diff] gives the states it passes through (the process may die in
    any of them), the result and the final state. *)
From Verif Require Import Lib LibFacts Model_Write Proof_Write.
Local Open Scope string_scope.

Definition content_of (chunks : list string) : string := fold_left append chunks "".
Definition holds (x : option (node * nat)) (content : string) : Prop := exists i, x = Some (File content, i).

(** C36: on POSIX, whatever fails and wherever the process dies, the file is
    the old one or a file with the whole new content; *)
Theorem C36_atomic : forall w chunks s, temp s = None -> win32 w = false ->
  let '(t, r, s') := write_on_diff w chunks s in
  Forall (fun x => target x = target s \/ holds (target x) (content_of chunks)) (t ++ [s'])%list.
Proof.
  intros w chunks s HT HW. pose proof (write_spec w chunks s HT) as H. cbv zeta in H. destruct (write_on_diff w chunks s) as [[t r] s']. destruct H as [F R]. apply Forall_app. split.
  - eapply Forall_impl; [|exact F]. intros x [X|[(_ & X & _)|(_ & X & _)]]; [left; exact X|right; eexists; exact X|congruence].
  - constructor; [|constructor]. destruct r as [u|]; [destruct R as [_ [[_ X]|[_ X]]]; [left; exact X|right; eexists; exact X]|]. destruct R as [[X|(_ & X & _)] _]; [left; exact X|congruence].
Qed.
Print Assumptions C36_atomic.
(** if the content is already there, the very file stays, on every platform; *)
Theorem C36_untouched : forall w chunks s, temp s = None -> holds (target s) (content_of chunks) ->
  let '(t, r, s') := write_on_diff w chunks s in Forall (fun x => target x = target s) (t ++ [s'])%list.
Proof.
  intros w chunks s HT HC. pose proof (write_spec w chunks s HT) as H. cbv zeta in H. destruct (write_on_diff w chunks s) as [[t r] s']. destruct H as [F R]. change (is_same (target s) (fold_left append chunks "")) with (holds (target s) (content_of chunks)) in R. apply Forall_app. split.
  - eapply Forall_impl; [|exact F]. intros x [X|[(X & _)|(X & _)]]; [exact X|destruct (X HC)|destruct (X HC)].
  - constructor; [|constructor]. destruct r as [u|]; [destruct R as [_ [[_ X]|[X _]]]; [exact X|contradiction]|]. destruct R as [[X|(X & _)] _]; [exact X|contradiction].
Qed.
Print Assumptions C36_untouched.
(** when it returns, the file has the new content and no temporary file is
    left; *)
Theorem C36_done : forall w chunks s, temp s = None ->
  let '(t, r, s') := write_on_diff w chunks s in r = Some tt -> holds (target s') (content_of chunks) /\ temp s' = None.
Proof.
  intros w chunks s HT. pose proof (write_spec w chunks s HT) as H. cbv zeta in H. destruct (write_on_diff w chunks s) as [[t r] s']. destruct H as [F R]. intros ->. destruct R as [R [[[i X] Y]|[_ X]]]; (split; [|exact R]); [exists i; rewrite Y; exact X|eexists; exact X].
Qed.
Print Assumptions C36_done.
(** when it raises, the file is the old one on POSIX, and no temporary file is
    left unless removing it failed too or a write (not the closing) failed. *)
Theorem C36_raised : forall w chunks s, temp s = None ->
  let '(t, r, s') := write_on_diff w chunks s in r = None ->
  (win32 w = false -> target s' = target s) /\ (temp s' = None \/ fails w UnlinkHandler = true \/ fails w UnlinkFdopen = true \/ exists n, fails w (Write n) = true).
Proof.
  intros w chunks s HT. pose proof (write_spec w chunks s HT) as H. cbv zeta in H. destruct (write_on_diff w chunks s) as [[t r] s']. destruct H as [F R]. intros ->. destruct R as [R1 R2]. split; [|exact R2]. intros HW. destruct R1 as [X|(_ & X & _)]; [exact X|congruence].
Qed.
Print Assumptions C36_raised.
Definition good_day : happening := {| fails := fun _ => false; flushed := fun n => n; inode := 7; win32 := false |}.
Example C36_witness : write_on_diff good_day ["ab"; "c"] {| target := Some (File "x", 1); temp := None |} =
  ([{| target := Some (File "x", 1); temp := Some (File "", 7) |}; {| target := Some (File "x", 1); temp := Some (File "", 7) |};
    {| target := Some (File "x", 1); temp := Some (File "", 7) |}; {| target := Some (File "x", 1); temp := Some (File "a", 7) |};
    {| target := Some (File "x", 1); temp := Some (File "abc", 7) |}; {| target := Some (File "x", 1); temp := Some (File "abc", 7) |};
    {| target := Some (File "x", 1); temp := Some (File "abc", 7) |}; {| target := Some (File "x", 1); temp := Some (File "abc", 7) |};
    {| target := Some (File "abc", 7); temp := None |}], Some tt, {| target := Some (File "abc", 7); temp := None |}).
Proof. reflexivity. Qed.

(** Finding (documented in the code): on Windows the switch is not atomic; the
    old file is lost if the rename fails, and gone for a moment. *)
Theorem C36_windows_refuted : exists w chunks s t s', temp s = None /\ write_on_diff w chunks s = (t, None, s') /\ target s <> None /\ target s' = None /\ temp s' = None.
Proof.
  exists {| fails := fun x => match x with Rename => true | _ => false end; flushed := fun n => n; inode := 7; win32 := true |}, ["a"], {| target := Some (File "x", 1); temp := None |}. eexists _, _.
  split; [reflexivity|]. split; [reflexivity|]. split; [discriminate|]. split; reflexivity.
Qed.
Print Assumptions C36_windows_refuted.
(** Finding: when a write fails the temporary file stays. *)
Theorem C36_write_refuted : exists w chunks s t s', temp s = None /\ (forall x, fails w x = true -> x = Write 0) /\ write_on_diff w chunks s = (t, None, s') /\ temp s' <> None.
Proof.
  exists {| fails := fun x => match x with Write 0 => true | _ => false end; flushed := fun n => n; inode := 7; win32 := false |}, ["a"], {| target := Some (File "x", 1); temp := None |}. eexists _, _.
  split; [reflexivity|]. split; [intros [| | |[|n]| | | | | | | |]; cbn; congruence|]. split; [reflexivity|discriminate].
Qed.
Print Assumptions C36_write_refuted.
