(** When a linker has a server of its own. *)
From Coq Require Import NArith Lia.
From Verif Require Import Lib LibFacts Str StrFacts Model_Path Model_WinEnv Spec_WinEnv Proof_Path Proof_WinEnv Proof_WinEnv2 Proof_WinEnv3.
Local Open Scope string_scope.

Lemma lower_capital : forall b, In b ["/"; "O"; "U"; "T"; ":"]%char -> forall a, (lower a = lower b <-> capital a = b).
Proof. intros b I. repeat (destruct I as [<-|I]; [intros [[] [] [] [] [] [] [] []]; vm_compute; split; intros E; congruence|]). destruct I. Qed.
Ltac letter := cbn; tauto.
Lemma sub_whole : forall n s, String.length s <= n -> substring 0 n s = s.
Proof. induction n as [|n IH]; intros [|a s] H; cbn in *; try reflexivity; try lia. f_equal. apply IH. lia. Qed.
Lemma out_arg_iff : forall a, (exists o, out_arg a = Some o) <-> names_output a.
Proof.
  intros a. unfold out_arg, names_output. split.
  - intros (o & H). destruct (String.prefix "/out:" (each_char lower a)) eqn:P; [|discriminate].
    destruct a as [|c1 [|c2 [|c3 [|c4 [|c5 r]]]]]; try (cbn in P; repeat (destruct (ascii_dec _ _) in P; try discriminate); discriminate).
    cbn [each_char String.prefix] in P. destruct (ascii_dec "/" (lower c1)) as [E1|]; [|discriminate]. destruct (ascii_dec "o" (lower c2)) as [E2|]; [|discriminate]. destruct (ascii_dec "u" (lower c3)) as [E3|]; [|discriminate]. destruct (ascii_dec "t" (lower c4)) as [E4|]; [|discriminate]. destruct (ascii_dec ":" (lower c5)) as [E5|]; [|discriminate].
    exists (String c1 (String c2 (String c3 (String c4 (String c5 ""))))), r. split; [reflexivity|]. split.
    + cbn [capitals]. symmetry in E1, E2, E3, E4, E5. apply (proj1 (lower_capital "/" ltac:(letter) c1)) in E1. apply (proj1 (lower_capital "O" ltac:(letter) c2)) in E2. apply (proj1 (lower_capital "U" ltac:(letter) c3)) in E3. apply (proj1 (lower_capital "T" ltac:(letter) c4)) in E4. apply (proj1 (lower_capital ":" ltac:(letter) c5)) in E5. rewrite E1, E2, E3, E4, E5. reflexivity.
    + intros ->. cbn in H. discriminate.
  - intros (flag & out & -> & F & N). destruct flag as [|c1 [|c2 [|c3 [|c4 [|c5 [|c6 r]]]]]]; try discriminate F. cbn [capitals] in F. injection F as E1 E2 E3 E4 E5.
    apply (proj2 (lower_capital "/" ltac:(letter) c1)) in E1. apply (proj2 (lower_capital "O" ltac:(letter) c2)) in E2. apply (proj2 (lower_capital "U" ltac:(letter) c3)) in E3. apply (proj2 (lower_capital "T" ltac:(letter) c4)) in E4. apply (proj2 (lower_capital ":" ltac:(letter) c5)) in E5.
    cbn [append each_char]. rewrite E1, E2, E3, E4, E5. cbn [String.length]. assert (P : forall x, String.prefix "/out:" (String (lower "/") (String (lower "O") (String (lower "U") (String (lower "T") (String (lower ":") x))))) = true) by (intros x; destruct x; reflexivity). rewrite P.
    cbn [substring]. rewrite sub_whole by lia. destruct out as [|x y]; [contradiction|]. eexists. reflexivity.
Qed.
Lemma first_out_iff : forall args, (exists o, first_out args = Some o) <-> exists a, In a args /\ names_output a.
Proof.
  induction args as [|a args IH]; cbn [first_out]; [split; [intros (o & H); discriminate|intros (a & [] & _)]|]. destruct (out_arg a) as [o|] eqn:E.
  - split; [intros _; exists a; split; [left; reflexivity|apply out_arg_iff; exists o; exact E]|intros _; exists o; reflexivity].
  - rewrite IH. split; [intros (b & I & H); exists b; split; [right; exact I|exact H]|]. intros (b & [<-|I] & H); [apply out_arg_iff in H; destruct H as (o & H); congruence|]. exists b. split; assumption.
Qed.
Lemma separate_given : forall w p args e, assoc "_MSPDBSRV_ENDPOINT_" e = None ->
  (assoc "_MSPDBSRV_ENDPOINT_" (separate w p args e) <> None <-> exists rest, args = "link.exe" :: rest /\ exists a, In a rest /\ names_output a).
Proof.
  intros w p args e A. unfold separate. destruct args as [|a args]; [split; [congruence|intros (r & H & _); discriminate]|].
  destruct (String.eqb a "link.exe") eqn:E; cbn [negb].
  - apply String.eqb_eq in E. subst a. pose proof (first_out_iff ("link.exe" :: args)) as F. destruct (first_out ("link.exe" :: args)) as [o|].
    + split; [intros _|intros _; rewrite assoc_update, String.eqb_refl; discriminate]. exists args. split; [reflexivity|]. destruct (proj1 F (ex_intro _ o eq_refl)) as (a & [<-|I] & H); [apply out_arg_iff in H; destruct H as (z & H); vm_compute in H; discriminate|]. exists a. split; assumption.
    + split; [congruence|]. intros (r & H & a & I & J). injection H as <-. destruct (proj2 F (ex_intro _ a (conj (or_intror I) J))) as (o & X). discriminate.
  - apply String.eqb_neq in E. split; [congruence|]. intros (r & H & _). injection H as -> _. contradiction.
Qed.
