(** Proofs about replacing output files. *)
From Verif Require Import Lib LibFacts Model_Write.
Local Open Scope string_scope.

(** [holds P Q R m]: run from a state satisfying P, all states passed through
    satisfy Q, and the end satisfies R. *)
Definition triple {A} (P : fs -> Prop) (m : prog A) (Q : fs -> Prop) (R : option A -> fs -> Prop) : Prop :=
  forall s, P s -> let '(t, r, s') := m s in Forall Q t /\ R r s'.

Lemma triple_bind : forall A B (P Q : fs -> Prop) (M : A -> fs -> Prop) (R : option B -> fs -> Prop) m f,
  triple P m Q (fun r s => match r with Some a => M a s | None => R None s end) -> (forall a, triple (M a) (f a) Q R) -> triple P (bindp m f) Q R.
Proof.
  intros A B P Q M R m f H1 H2 s HP. specialize (H1 s HP). unfold bindp. destruct (m s) as [[t1 r] s1]. destruct H1 as [F1 R1]. destruct r as [a|]; [|split; assumption].
  specialize (H2 a s1 R1). destruct (f a s1) as [[t2 r2] s2]. destruct H2 as [F2 R2]. split; [apply Forall_app; split; assumption|exact R2].
Qed.
Lemma triple_exn : forall A (P Q : fs -> Prop) (M : fs -> Prop) (R : option A -> fs -> Prop) m h,
  triple P m Q (fun r s => match r with Some a => R (Some a) s | None => M s end) -> triple M h Q (fun _ s => R None s) -> triple P (on_exception m h) Q R.
Proof.
  intros A P Q M R m h H1 H2 s HP. specialize (H1 s HP). unfold on_exception. destruct (m s) as [[t1 r] s1]. destruct H1 as [F1 R1]. destruct r as [a|]; [split; assumption|].
  specialize (H2 s1 R1). destruct (h s1) as [[t2 r2] s2]. destruct H2 as [F2 R2]. split; [apply Forall_app; split; assumption|exact R2].
Qed.
Lemma triple_call : forall (P Q : fs -> Prop) (R : option unit -> fs -> Prop) w at_ e,
  (forall s, P s -> fails w at_ = true -> Q s /\ R None s) -> (forall s, P s -> fails w at_ = false -> Q (e s) /\ R (Some tt) (e s)) -> triple P (call w at_ e) Q R.
Proof.
  intros P Q R w at_ e H1 H2 s HP. unfold call. destruct (fails w at_) eqn:E; [destruct (H1 s HP eq_refl)|destruct (H2 s HP eq_refl)]; split; auto.
Qed.

Definition new_target (w : happening) (content : string) : option (node * nat) := Some (File content, inode w).
(** the states a writer may pass through *)
Definition fine (w : happening) (old : option (node * nat)) (content : string) (s : fs) : Prop :=
  target s = old \/ (target s = new_target w content /\ temp s = None) \/ (win32 w = true /\ target s = None).

Section Writer.
Variable w : happening.
Variable old : option (node * nat).

Definition is_same (content : string) : Prop := exists i, old = Some (File content, i).
Definition goodQ (content : string) (s : fs) : Prop :=
  target s = old \/ (~ is_same content /\ target s = new_target w content /\ temp s = None) \/ (~ is_same content /\ win32 w = true /\ old <> None /\ target s = None).
Definition goodR (content : string) (r : option unit) (s : fs) : Prop :=
  match r with
  | Some _ => temp s = None /\ ((is_same content /\ target s = old) \/ (~ is_same content /\ target s = new_target w content))
  | None => (fails w UnlinkHandler = false -> temp s = None) /\ (target s = old \/ (~ is_same content /\ win32 w = true /\ old <> None /\ target s = None))
  end.

Lemma same_content_spec : forall content s, target s = old -> temp s = new_target w content -> same_content s = true <-> is_same content.
Proof.
  intros content s HT HM. unfold same_content, is_same. rewrite HM, HT. cbn. destruct old as [[[b|] i]|].
  - rewrite String.eqb_eq. split; [intros <-; exists i; reflexivity|intros (j & [= -> _]); reflexivity].
  - split; [discriminate|intros (j & [= ])].
  - split; [discriminate|intros (j & [= ])].
Qed.

Lemma close_spec : forall content, triple (fun s => target s = old) (close w content) (goodQ content) (goodR content).
Proof.
  intros content. unfold close. apply triple_exn with (M := fun s => target s = old \/ (~ is_same content /\ win32 w = true /\ old <> None /\ target s = None)).
  - apply triple_bind with (M := fun _ s => target s = old /\ temp s = new_target w content).
    + apply triple_call.
      * intros s HP _. split; left; exact HP.
      * intros s HP _. split; [left; exact HP|]. split; [exact HP|reflexivity].
    + intros _. apply triple_bind with (M := fun same s => target s = old /\ temp s = new_target w content /\ (same = true <-> is_same content)).
      * intros s [HP HM]. unfold compare. destruct (fails w Compare); (split; [repeat constructor; exact HP|]); [left; exact HP|]. split; [exact HP|]. split; [exact HM|]. apply same_content_spec; assumption.
      * intros [|].
        -- apply triple_call.
           ++ intros s (HP & _ & _) _. split; left; exact HP.
           ++ intros s (HP & _ & HS) _. split; [left; exact HP|]. split; [reflexivity|]. left. split; [apply HS; reflexivity|exact HP].
        -- set (P := fun s => target s = old /\ temp s = new_target w content /\ ~ is_same content).
           apply triple_bind with (M := fun _ => P).
           { apply triple_call; intros s (HP & HM & HS) _; [split; left; exact HP|]. split; [left; exact HP|]. split; [exact HP|]. split; [exact HM|]. intros X. apply HS in X. discriminate. }
           intros _. apply triple_bind with (M := fun _ => P).
           { apply triple_call; intros s (HP & HM & HS) _; [split; left; exact HP|]. split; [left; exact HP|]. split; [exact HP|]. split; [exact HM|exact HS]. }
           intros _. apply triple_bind with (M := fun b s => P s /\ (b = true -> old <> None)).
           { intros s H. split; [constructor|]. split; [exact H|]. destruct H as (HP & _). rewrite HP. destruct old; [discriminate|intros X; discriminate]. }
           intros b. apply triple_bind with (M := fun _ s => (target s = old \/ (win32 w = true /\ old <> None /\ target s = None)) /\ temp s = new_target w content /\ ~ is_same content).
           { destruct (win32 w && b) eqn:EB.
             - apply andb_prop in EB. destruct EB as [EW ->]. apply triple_call.
               + intros s ((HP & HM & HS) & _) _. split; left; exact HP.
               + intros s ((HP & HM & HS) & HO) _. specialize (HO eq_refl). split; [right; right; auto|]. split; [right; auto|]. split; [exact HM|exact HS].
             - intros s ((HP & HM & HS) & _). split; [constructor|]. split; [left; exact HP|]. split; [exact HM|exact HS]. }
           intros _ s (HT & HM & HS). unfold rename.
           match goal with |- context [if fails w Rename || ?x then _ else _] => set (blocked := x) end. destruct (fails w Rename || blocked).
           ++ split; [constructor; [|constructor]|]; (destruct HT as [HT|HT]; [left; exact HT|right]); [right; tauto|tauto].
           ++ split; [constructor; [|constructor]|].
              ** right. left. split; [exact HS|]. split; [exact HM|reflexivity].
              ** split; [reflexivity|]. right. split; [exact HS|exact HM].
  - apply triple_call.
    + intros s HP F. split; [destruct HP as [HP|HP]; [left; exact HP|right; right; exact HP]|]. split; [congruence|exact HP].
    + intros s HP F. split; [destruct HP as [HP|HP]; [left; exact HP|right; right; exact HP]|]. split; [reflexivity|exact HP].
Qed.

Lemma write_all_spec : forall chunks n sofar, triple (fun s => target s = old) (write_all w n sofar chunks) (fun s => target s = old)
  (fun r s => target s = old /\ (forall c, r = Some c -> c = fold_left append chunks sofar)).
Proof.
  induction chunks as [|c cs IH]; intros n sofar; cbn [write_all fold_left].
  - intros s HP. split; [constructor|]. split; [exact HP|]. intros c [= <-]. reflexivity.
  - apply triple_bind with (M := fun _ s => target s = old).
    + intros s HP. unfold write_chunk. destruct (fails w (Write n)); (split; [constructor; [exact HP|constructor]|]); [split; [exact HP|discriminate]|exact HP].
    + intros _. apply IH.
Qed.
End Writer.

Lemma write_spec : forall w chunks s, temp s = None ->
  let content := fold_left append chunks "" in
  let '(t, r, s') := write_on_diff w chunks s in
  Forall (goodQ w (target s) content) t /\
  match r with
  | Some _ => temp s' = None /\ ((is_same (target s) content /\ target s' = target s) \/ (~ is_same (target s) content /\ target s' = new_target w content))
  | None => (target s' = target s \/ (~ is_same (target s) content /\ win32 w = true /\ target s <> None /\ target s' = None)) /\
     (temp s' = None \/ fails w UnlinkHandler = true \/ fails w UnlinkFdopen = true \/ exists n, fails w (Write n) = true)
  end.
Proof.
  intros w chunks s HT content. set (old := target s).
  assert (T : triple (fun s => target s = old /\ temp s = None) (write_on_diff w chunks) (goodQ w old content)
    (fun r s' => match r with
      | Some _ => temp s' = None /\ ((is_same old content /\ target s' = old) \/ (~ is_same old content /\ target s' = new_target w content))
      | None => (target s' = old \/ (~ is_same old content /\ win32 w = true /\ old <> None /\ target s' = None)) /\
         (temp s' = None \/ fails w UnlinkHandler = true \/ fails w UnlinkFdopen = true \/ exists n, fails w (Write n) = true)
      end)).
  { unfold write_on_diff. apply triple_bind with (M := fun _ s => target s = old).
    - unfold init. apply triple_bind with (M := fun _ s => target s = old).
      + apply triple_call; intros s0 [H1 H2] _; (split; [left; exact H1|]); [split; [left; exact H1|left; exact H2]|exact H1].
      + intros _. apply triple_exn with (M := fun s => target s = old).
        * apply triple_call; intros s0 H1 _; (split; [left; exact H1|exact H1]).
        * apply triple_call; intros s0 H1 F; (split; [left; exact H1|]); (split; [left; exact H1|]); [auto|left; reflexivity].
    - intros _. apply triple_bind with (M := fun c s => target s = old /\ c = content).
      + intros s0 H1. pose proof (write_all_spec w old chunks 0 "" s0 H1) as H.
        assert (W : forall cs n sf s1, let '(_, r, _) := write_all w n sf cs s1 in r = None -> exists n, fails w (Write n) = true).
        { induction cs as [|c cs IH]; intros n sf s1; cbn [write_all]; [discriminate|]. unfold bindp, write_chunk. destruct (fails w (Write n)) eqn:E; [eauto|]. specialize (IH (S n) (sf ++ c)). match goal with |- context [write_all w (S n) (sf ++ c) cs ?x] => specialize (IH x); destruct (write_all w (S n) (sf ++ c) cs x) as [[t r] s2] end. exact IH. }
        specialize (W chunks 0 "" s0). destruct (write_all w 0 "" chunks s0) as [[t r] s1]. destruct H as [F [HP HC]]. split; [eapply Forall_impl; [|exact F]; intros a X; left; exact X|]. destruct r as [c|].
        * split; [exact HP|]. apply HC. reflexivity.
        * split; [left; exact HP|]. right. right. right. apply W. reflexivity.
      + intros c s0 [H1 ->]. pose proof (close_spec w old content s0 H1) as H. destruct (close w content s0) as [[t r] s1]. destruct H as [F HR]. split; [exact F|]. destruct r as [u|]; [exact HR|]. destruct HR as [HM HO]. split; [exact HO|]. destruct (fails w UnlinkHandler) eqn:E; [auto|left; apply HM; reflexivity]. }
  specialize (T s (conj eq_refl HT)). exact T.
Qed.
