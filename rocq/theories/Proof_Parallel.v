(** Proofs about loading build files in parallel and one after another. *)
From Coq Require Import Wellfounded.
From Verif Require Import Lib LibFacts Model_Value Model_Parallel Spec_Parallel.

Lemma put_fresh : forall (A : Type) x (d : A) l, ~ In x (map fst l) -> put x d l = (x, d) :: l.
Proof.
  intros A x d l H. unfold put. f_equal. induction l as [|[y e] l IH]; [reflexivity|]. cbn [filter fst map In] in *. destruct (String.eqb_spec y x) as [->|]; [exfalso; apply H; left; reflexivity|]. cbn [negb]. rewrite IH by tauto. reflexivity.
Qed.

Section Par.
Context {A : Type}.
Variable load : string -> option (A * list string).
Variable roots : list string.
Variable workers : nat.
Hypothesis HR : NoDup roots.
Notation wanted := (wanted load roots).
Notation state := (pstate (A := A)).

Lemma wanted_root : forall x, In x roots -> wanted x.
Proof. intros x H. exists x. split; [exact H|apply rt_refl]. Qed.
Lemma wanted_step : forall x y, wanted x -> refers load x y -> wanted y.
Proof. intros x y (r & Hr & H) HS. exists r. split; [exact Hr|]. eapply rt_trans; [exact H|apply rt_step; exact HS]. Qed.

Lemma schedule_spec : forall new sch deps, exists added,
  fold_left schedule new (sch, deps) = (added ++ sch, added ++ deps) /\ (NoDup sch -> NoDup (added ++ sch)) /\
  (forall x, In x added -> In x new) /\ incl new (added ++ sch).
Proof.
  induction new as [|y new IH]; intros sch deps; [exists []; split; [reflexivity|]; split; [tauto|]; split; [tauto|intros x []]|].
  cbn [fold_left schedule]. destruct (mem_spec y sch) as [H|H].
  - destruct (IH sch deps) as (added & E & N & I & C). exists added. split; [exact E|]. split; [exact N|]. split; [intros x X; right; apply I; exact X|]. intros x [<-|X]; [apply in_or_app; right; exact H|apply C; exact X].
  - destruct (IH (y :: sch) (y :: deps)) as (added & E & N & I & C). exists (added ++ [y]). rewrite <- !app_assoc. cbn [app]. split; [exact E|]. split; [intros X; apply N; constructor; assumption|]. split.
    + intros x X. apply in_app_or in X. destruct X as [X|[<-|[]]]; [right; apply I; exact X|left; reflexivity].
    + intros x [<-|X]; [apply in_or_app; right; left; reflexivity|apply C; exact X].
Qed.

(** ** the invariant; [failed] are the tasks whose callback got nothing *)
Record pinv (failed : list string) (st : state) : Prop := {
  v_sched : Permutation (p_scheduled st) (p_deps st ++ p_dispatched st);
  v_disp : Permutation (p_dispatched st) (p_queue st ++ p_running st ++ p_results st ++ map fst (p_data st) ++ failed);
  v_nodup : NoDup (p_scheduled st);
  v_pending : p_pending st = length (p_queue st ++ p_running st ++ p_results st ++ failed);
  v_error : p_error st = true <-> failed <> [];
  v_wanted : forall x, In x (p_scheduled st) -> wanted x;
  v_roots : incl roots (p_scheduled st);
  v_data : forall x d, In (x, d) (p_data st) -> exists new, load x = Some (d, new) /\ incl new (p_scheduled st);
  v_failed : forall x, In x failed -> load x = None;
  v_pool : p_pool st = true <-> p_dispatched st <> [];
  v_wait : p_main st = Waiting -> p_deps st = [] /\ p_pending st <> 0 /\ failed = [];
  v_drain : p_main st = Draining \/ p_main st = Returned -> failed <> [] \/ (p_deps st = [] /\ p_pending st = 0);
  v_end : p_main st = Returned \/ p_main st = Exited1 -> p_queue st = [] /\ p_running st = [] /\ p_results st = [] /\ (p_main st = Exited1 <-> failed <> []);
  v_crash : p_main st = Crashed -> roots = []
}.

Lemma pinv_init : pinv [] (par_init roots).
Proof.
  constructor; cbn [par_init p_main p_deps p_scheduled p_pending p_error p_data p_pool p_queue p_running p_results p_dispatched]; try discriminate; try (intros; contradiction).
  - rewrite app_nil_r. apply Permutation_rev.
  - constructor.
  - exact HR.
  - reflexivity.
  - split; [discriminate|contradiction].
  - apply wanted_root.
  - intros x X; exact X.
  - split; [discriminate|contradiction].
  - intros [X|X]; discriminate.
  - intros [X|X]; discriminate.
Qed.

Ltac flat := cbn [p_main p_deps p_scheduled p_pending p_error p_data p_pool p_queue p_running p_results p_dispatched set_main set_pool] in *.

Lemma pinv_leave : forall failed st, pinv failed st -> (failed <> [] \/ (p_deps st = [] /\ p_pending st = 0)) -> pinv failed (leave st).
Proof.
  intros failed st [V1 V2 V3 V4 V5 V6 V7 V8 V9 V10 V11 V12 V13 V14] H. unfold leave. destruct (p_pool st) eqn:EP; constructor; flat; try assumption; try discriminate; try (rewrite EP; assumption); try (intros [X|X]; discriminate); try (intros _; exact H).
  - intros _. assert (D : p_dispatched st = []) by (destruct (p_dispatched st); [reflexivity|]; assert (X : false = true) by (apply V10; discriminate); discriminate).
    rewrite D in V2. apply Permutation_nil in V2. assert (F : failed = []) by (destruct failed; [reflexivity|]; destruct (p_queue st), (p_running st), (p_results st), (map fst (p_data st)); discriminate).
    destruct H as [H|[H _]]; [contradiction|]. rewrite H, D in V1. cbn in V1. apply Permutation_sym, Permutation_nil in V1. destruct roots as [|r rs]; [reflexivity|]. specialize (V7 r (or_introl eq_refl)). rewrite V1 in V7. destruct V7.
Qed.

Lemma pinv_main : forall failed st, pinv failed st -> p_main st = Holding -> pinv failed (main_loop st).
Proof.
  intros failed st HI HM. unfold main_loop. pose proof HI as [V1 V2 V3 V4 V5 V6 V7 V8 V9 V10 V11 V12 V13 V14].
  assert (LE : p_error st = true -> pinv failed (leave st)) by (intros E; apply pinv_leave; [exact HI|left; apply V5; exact E]).
  destruct (p_deps st) as [|x deps] eqn:ED.
  - destruct (p_pending st) as [|n] eqn:EN; [apply pinv_leave; [exact HI|right; split; assumption]|]. destruct (p_error st) eqn:EE; [apply LE; reflexivity|].
    constructor; flat; try (rewrite <- ?ED, <- ?EN; assumption); try assumption; try discriminate; try congruence.
    + intros _. split; [reflexivity|]. split; [discriminate|]. destruct failed; [reflexivity|]. assert (X : false = true) by (apply V5; discriminate). discriminate.
    + intros [X|X]; discriminate.
    + intros [X|X]; discriminate.
  - destruct (p_error st) eqn:EE; [apply LE; reflexivity|].
    constructor; flat; try assumption; try discriminate.
    + rewrite V1. apply Permutation_middle.
    + rewrite <- app_assoc. cbn [app]. rewrite <- Permutation_middle. constructor. exact V2.
    + rewrite V4. rewrite !app_length. cbn [length]. lia.
    + split; [discriminate|reflexivity].
    + intros [X|X]; discriminate.
    + intros [X|X]; discriminate.
Qed.

Lemma perm_shuffle : forall (l1 l2 l3 l4 : list string) x, Permutation (x :: l1 ++ l2 ++ l3 ++ l4) (l1 ++ (x :: l2) ++ l3 ++ l4).
Proof. intros. cbn [app]. apply Permutation_middle. Qed.

Lemma pinv_step : forall failed st st', pinv failed st -> par_step load workers st st' -> exists failed', pinv failed' st'.
Proof.
  intros failed st st' HI HS. destruct HS as [HM|HM|x queue EQ HW|x l1 l2 ER|x rest ER HL|HM E1 E2 E3].
  - exists failed. apply pinv_main; assumption.
  - exists failed. destruct HI as [V1 V2 V3 V4 V5 V6 V7 V8 V9 V10 V11 V12 V13 V14]. constructor; flat; try assumption; try discriminate; intros [X|X]; discriminate.
  - exists failed. destruct HI as [V1 V2 V3 V4 V5 V6 V7 V8 V9 V10 V11 V12 V13 V14]. rewrite EQ in *. constructor; flat; try assumption.
    + rewrite V2. cbn [app]. apply Permutation_middle.
    + rewrite V4. rewrite !app_length. cbn [length app]. rewrite ?app_length. lia.
    + intros X. destruct (V13 X) as [Y _]. discriminate.
  - exists failed. destruct HI as [V1 V2 V3 V4 V5 V6 V7 V8 V9 V10 V11 V12 V13 V14]. rewrite ER in *. constructor; flat; try assumption.
    + rewrite V2. apply Permutation_app_head. rewrite <- !app_assoc. cbn [app]. apply Permutation_app_head. rewrite (app_assoc l2 (p_results st) (x :: _)), (app_assoc l2 (p_results st) (_ ++ _)). apply Permutation_middle.
    + rewrite V4. rewrite !app_length. cbn [length]. lia.
    + intros X. destruct (V13 X) as [_ [Y _]]. destruct l1; discriminate.
  - destruct HI as [V1 V2 V3 V4 V5 V6 V7 V8 V9 V10 V11 V12 V13 V14]. rewrite ER in *.
    assert (PM : p_pending st <> 0) by (rewrite V4, !app_length; cbn [length]; lia).
    assert (NE : notified (p_main st) <> Waiting) by (destruct (p_main st); discriminate).
    assert (Sx : In x (p_scheduled st)). { rewrite V1, V2. apply in_or_app. right. apply in_or_app. right. apply in_or_app. right. apply in_or_app. left. left. reflexivity. }
    assert (NDall : NoDup (p_queue st ++ p_running st ++ (x :: rest) ++ map fst (p_data st) ++ failed)).
    { eapply Permutation_NoDup; [exact V2|]. apply (Permutation_NoDup V1) in V3. apply NoDup_app_inv in V3. apply V3. }
    assert (Nx : ~ In x (map fst (p_data st))).
    { apply NoDup_app_inv in NDall. destruct NDall as (_ & N1 & _). apply NoDup_app_inv in N1. destruct N1 as (_ & N2 & _). cbn [app] in N2. inversion N2 as [|? ? N3 _]. intros X. apply N3. apply in_or_app. right. apply in_or_app. left. exact X. }
    unfold callback. destruct (load x) as [[d new]|] eqn:EL.
    + exists failed. destruct (schedule_spec new (p_scheduled st) (p_deps st)) as (added & E & N & I & C). rewrite E.
      constructor; flat; try assumption.
      * rewrite <- app_assoc. apply Permutation_app_head. exact V1.
      * rewrite (put_fresh _ x d _ Nx). cbn [map fst app]. rewrite V2. do 2 apply Permutation_app_head. cbn [app]. rewrite <- Permutation_middle. reflexivity.
      * apply N. exact V3.
      * rewrite V4, !app_length. cbn [length]. lia.
      * intros y X. apply in_app_or in X. destruct X as [X|X]; [|apply V6; exact X]. eapply wanted_step; [apply V6; exact Sx|]. exists d, new. split; [exact EL|apply I; exact X].
      * intros y X. apply in_or_app. right. apply V7. exact X.
      * intros y e X. rewrite (put_fresh _ x d _ Nx) in X. destruct X as [X|X].
        -- injection X as <- <-. exists new. split; [exact EL|exact C].
        -- destruct (V8 y e X) as (n & E2 & I2). exists n. split; [exact E2|]. intros z Z. apply in_or_app. right. apply I2. exact Z.
      * intros X. contradiction.
      * intros X. assert (Y : p_main st = Draining \/ p_main st = Returned) by (destruct (p_main st); destruct X; try discriminate; auto). destruct (V12 Y) as [Z|[_ Z]]; [left; exact Z|contradiction].
      * intros X. assert (Y : p_main st = Returned \/ p_main st = Exited1) by (destruct (p_main st); destruct X; try discriminate; auto). destruct (V13 Y) as (_ & _ & Z & _). discriminate.
      * intros X. apply V14. destruct (p_main st); try discriminate.
    + exists (x :: failed). constructor; flat; try assumption.
      * rewrite V2. do 2 apply Permutation_app_head. cbn [app]. rewrite (app_assoc rest), (app_assoc rest). apply Permutation_middle.
      * rewrite V4, !app_length. cbn [length]. lia.
      * split; [discriminate|reflexivity].
      * intros y [<-|Y]; [exact EL|apply V9; exact Y].
      * intros X. contradiction.
      * intros _. left. discriminate.
      * intros X. assert (Y : p_main st = Returned \/ p_main st = Exited1) by (destruct (p_main st); destruct X; try discriminate; auto). destruct (V13 Y) as (_ & _ & Z & _). discriminate.
      * intros X. apply V14. destruct (p_main st); try discriminate.
  - exists failed. destruct HI as [V1 V2 V3 V4 V5 V6 V7 V8 V9 V10 V11 V12 V13 V14]. constructor; flat; try assumption; try (destruct (p_error st); discriminate).
    + intros X. apply V12. left. exact HM.
    + intros _. split; [exact E1|]. split; [exact E2|]. split; [exact E3|]. rewrite <- V5. destruct (p_error st); split; (reflexivity || discriminate).
Qed.

Lemma reachable_inv : forall st, reachable load workers roots st -> exists failed, pinv failed st.
Proof.
  intros st H. unfold reachable in H. apply clos_rt_rtn1 in H. induction H as [|y z HS _ (failed & IH)]; [exists []; apply pinv_init|]. eapply pinv_step; eassumption.
Qed.

(** ** never stuck *)
Lemma par_progress : forall st, 0 < workers -> reachable load workers roots st -> ended st \/ exists st', par_step load workers st st'.
Proof.
  intros st HW H. destruct (reachable_inv st H) as (failed & [V1 V2 V3 V4 V5 V6 V7 V8 V9 V10 V11 V12 V13 V14]).
  destruct (p_main st) eqn:EM; unfold ended; rewrite ?EM; try tauto; right.
  - eexists. apply step_main. exact EM.
  - destruct (p_results st) as [|x rest] eqn:ER; [|eexists; eapply step_callback; [exact ER|rewrite EM; reflexivity]].
    destruct (p_running st) as [|x l] eqn:EU; [|eexists; apply (step_finish _ _ _ x [] l); exact EU].
    destruct (p_queue st) as [|x l] eqn:EQ; [|eexists; eapply step_take; [exact EQ|rewrite EU; exact HW]].
    destruct (V11 eq_refl) as (_ & X & Y). subst failed. exfalso. apply X. rewrite V4. reflexivity.
  - eexists. apply step_reacquire. exact EM.
  - destruct (p_results st) as [|x rest] eqn:ER; [|eexists; eapply step_callback; [exact ER|rewrite EM; reflexivity]].
    destruct (p_running st) as [|x l] eqn:EU; [|eexists; apply (step_finish _ _ _ x [] l); exact EU].
    destruct (p_queue st) as [|x l] eqn:EQ; [|eexists; eapply step_take; [exact EQ|rewrite EU; exact HW]].
    eexists. apply step_join; assumption.
Qed.

(** ** always ends *)
Definition wm (m : where_main) : nat := match m with Holding => 3 | Waiting => 1 | Woken => 4 | Draining => 1 | _ => 0 end.
Definition measure (total : nat) (st : state) : nat :=
  20 * (total - length (p_scheduled st)) + 15 * length (p_deps st) + 10 * length (p_queue st) + 8 * length (p_running st) + 6 * length (p_results st) + wm (p_main st).

Lemma step_measure : forall files st st', (forall x, wanted x -> In x files) -> (exists failed, pinv failed st) -> par_step load workers st st' ->
  measure (length files) st' < measure (length files) st.
Proof.
  intros files st st' HF (failed & HI) HS. assert (HI' : exists failed', pinv failed' st') by (eapply pinv_step; eassumption). destruct HI' as (failed' & HI').
  assert (LEN : forall s f, pinv f s -> length (p_scheduled s) <= length files).
  { intros s f [V1 V2 V3 V4 V5 V6 V7 V8 V9 V10 V11 V12 V13 V14]. apply NoDup_incl_length; [exact V3|]. intros y Y. apply HF, V6, Y. }
  pose proof (LEN st failed HI) as L1. pose proof (LEN st' failed' HI') as L2. clear LEN. unfold measure.
  destruct HS as [HM|HM|x queue EQ HW|x l1 l2 ER|x rest ER HL|HM E1 E2 E3].
  - assert (LV : 20 * (length files - length (p_scheduled (leave st))) + 15 * length (p_deps (leave st)) + 10 * length (p_queue (leave st)) + 8 * length (p_running (leave st)) + 6 * length (p_results (leave st)) + wm (p_main (leave st)) <
      20 * (length files - length (p_scheduled st)) + 15 * length (p_deps st) + 10 * length (p_queue st) + 8 * length (p_running st) + 6 * length (p_results st) + wm (p_main st)).
    { unfold leave; flat. rewrite HM. destruct (p_pool st); cbn [wm]; lia. }
    unfold main_loop. destruct (p_deps st) as [|x deps] eqn:ED.
    + destruct (p_pending st); [exact LV|]. destruct (p_error st); [exact LV|]. flat. rewrite HM. cbn [wm length]. lia.
    + destruct (p_error st); [exact LV|]. flat. rewrite HM, app_length. cbn [wm length]. lia.
  - flat. rewrite HM. cbn [wm]. lia.
  - flat. rewrite EQ. cbn [length]. lia.
  - flat. rewrite ER, !app_length. cbn [length]. lia.
  - assert (WN : wm (notified (p_main st)) <= 3 + wm (p_main st)) by (destruct (p_main st); cbn; lia). revert L2. unfold callback. destruct (load x) as [[d new]|].
    + destruct (schedule_spec new (p_scheduled st) (p_deps st)) as (added & E & N & I & C). rewrite E. flat. rewrite ER, !app_length. cbn [length]. lia.
    + flat. rewrite ER. cbn [length]. lia.
  - flat. rewrite HM, E1, E2, E3. destruct (p_error st); cbn [wm]; lia.
Qed.

Lemma par_terminates : finite_project load roots -> forall st, reachable load workers roots st -> Acc (fun s' s => par_step load workers s s') st.
Proof.
  intros (files & HF) st H. remember (measure (length files) st) as n eqn:En. revert st H En. induction n as [n IH] using (well_founded_induction lt_wf). intros st H ->. constructor. intros st' HS.
  apply (IH (measure (length files) st')); [|unfold reachable in *; eapply rt_trans; [exact H|apply rt_step; exact HS]|reflexivity]. apply step_measure; [exact HF|apply reachable_inv; exact H|exact HS].
Qed.

(** ** the result *)
Lemma par_once : forall st, reachable load workers roots st -> NoDup (p_dispatched st) /\ forall x, In x (p_dispatched st) -> wanted x.
Proof.
  intros st H. destruct (reachable_inv st H) as (failed & [V1 V2 V3 V4 V5 V6 V7 V8 V9 V10 V11 V12 V13 V14]). split.
  - apply (Permutation_NoDup V1) in V3. apply NoDup_app_inv in V3. apply V3.
  - intros x X. apply V6. rewrite V1. apply in_or_app. right. exact X.
Qed.

Lemma par_outcome : forall st, reachable load workers roots st -> roots <> [] -> ended st ->
  (p_main st = Returned /\ ~ broken load roots /\ all_loaded load roots (p_data st) /\ Permutation (p_dispatched st) (map fst (p_data st))) \/
  (p_main st = Exited1 /\ broken load roots).
Proof.
  intros st H HN HE. destruct (reachable_inv st H) as (failed & [V1 V2 V3 V4 V5 V6 V7 V8 V9 V10 V11 V12 V13 V14]). destruct HE as [HE|[HE|HE]]; [| |exfalso; apply HN, V14; exact HE].
  - left. destruct (V13 (or_introl HE)) as (E1 & E2 & E3 & E4). assert (F : failed = []) by (destruct failed; [reflexivity|]; assert (X : p_main st = Exited1) by (apply E4; discriminate); congruence). subst failed.
    destruct (V12 (or_intror HE)) as [X|[X _]]; [contradiction|]. rewrite E1, E2, E3, app_nil_r in V2. cbn [app] in V2. rewrite X in V1. cbn [app] in V1.
    assert (KS : forall x, In x (map fst (p_data st)) <-> In x (p_scheduled st)) by (intros x; rewrite V1, V2; reflexivity).
    assert (CL : forall x, wanted x -> In x (p_scheduled st)).
    { intros x (r & Hr & HX). apply clos_rt_rtn1 in HX. induction HX as [|y z HS _ IH]; [apply V7; exact Hr|]. apply KS in IH. apply in_map_iff in IH. destruct IH as ([y' d] & EY & HY). cbn in EY. subst y'. destruct (V8 y d HY) as (new & EL & IN). destruct HS as (d' & new' & EL' & HZ). apply IN. congruence. }
    assert (NB : ~ broken load roots). { intros (x & Wx & Lx). apply CL, KS, in_map_iff in Wx. destruct Wx as ([x' d] & EX & HX). cbn in EX. subst x'. destruct (V8 x d HX) as (new & EL & _). congruence. }
    split; [exact HE|]. split; [exact NB|]. split; [|exact V2]. split.
    + apply (Permutation_NoDup V2). apply (Permutation_NoDup V1). exact V3.
    + intros x d. split.
      * intros HX. destruct (V8 x d HX) as (new & EL & _). split; [|exists new; exact EL]. apply V6, KS. apply (in_map fst) in HX. exact HX.
      * intros (Wx & new & EL). apply CL, KS, in_map_iff in Wx. destruct Wx as ([x' d'] & EX & HX). cbn in EX. subst x'. destruct (V8 x d' HX) as (new' & EL' & _). congruence.
  - right. split; [exact HE|]. destruct (V13 (or_intror HE)) as (E1 & E2 & E3 & E4). destruct failed as [|x failed]; [exfalso; apply (proj1 E4 HE); reflexivity|]. exists x. split; [|apply V9; left; reflexivity].
    apply V6. rewrite V1. apply in_or_app. right. rewrite V2. apply in_or_app. right. apply in_or_app. right. apply in_or_app. right. apply in_or_app. right. left. reflexivity.
Qed.
End Par.

(** ** one after another *)
Section Seq.
Context {A : Type}.
Variable load : string -> option (A * list string).
Variable roots : list string.
Variable files : list string.
Notation wanted := (wanted load roots).
Hypothesis HF : forall x, wanted x -> In x files.

Definition sgood (st : list string * list (string * A)) : Prop :=
  NoDup (fst st) /\ (forall x, In x (fst st) -> wanted x) /\ NoDup (map fst (snd st)) /\ (forall x, In x (fst st) <-> In x (map fst (snd st))) /\
  (forall x d, In (x, d) (snd st) -> exists new, load x = Some (d, new)).
(** everything seen since [st] has its references seen *)
Definition closed_since (st st' : list string * list (string * A)) : Prop :=
  incl (fst st) (fst st') /\ forall x y, In x (fst st') -> ~ In x (fst st) -> refers load x y -> In y (fst st').
Definition spost (st : list string * list (string * A)) (xs : list string) (o : result (list string * list (string * A))) : Prop :=
  match o with
  | Val st' => sgood st' /\ closed_since st st' /\ incl xs (fst st')
  | Exn (GypError x) => wanted x /\ load x = None
  | Exn _ => False
  end.

Lemma seq_spec : forall fuel x st, sgood st -> wanted x -> length files < length (fst st) + fuel -> spost st [x] (seq_load load fuel x st).
Proof.
  induction fuel as [|fuel IH]; intros x st HG Wx HL.
  - exfalso. destruct HG as (N & W & _). assert (length (fst st) <= length files) by (apply NoDup_incl_length; [exact N|intros y Y; apply HF, W, Y]). lia.
  - cbn [seq_load]. destruct st as [seen data]. cbn [fst snd] in *. destruct (mem_spec x seen) as [H|H].
    + split; [exact HG|]. split; [split; [intros y Y; exact Y|intros a b X Y; contradiction]|]. intros y [<-|[]]. exact H.
    + destruct (load x) as [[d new]|] eqn:EL; [|split; [exact Wx|exact EL]].
      destruct HG as (N & W & ND & KS & LD). cbn [fst snd] in *.
      assert (Nx : ~ In x (map fst data)) by (intros X; apply H, KS, X). rewrite (put_fresh _ x d data Nx).
      set (st1 := (seen ++ [x], (x, d) :: data)).
      assert (G1 : sgood st1).
      { split; [apply NoDup_snoc; assumption|]. split; [intros y Y; apply in_app_or in Y; destruct Y as [Y|[<-|[]]]; [apply W; exact Y|exact Wx]|]. cbn [st1 fst snd map].
        split; [constructor; assumption|]. split; [intros y; rewrite in_app_iff; cbn [In]; rewrite KS; tauto|]. intros y e [Y|Y]; [injection Y as <- <-; exists new; exact EL|apply LD; exact Y]. }
      assert (LOOP : forall l st2, sgood st2 -> closed_since st1 st2 -> (forall y, In y l -> refers load x y) ->
        match rfold (fun st y => seq_load load fuel y st) l st2 with
        | Val st3 => sgood st3 /\ closed_since st1 st3 /\ incl (fst st2) (fst st3) /\ incl l (fst st3)
        | Exn (GypError z) => wanted z /\ load z = None
        | Exn _ => False
        end).
      { induction l as [|y l IHl]; intros st2 G2 C2 HY; [cbn [rfold]; split; [exact G2|]; split; [exact C2|]; split; [intros z Z; exact Z|intros z []]|].
        cbn [rfold]. assert (L2 : length (fst st1) <= length (fst st2)) by (apply NoDup_incl_length; [apply G1|apply C2]). cbn [st1 fst] in L2. rewrite app_length in L2. cbn [length] in L2.
        pose proof (IH y st2 G2 (wanted_step load roots x y Wx (HY y (or_introl eq_refl))) ltac:(lia)) as HP. destruct (seq_load load fuel y st2) as [st3|e] eqn:E3; cbn [rbind]; [|exact HP].
        destruct HP as (G3 & [C3a C3b] & I3). assert (C13 : closed_since st1 st3).
        { destruct C2 as [C2a C2b]. split; [intros z Z; apply C3a, C2a, Z|]. intros a b Ha Na R. destruct (in_dec string_dec a (fst st2)) as [Y|Y]; [apply C3a; apply (C2b a b Y Na R)|apply (C3b a b Ha Y R)]. }
        specialize (IHl st3 G3 C13 (fun z Z => HY z (or_intror Z))). destruct (rfold _ l st3) as [st4|e]; [|exact IHl]. destruct IHl as (G4 & C4 & I4 & L4). split; [exact G4|]. split; [exact C4|]. split; [intros z Z; apply I4, C3a, Z|]. intros z [<-|Z]; [apply I4, I3; left; reflexivity|apply L4; exact Z]. }
      assert (C11 : closed_since st1 st1) by (split; [intros z Z; exact Z|intros; contradiction]).
      specialize (LOOP new st1 G1 C11 (fun y Y => ex_intro _ d (ex_intro _ new (conj EL Y)))). unfold spost. destruct (rfold _ new st1) as [st3|e]; [|exact LOOP].
      destruct LOOP as (G3 & [C3a C3b] & I3 & L3). split; [exact G3|]. split; [|intros y [<-|[]]; apply C3a; cbn [st1 fst]; apply in_or_app; right; left; reflexivity].
      split; [intros z Z; apply C3a; cbn [st1 fst]; apply in_or_app; left; exact Z|]. intros a b Ha Na R. cbn [fst] in Na. destruct (string_dec a x) as [->|Hne].
      * destruct R as (d' & new' & EL' & HB). apply L3. congruence.
      * apply (C3b a b Ha); [|exact R]. cbn [st1 fst]. intros X. apply in_app_or in X. destruct X as [X|[X|[]]]; [contradiction|congruence].
Qed.

Lemma seq_all : match seq_load_all load (S (length files)) roots with
  | Val (seen, data) => ~ broken load roots /\ all_loaded load roots data /\ (forall x, In x seen <-> wanted x)
  | Exn (GypError x) => wanted x /\ load x = None
  | Exn _ => False
  end.
Proof.
  unfold seq_load_all.
  assert (LOOP : forall l st, incl l roots -> sgood st -> closed_since ([], []) st ->
    match rfold (fun st y => seq_load load (S (length files)) y st) l st with
    | Val st3 => sgood st3 /\ closed_since ([], []) st3 /\ incl (fst st) (fst st3) /\ incl l (fst st3)
    | Exn (GypError z) => wanted z /\ load z = None
    | Exn _ => False
    end).
  { induction l as [|y l IHl]; intros st HI G C; [cbn [rfold]; split; [exact G|]; split; [exact C|]; split; [intros z Z; exact Z|intros z []]|].
    cbn [rfold]. pose proof (seq_spec (S (length files)) y st G (wanted_root load roots y (HI y (or_introl eq_refl))) ltac:(lia)) as HP. destruct (seq_load load (S (length files)) y st) as [st3|e]; cbn [rbind]; [|exact HP].
    destruct HP as (G3 & [C3a C3b] & I3). assert (C13 : closed_since ([], []) st3).
    { destruct C as [C2a C2b]. split; [intros z []|]. intros a b Ha Na R. destruct (in_dec string_dec a (fst st)) as [Y|Y]; [apply C3a; apply (C2b a b Y Na R)|apply (C3b a b Ha Y R)]. }
    specialize (IHl st3 (fun z Z => HI z (or_intror Z)) G3 C13). destruct (rfold _ l st3) as [st4|e]; [|exact IHl]. destruct IHl as (G4 & C4 & I4 & L4). split; [exact G4|]. split; [exact C4|]. split; [intros z Z; apply I4, C3a, Z|]. intros z [<-|Z]; [apply I4, I3; left; reflexivity|apply L4; exact Z]. }
  assert (G0 : sgood ([], [])). { split; [constructor|]. split; [intros x []|]. split; [constructor|]. split; [intros x; reflexivity|intros x d []]. }
  assert (C0 : closed_since ([], []) ([], [])) by (split; [intros z Z; exact Z|intros a b []]). specialize (LOOP roots ([], []) (fun z Z => Z) G0 C0). destruct (rfold _ roots ([], [])) as [[seen data]|e]; [|exact LOOP].
  destruct LOOP as ((N & W & ND & KS & LD) & [_ C] & _ & HRo). cbn [fst snd] in *.
  assert (CL : forall x, wanted x -> In x seen). { intros x (r & Hr & HX). apply clos_rt_rtn1 in HX. induction HX as [|y z HS _ IH]; [apply HRo; exact Hr|]. apply (C y z IH); [intros []|exact HS]. }
  assert (DL : forall x, wanted x -> exists d new, In (x, d) data /\ load x = Some (d, new)).
  { intros x Wx. apply CL, KS, in_map_iff in Wx. destruct Wx as ([x' d] & EX & HX). cbn in EX. subst x'. destruct (LD x d HX) as (new & EL). exists d, new. tauto. }
  split; [|split; [split; [exact ND|]|]].
  - intros (x & Wx & Lx). destruct (DL x Wx) as (d & new & _ & EL). congruence.
  - intros x d. split.
    + intros HX. split; [apply W, KS; apply (in_map fst) in HX; exact HX|apply LD; exact HX].
    + intros (Wx & new & EL). destruct (DL x Wx) as (d' & new' & HX & EL'). congruence.
  - intros x. split; [apply W|apply CL].
Qed.
End Seq.

Lemma all_loaded_unique : forall (A : Type) (load : string -> option (A * list string)) roots data data',
  all_loaded load roots data -> all_loaded load roots data' -> Permutation data data'.
Proof.
  intros A load roots data data' [N1 H1] [N2 H2]. apply NoDup_Permutation; [apply NoDup_map_inv in N1; exact N1|apply NoDup_map_inv in N2; exact N2|]. intros [x d]. rewrite H1, H2. reflexivity.
Qed.
Lemma no_files_crash : forall (A : Type) (load : string -> option (A * list string)) workers, exists st, reachable load workers [] st /\ p_main st = Crashed.
Proof. intros A load workers. eexists. split; [apply rt_step; apply step_main; reflexivity|reflexivity]. Qed.
