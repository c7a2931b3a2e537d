(** Proofs about the analyzer: searching down for affected targets and up for
    the targets to compile. *)
From Verif Require Import Lib LibFacts Model_Graph Model_Names Model_Analyzer Spec_Analyzer Proof_Analyzer.

Section Search.
Variable ts : atargets.
Variable target_list : list string.
Variable changed : string -> bool.
Hypothesis HD : NoDup (map fst ts).
Notation K := (known ts target_list).
Notation needs := (needs ts).
Notation affected := (affected ts changed).
Notation above := (above ts target_list).
Variable r : string -> nat.
Variable N : nat.
Hypothesis Hr : forall t d, needs t d -> r d < r t.
Hypothesis HN : forall t, K t -> r t < N.
Hypothesis Hin : forall t, K t -> In t (map fst ts).

(** ** down *)
Variable dp : string -> list string.
Hypothesis Hdp : forall t d, K t -> In d (dp t) <-> needs t d.

Definition down_inv (st : string -> status) : Prop := forall u, K u ->
  match st u with Matches => changed u = true | MatchesByDependency => affected u | DoesntMatch => ~ affected u | Tbd => changed u = false end.

Lemma affected_step : forall t, affected t <-> changed t = true \/ exists d, needs t d /\ affected d.
Proof.
  intros t. split.
  - intros (u & H & C). apply clos_rt_rt1n in H. destruct H as [|d u HS H]; [left; exact C|]. right. exists d. split; [exact HS|]. exists u. split; [apply clos_rt1n_rt; exact H|exact C].
  - intros [C|(d & HS & u & H & C)]; [exists t; split; [apply rt_refl|exact C]|]. exists u. split; [eapply rt_trans; [apply rt_step; exact HS|exact H]|exact C].
Qed.

Lemma down_set : forall st t s, down_inv st ->
  match s with Matches => changed t = true | MatchesByDependency => affected t | DoesntMatch => ~ affected t | Tbd => changed t = false end ->
  down_inv (set_status st t s).
Proof.
  intros st t s H HS u Hu. unfold set_status. destruct (String.eqb_spec u t) as [->|]; [exact HS|apply H; exact Hu].
Qed.

Lemma down_eq : forall fuel deps t st,
  depends_on_matching (S fuel) deps t st =
  match st t with
  | DoesntMatch => Some (false, st)
  | Matches | MatchesByDependency => Some (true, st)
  | Tbd =>
      (fix go (l : list string) (st : string -> status) : option (bool * (string -> status)) :=
         match l with
         | [] => Some (false, set_status st t DoesntMatch)
         | d :: l' =>
           match depends_on_matching fuel deps d st with
           | None => None
           | Some (true, st') => Some (true, set_status st' t MatchesByDependency)
           | Some (false, st') => go l' st'
           end
         end) (deps t) st
  end.
Proof. reflexivity. Qed.

Lemma down_spec : forall fuel t st, K t -> r t < fuel -> down_inv st ->
  exists b st', depends_on_matching fuel dp t st = Some (b, st') /\ (b = true <-> affected t) /\ down_inv st'.
Proof.
  induction fuel as [|fuel IH]; intros t st Kt Hf HI; [lia|]. rewrite down_eq. pose proof (HI t Kt) as Ht. destruct (st t).
  - exists true, st. split; [reflexivity|]. split; [|exact HI]. split; [intros _; apply affected_step; left; exact Ht|reflexivity].
  - exists true, st. split; [reflexivity|]. split; [|exact HI]. split; [intros _; exact Ht|reflexivity].
  - exists false, st. split; [reflexivity|]. split; [|exact HI]. split; [discriminate|intros X; contradiction].
  - assert (Hl : forall d, In d (dp t) -> needs t d) by (intros d; apply Hdp; exact Kt).
    assert (Hd : forall d, needs t d -> affected d -> In d (dp t)) by (intros d X _; apply Hdp; assumption).
    revert st HI Hl Hd. induction (dp t) as [|d l IHl]; intros st HI Hl Hd.
    + eexists false, _. split; [reflexivity|]. assert (NA : ~ affected t). { intros X. apply affected_step in X. destruct X as [X|(d & X & Y)]; [congruence|exact (Hd d X Y)]. }
      split; [split; [discriminate|contradiction]|]. apply down_set; assumption.
    + assert (Kd : K d) by (eapply known_step; [exact Kt|apply Hl; left; reflexivity]).
      assert (Rd : r d < fuel) by (pose proof (Hr t d (Hl d (or_introl eq_refl))); lia).
      destruct (IH d st Kd Rd HI) as (b & st' & E & B & HI'). rewrite E. destruct b.
      * eexists true, _. split; [reflexivity|]. assert (A : affected t) by (apply affected_step; right; exists d; split; [apply Hl; left; reflexivity|apply B; reflexivity]).
        split; [tauto|]. apply down_set; assumption.
      * apply IHl; [exact HI'|intros x Hx; apply Hl; right; exact Hx|]. intros x X Y. destruct (Hd x X Y) as [->|Z]; [|exact Z]. apply B in Y. discriminate.
Qed.

Lemma targets_depending_spec : forall fuel possible st, (forall t, In t possible -> K t) -> N <= fuel -> down_inv st ->
  exists found, targets_depending fuel dp possible st = Some found /\ (forall t, In t found <-> In t possible /\ affected t) /\ sublist found possible.
Proof.
  induction possible as [|t possible IH]; intros st HK Hf HI; [exists []; split; [reflexivity|]; split; [cbn; tauto|constructor]|].
  cbn [targets_depending]. pose proof (HN t (HK t (or_introl eq_refl))). destruct (down_spec fuel t st (HK t (or_introl eq_refl)) ltac:(lia) HI) as (b & st' & E & B & HI'). rewrite E.
  destruct (IH st' (fun x Hx => HK x (or_intror Hx)) Hf HI') as (found & E2 & F & S). rewrite E2. cbn [option_map]. eexists. split; [reflexivity|]. destruct b.
  - split; [|constructor; exact S]. intros u. cbn [In]. rewrite F. assert (affected t) by (apply B; reflexivity). split; [intros [X|X]; [subst; tauto|tauto]|tauto].
  - split; [|constructor; exact S]. intros u. cbn [In]. rewrite F. assert (~ affected t) by (intros X; apply B in X; discriminate). split; [tauto|]. intros [[X|X] Y]; [subst; contradiction|tauto].
Qed.

(** ** up *)
Variable bk : string -> list string.
Hypothesis Hbk : forall t b, K t -> In b (bk t) <-> K b /\ needs b t.
Variable supplied : list string.
Notation Bel := (below ts target_list supplied).
Notation of_type := (of_type ts).
Notation builds := (builds ts).

Lemma above_step : forall u a, above u a <-> a = u \/ exists b, K b /\ needs b u /\ above b a.
Proof.
  intros u a. split.
  - intros H. apply clos_rt_rtn1 in H. destruct H as [|b u' HS H]; [left; reflexivity|]. right. exists b. split; [apply HS|]. split; [apply HS|]. apply clos_rtn1_rt. exact H.
  - intros [->|(b & Kb & HS & H)]; [apply rt_refl|]. eapply rt_trans; [exact H|apply rt_step; split; assumption].
Qed.
Lemma above_rank : forall u a, above u a -> r u <= r a.
Proof. intros u a H. induction H as [x y [_ H]| |x y z _ H1 _ H2]; [pose proof (Hr _ _ H); lia|lia|lia]. Qed.
Lemma Bel_step : forall u, Bel u <-> In u supplied \/ exists b, K b /\ needs b u /\ Bel b.
Proof.
  intros u. split.
  - intros (s & Hs & H). apply above_step in H. destruct H as [->|(b & Kb & HS & H)]; [left; exact Hs|]. right. exists b. split; [exact Kb|]. split; [exact HS|]. exists s. split; assumption.
  - intros [H|(b & Kb & HS & s & Hs & H)]; [exists u; split; [exact H|apply rt_refl]|]. exists s. split; [exact Hs|]. apply above_step. right. exists b. tauto.
Qed.

Record fin_node (fin : list string) (st : cstate) (u : string) : Prop := {
  f_up : forall a, above u a -> In a fin;
  f_roots : c_in_roots st u = true <-> Bel u;
  f_linked : c_linked st u = true <-> exists a, above u a /\ is_linked ts a = true;
  f_added : c_added st u = true <-> exists a, above u a /\ In a (c_result st);
  f_exe : Bel u -> of_type u "executable" -> In u (c_result st);
  f_builds : Bel u -> builds u -> c_added st u = true
}.
Definition good (res : list string) (x : string) : Prop :=
  Bel x /\ (changed x = true \/ builds x) /\
  (of_type x "executable" \/ (forall a, above x a -> In a res -> a = x) \/
   (of_type x "static_library" /\ changed x = true /\ forall a, above x a -> is_linked ts a = false)).
Record up_inv (fin stk : list string) (st : cstate) : Prop := {
  u_vis : forall x, In x (c_visited st) <-> In x fin \/ In x stk;
  u_disj : forall x, In x fin -> In x stk -> False;
  u_fin : forall u, In u fin -> fin_node fin st u;
  u_res : incl (c_result st) fin;
  u_new : forall x, ~ In x (c_visited st) -> c_added st x = false /\ c_linked st x = is_linked ts x;
  u_good : forall x, In x (c_result st) -> good (c_result st) x;
  u_nodup : NoDup (c_result st)
}.
(** how one call may change the state *)
Record grows (st st' : cstate) : Prop := {
  w_flags : forall u, In u (c_visited st) -> c_in_roots st' u = c_in_roots st u /\ c_linked st' u = c_linked st u /\ c_added st' u = c_added st u;
  w_old : incl (c_result st) (c_result st');
  w_new : forall x, In x (c_result st') -> In x (c_result st) \/ ~ In x (c_visited st)
}.
Lemma grows_trans : forall a b c, incl (c_visited a) (c_visited b) -> grows a b -> grows b c -> grows a c.
Proof.
  intros a b c HV [A1 A2 A3] [B1 B2 B3]. constructor.
  - intros u Hu. destruct (A1 u Hu) as (X1 & X2 & X3). destruct (B1 u (HV u Hu)) as (Y1 & Y2 & Y3). repeat split; congruence.
  - intros x Hx. apply B2, A2, Hx.
  - intros x Hx. destruct (B3 x Hx) as [X|X]; [apply A3; exact X|right; intros Y; apply X, HV, Y].
Qed.

Lemma fin_node_stable : forall fin fin' st st' u, fin_node fin st u ->
  c_in_roots st' u = c_in_roots st u -> c_linked st' u = c_linked st u -> c_added st' u = c_added st u ->
  incl fin fin' -> incl (c_result st) (c_result st') -> (forall x, In x (c_result st') -> In x fin -> In x (c_result st)) ->
  fin_node fin' st' u.
Proof.
  intros fin fin' st st' u [F1 F2 F3 F4 F5 F6] E1 E2 E3 HF HO HNw. constructor.
  - intros a Ha. apply HF, F1, Ha.
  - rewrite E1. exact F2.
  - rewrite E2. exact F3.
  - rewrite E3, F4. split; intros (a & Ha & X); exists a; (split; [exact Ha|]); [apply HO; exact X|apply HNw; [exact X|apply F1; exact Ha]].
  - intros X Y. apply HO, F5; assumption.
  - rewrite E3. exact F6.
Qed.

Lemma up_eq : forall fuel back roots aina t st,
  add_compile_targets (S fuel) ts back roots aina t st =
    if mem t (c_visited st) then Ok st
    else
      let st1 := mk_c (t :: c_visited st) (set_flag (c_in_roots st) t (mem t roots)) (c_added st) (c_linked st) (c_result st) in
      bind (ofold (fun st b => bind (add_compile_targets fuel ts back roots false b st) (fun st' => Ok (inherit t b st'))) (back t) st1)
           (add_if_needed ts aina t).
Proof. reflexivity. Qed.

Lemma type_assoc : forall t a ty, assoc t ts = Some a -> of_type t ty <-> a_type a = ty.
Proof.
  intros t a ty E. split.
  - intros (a' & HI & X). rewrite (In_assoc _ _ _ _ HD HI) in E. congruence.
  - intros X. exists a. split; [apply assoc_In; exact E|exact X].
Qed.
Lemma builds_assoc : forall t a, assoc t ts = Some a -> builds t <-> requires_build a = true.
Proof.
  intros t a E. unfold requires_build. rewrite orb_true_iff, negb_true_iff, String.eqb_neq. split.
  - intros (a' & HI & X). rewrite (In_assoc _ _ _ _ HD HI) in E. injection E as ->. exact X.
  - intros X. exists a. split; [apply assoc_In; exact E|exact X].
Qed.

Definition call_post (fin stk : list string) (st : cstate) (t : string) (res : outcome cstate) : Prop :=
  exists st' fin', res = Ok st' /\ up_inv fin' stk st' /\ incl fin fin' /\ In t fin' /\ grows st st' /\
    (forall u, In u fin' -> In u fin \/ above t u).

Lemma grows_refl : forall st, grows st st.
Proof. intros st. constructor; [repeat split|intros x H; exact H|tauto]. Qed.

(** the last step: [t] leaves the stack *)
Lemma finish : forall fin stk st aina t, K t -> ~ In t fin -> ~ In t stk -> (aina = true -> changed t = true) -> up_inv fin (t :: stk) st ->
  (forall b, K b -> needs b t -> In b fin) ->
  (c_in_roots st t = true <-> Bel t) ->
  (c_added st t = true <-> exists b a, K b /\ needs b t /\ above b a /\ In a (c_result st)) ->
  (c_linked st t = true <-> exists a, above t a /\ is_linked ts a = true) ->
  exists st', add_if_needed ts aina t st = Ok st' /\ up_inv (t :: fin) stk st' /\ c_visited st' = c_visited st /\
    (forall u, u <> t -> c_in_roots st' u = c_in_roots st u /\ c_linked st' u = c_linked st u /\ c_added st' u = c_added st u) /\
    incl (c_result st) (c_result st') /\ (forall x, In x (c_result st') -> In x (c_result st) \/ x = t).
Proof.
  intros fin stk st aina t Kt Nt Ns Ha [V D F R U G ND] HB HR HA HL. unfold add_if_needed.
  destruct (assoc_Some_key _ t ts (Hin t Kt)) as (a & Ea). rewrite Ea. set (cond := c_in_roots st t && _).
  assert (UP : forall x, above t x -> x = t \/ In x fin).
  { intros x Hx. apply above_step in Hx. destruct Hx as [->|(b & Kb & HS & H)]; [tauto|]. right. exact (f_up _ _ _ (F b (HB b Kb HS)) x H). }
  assert (ST : forall x, above t x -> x <> t -> exists b, K b /\ needs b t /\ above b x).
  { intros x Hx Hne. apply above_step in Hx. destruct Hx as [->|X]; [contradiction|exact X]. }
  pose proof (type_assoc t a "executable" Ea) as TE. pose proof (type_assoc t a "static_library" Ea) as TS. pose proof (builds_assoc t a Ea) as TB.
  assert (CS : cond = true <-> Bel t /\ (of_type t "executable" \/ (c_added st t = false /\ (aina = true \/ builds t)) \/ (of_type t "static_library" /\ aina = true /\ c_linked st t = false))).
  { unfold cond. rewrite andb_true_iff, HR, !orb_true_iff, !andb_true_iff, !negb_true_iff, !orb_true_iff, !String.eqb_eq, TE, TS, TB. tauto. }
  assert (NR : ~ In t (c_result st)) by (intros X; apply Nt, R, X).
  assert (FB : forall u x, In u fin -> above u x -> x <> t). { intros u x Hu Hx ->. apply Nt. exact (f_up _ _ _ (F u Hu) t Hx). }
  destruct cond eqn:Ec.
  - pose proof (proj1 CS eq_refl) as (Bt & Why). eexists. split; [reflexivity|].
    assert (OA : forall x, In x (oset_add t (c_result st)) <-> In x (c_result st) \/ x = t) by (intros x; rewrite oset_add_In; tauto).
    split; [|split; [reflexivity|]; split; [intros u Hu; cbn; unfold set_flag; destruct (String.eqb_spec u t); [contradiction|repeat split]|]; split; [intros x X; apply OA; left; exact X|intros x X; apply OA; exact X]].
    constructor; cbn [c_visited c_in_roots c_added c_linked c_result].
    + intros x. rewrite V. cbn [In]. tauto.
    + intros x [X|X] Y; [subst; contradiction|]. exact (D x X (or_intror Y)).
    + intros u [<-|Hu].
      * constructor; cbn [c_visited c_in_roots c_added c_linked c_result].
        -- intros x X. cbn [In]. destruct (UP x X); [left; congruence|tauto].
        -- exact HR.
        -- exact HL.
        -- unfold set_flag. rewrite String.eqb_refl. split; [intros _; exists t; split; [apply rt_refl|apply OA; right; reflexivity]|reflexivity].
        -- intros _ _. apply OA. tauto.
        -- intros _ _. unfold set_flag. rewrite String.eqb_refl. reflexivity.
      * apply fin_node_stable with (fin := fin) (st := st); cbn; try reflexivity.
        -- apply F. exact Hu.
        -- unfold set_flag. destruct (String.eqb_spec u t) as [->|]; [contradiction|reflexivity].
        -- intros x X. right. exact X.
        -- intros x X. apply OA. tauto.
        -- intros x X Y. apply OA in X. destruct X as [X|X]; [exact X|]. subst. contradiction.
    + intros x X. apply OA in X. destruct X as [X|X]; [right; apply R; exact X|left; congruence].
    + intros x Hx. assert (x <> t) by (intros ->; apply Hx, V; right; left; reflexivity). unfold set_flag. destruct (String.eqb_spec x t); [contradiction|]. apply U. exact Hx.
    + intros x X. apply OA in X. destruct X as [X|X].
      * destruct (G x X) as (G1 & G2 & G3). split; [exact G1|]. split; [exact G2|]. destruct G3 as [G3|[G3|G3]]; [tauto| |tauto]. right. left. intros y Y Z. apply OA in Z. destruct Z as [Z|Z]; [apply G3; assumption|]. subst y. exfalso. exact (FB x t (R x X) Y eq_refl).
      * subst x. split; [exact Bt|]. assert (CB : changed t = true \/ builds t).
        { destruct Why as [X|[[_ [X|X]]|[_ [X _]]]]; [right; apply TB; unfold requires_build; rewrite (proj1 TE X); reflexivity|left; apply Ha; exact X|right; exact X|left; apply Ha; exact X]. }
        split; [exact CB|]. destruct Why as [X|[[X _]|[X [Y Z]]]]; [left; exact X| |].
        -- right. left. intros y Y Z. apply OA in Z. destruct Z as [Z|Z]; [|exact Z]. destruct (string_dec y t) as [|Hne]; [assumption|]. exfalso. destruct (ST y Y Hne) as (b & Kb & HS & Hb).
           assert (c_added st t = true) by (apply HA; exists b, y; tauto). congruence.
        -- right. right. split; [exact X|]. split; [apply Ha; exact Y|]. intros y Hy. destruct (is_linked ts y) eqn:El; [|reflexivity]. assert (c_linked st t = true) by (apply HL; exists y; tauto). congruence.
    + apply oset_add_NoDup. exact ND.
  - eexists. split; [reflexivity|]. split; [|split; [reflexivity|]; split; [repeat split|]; split; [intros x X; exact X|tauto]].
    assert (CN : ~ (Bel t /\ (of_type t "executable" \/ (c_added st t = false /\ (aina = true \/ builds t)) \/ (of_type t "static_library" /\ aina = true /\ c_linked st t = false)))) by (rewrite <- CS; discriminate).
    constructor; try assumption.
    + intros x. rewrite V. cbn [In]. tauto.
    + intros x [X|X] Y; [subst; contradiction|]. exact (D x X (or_intror Y)).
    + intros u [<-|Hu].
      * constructor.
        -- intros x X. cbn [In]. destruct (UP x X); [left; congruence|tauto].
        -- exact HR.
        -- exact HL.
        -- rewrite HA. split; [intros (b & x & Kb & HS & X & Y); exists x; split; [apply above_step; right; exists b; tauto|exact Y]|]. intros (x & X & Y). assert (x <> t) by (intros ->; contradiction). destruct (ST x X H) as (b & Kb & HS & Hb). exists b, x. tauto.
        -- intros X Y. exfalso. apply CN. tauto.
        -- intros X Y. destruct (c_added st t) eqn:E; [reflexivity|]. exfalso. apply CN. tauto.
      * apply fin_node_stable with (fin := fin) (st := st); try reflexivity; [apply F; exact Hu|intros x X; right; exact X|intros x X; exact X|tauto].
    + intros x X. right. apply R. exact X.
Qed.

Lemma up_spec : forall fuel t aina fin stk st, K t -> N - r t <= fuel -> (aina = true -> changed t = true) ->
  up_inv fin stk st -> (forall u, In u stk -> r u < r t) ->
  call_post fin stk st t (add_compile_targets fuel ts bk supplied aina t st).
Proof.
  induction fuel as [|fuel IH]; intros t aina fin stk st Kt Hf Ha HI Hs; [pose proof (HN t Kt); lia|]. rewrite up_eq.
  assert (Nts : ~ In t stk) by (intros X; specialize (Hs t X); lia).
  destruct (mem_spec t (c_visited st)) as [Hv|Hv].
  - exists st, fin. split; [reflexivity|]. split; [exact HI|]. split; [intros x X; exact X|]. split; [apply (u_vis _ _ _ HI) in Hv; tauto|]. split; [apply grows_refl|tauto].
  - cbn zeta. set (st1 := mk_c _ _ _ _ _).
    assert (Ntf : ~ In t fin) by (intros X; apply Hv, (u_vis _ _ _ HI); tauto).
    assert (I1 : up_inv fin (t :: stk) st1).
    { destruct HI as [V D F R U G ND]. constructor; cbn [st1 c_visited c_in_roots c_added c_linked c_result]; try assumption.
      - intros x. cbn [In]. rewrite V. tauto.
      - intros x X [Y|Y]; [subst; contradiction|exact (D x X Y)].
      - intros u Hu. apply fin_node_stable with (fin := fin) (st := st); try reflexivity; [apply F; exact Hu| |intros x X; exact X|intros x X; exact X|tauto].
        cbn. unfold set_flag. destruct (String.eqb_spec u t) as [->|]; [contradiction|reflexivity].
      - intros x Hx. apply U. intros X. apply Hx. right. exact X. }
    (* the loop over the targets that need t *)
    assert (LOOP : forall l done st2 fin2, (forall b, In b l -> K b /\ needs b t) -> (forall b, In b done -> In b fin2) ->
      up_inv fin2 (t :: stk) st2 -> incl fin fin2 -> (forall u, In u fin2 -> In u fin \/ above t u) ->
      (forall u, In u (c_visited st) -> c_in_roots st2 u = c_in_roots st u /\ c_linked st2 u = c_linked st u /\ c_added st2 u = c_added st u) ->
      incl (c_result st) (c_result st2) -> (forall x, In x (c_result st2) -> In x (c_result st) \/ ~ In x (c_visited st)) ->
      (c_in_roots st2 t = true <-> In t supplied \/ exists b, In b done /\ Bel b) ->
      (c_added st2 t = true <-> exists b a, In b done /\ above b a /\ In a (c_result st2)) ->
      (c_linked st2 t = true <-> is_linked ts t = true \/ exists b a, In b done /\ above b a /\ is_linked ts a = true) ->
      exists st3 fin3, ofold (fun st b => bind (add_compile_targets fuel ts bk supplied false b st) (fun st' => Ok (inherit t b st'))) l st2 = Ok st3 /\
      (forall b, In b (done ++ l) -> In b fin3) /\
      up_inv fin3 (t :: stk) st3 /\ incl fin fin3 /\ (forall u, In u fin3 -> In u fin \/ above t u) /\
      (forall u, In u (c_visited st) -> c_in_roots st3 u = c_in_roots st u /\ c_linked st3 u = c_linked st u /\ c_added st3 u = c_added st u) /\
      incl (c_result st) (c_result st3) /\ (forall x, In x (c_result st3) -> In x (c_result st) \/ ~ In x (c_visited st)) /\
      (c_in_roots st3 t = true <-> In t supplied \/ exists b, In b (done ++ l) /\ Bel b) /\
      (c_added st3 t = true <-> exists b a, In b (done ++ l) /\ above b a /\ In a (c_result st3)) /\
      (c_linked st3 t = true <-> is_linked ts t = true \/ exists b a, In b (done ++ l) /\ above b a /\ is_linked ts a = true)).
    { induction l as [|b l IHl]; intros done st2 fin2 HL Hdone I2 HF2 HA2 HG2 HO2 HN2 R2 A2 L2.
      - exists st2, fin2. rewrite app_nil_r. repeat (split; [first [reflexivity|assumption]|]). assumption.
      - cbn [ofold]. destruct (HL b (or_introl eq_refl)) as [Kb Nb]. pose proof (Hr b t Nb) as Rb.
        destruct (IH b false fin2 (t :: stk) st2 Kb ltac:(pose proof (HN b Kb); lia) ltac:(discriminate) I2) as (st3 & fin3 & E & I3 & HF3 & Hb3 & [W1 W2 W3] & HA3).
        { intros u [<-|Hu]; [exact Rb|]. specialize (Hs u Hu). lia. }
        rewrite E. cbn [bind]. assert (V2 : forall x, In x (c_visited st2) <-> In x fin2 \/ In x (t :: stk)) by apply I2. assert (V3 : forall x, In x (c_visited st3) <-> In x fin3 \/ In x (t :: stk)) by apply I3.
        assert (Tv : In t (c_visited st2)) by (apply V2; right; left; reflexivity). destruct (W1 t Tv) as (T1 & T2 & T3).
        assert (Nt3 : ~ In t fin3) by (intros X; exact (u_disj _ _ _ I3 t X (or_introl eq_refl))).
        pose proof (u_fin _ _ _ I3 b Hb3) as Fb.
        assert (Hbt : b <> t) by (intros ->; contradiction).
        destruct (IHl (done ++ [b]) (inherit t b st3) fin3) as (st4 & fin4 & E4 & REST).
        + intros x Hx. apply HL. right. exact Hx.
        + intros x Hx. apply in_app_or in Hx. destruct Hx as [Hx|[<-|[]]]; [apply HF3, Hdone, Hx|exact Hb3].
        + destruct I3 as [V D F R U G ND]. constructor; cbn [inherit c_visited c_in_roots c_added c_linked c_result]; try assumption.
          * intros u Hu. assert (u <> t) by (intros ->; contradiction). apply fin_node_stable with (fin := fin3) (st := st3); cbn [inherit c_visited c_in_roots c_added c_linked c_result]; unfold set_flag; try (destruct (String.eqb_spec u t); [contradiction|reflexivity]); [apply F; exact Hu|intros x X; exact X|intros x X; exact X|tauto].
          * intros x Hx. unfold set_flag. assert (x <> t) by (intros ->; apply Hx, V; right; left; reflexivity). destruct (String.eqb_spec x t); [contradiction|]. apply U. exact Hx.
        + intros x X. apply HF3, HF2, X.
        + intros u Hu. destruct (HA3 u Hu) as [X|X]; [apply HA2; exact X|]. right. apply rt_trans with b; [exact X|apply rt_step; split; assumption].
        + intros u Hu. assert (Hut : u <> t) by (intros ->; contradiction). cbn [inherit c_in_roots c_linked c_added]. unfold set_flag. destruct (String.eqb_spec u t); [contradiction|].
          assert (Uv : In u (c_visited st2)). { apply V2. apply (u_vis _ _ _ HI) in Hu. destruct Hu as [Hu|Hu]; [left; apply HF2; exact Hu|right; right; exact Hu]. }
          destruct (W1 u Uv) as (X1 & X2 & X3). destruct (HG2 u Hu) as (Y1 & Y2 & Y3). repeat split; congruence.
        + intros x X. apply W2, HO2, X.
        + intros x X. cbn [inherit c_result] in X. destruct (W3 x X) as [Y|Y]; [apply HN2; exact Y|]. right. intros Z. apply Y. apply V2. apply (u_vis _ _ _ HI) in Z. destruct Z as [Z|Z]; [left; apply HF2; exact Z|right; right; exact Z].
        + cbn [inherit c_in_roots]. unfold set_flag. rewrite String.eqb_refl, orb_true_iff, T1, R2, (f_roots _ _ _ Fb). split.
          * intros [[X|(x & X & Y)]|X]; [tauto| |]; right; [exists x|exists b]; (split; [apply in_or_app|assumption]); [left; exact X|right; left; reflexivity].
          * intros [X|(x & X & Y)]; [tauto|]. apply in_app_or in X. destruct X as [X|[<-|[]]]; [left; right; exists x; tauto|tauto].
        + cbn [inherit c_added c_result]. unfold set_flag. rewrite String.eqb_refl, orb_true_iff, T3, A2, (f_added _ _ _ Fb). split.
          * intros [(x & y & X & Y & Z)|(y & Y & Z)]; [exists x, y|exists b, y]; (split; [apply in_or_app; cbn; tauto|]); (split; [exact Y|]); [apply W2; exact Z|exact Z].
          * intros (x & y & X & Y & Z). apply in_app_or in X. destruct X as [X|[<-|[]]]; [|right; exists y; tauto]. left. exists x, y. split; [exact X|]. split; [exact Y|]. destruct (W3 y Z) as [Q|Q]; [exact Q|]. exfalso. apply Q, V2. left. apply (f_up _ _ _ (u_fin _ _ _ I2 x (Hdone x X)) y Y).
        + cbn [inherit c_linked]. unfold set_flag. rewrite String.eqb_refl, orb_true_iff, T2, L2, (f_linked _ _ _ Fb). split.
          * intros [[X|(x & y & X & Y & Z)]|(y & Y & Z)]; [tauto| |]; right; [exists x, y|exists b, y]; (split; [apply in_or_app; cbn; tauto|tauto]).
          * intros [X|(x & y & X & Y & Z)]; [tauto|]. apply in_app_or in X. destruct X as [X|[<-|[]]]; [left; right; exists x, y; tauto|right; exists y; tauto].
        + exists st4, fin4. split; [exact E4|]. rewrite <- app_assoc in REST. exact REST. }
    destruct (LOOP (bk t) [] st1 fin) as (st3 & fin3 & E3 & B3 & I3 & HF3 & HA3 & G3 & O3 & N3 & R3 & A3 & L3).
    + intros b Hb. apply Hbk in Hb; assumption.
    + intros b [].
    + exact I1.
    + intros x X; exact X.
    + tauto.
    + intros u Hu. cbn [st1 c_in_roots c_linked c_added]. unfold set_flag. destruct (String.eqb_spec u t) as [->|]; [contradiction|repeat split].
    + intros x X; exact X.
    + tauto.
    + cbn [st1 c_in_roots]. unfold set_flag. rewrite String.eqb_refl, mem_In. split; [tauto|]. intros [X|(b & [] & _)]. exact X.
    + cbn [st1 c_added]. destruct (u_new _ _ _ HI t Hv) as [X _]. rewrite X. split; [discriminate|]. intros (b & y & [] & _).
    + cbn [st1 c_linked]. destruct (u_new _ _ _ HI t Hv) as [_ X]. rewrite X. split; [tauto|]. intros [Y|(b & y & [] & _)]. exact Y.
    + rewrite E3. cbn [bind]. cbn [app] in *.
      assert (Nt3 : ~ In t fin3) by (intros X; exact (u_disj _ _ _ I3 t X (or_introl eq_refl))).
      destruct (finish fin3 stk st3 aina t Kt Nt3 Nts Ha I3) as (st4 & E4 & I4 & V4 & G4 & O4 & N4).
      * intros b Kb Nb. apply B3. apply Hbk; [exact Kt|split; assumption].
      * rewrite R3, (Bel_step t). split; (intros [X|(b & X)]; [left; exact X|right; exists b]); [split; [apply (Hbk t b Kt); apply X|split; [apply (Hbk t b Kt); apply X|apply X]]|split; [apply Hbk; [exact Kt|tauto]|tauto]].
      * rewrite A3. split; intros (b & y & X); exists b, y; [destruct X as (X & Y); apply Hbk in X; tauto|split; [apply Hbk; [exact Kt|tauto]|tauto]].
      * rewrite L3. split.
        -- intros [X|(b & y & X & Y & Z)]; [exists t; split; [apply rt_refl|exact X]|]. exists y. split; [|exact Z]. apply Hbk in X; [|exact Kt]. apply above_step. right. exists b. tauto.
        -- intros (y & Y & Z). apply above_step in Y. destruct Y as [->|(b & Kb & Nb & Y)]; [left; exact Z|]. right. exists b, y. split; [apply Hbk; [exact Kt|tauto]|tauto].
      * exists st4, (t :: fin3). split; [exact E4|]. split; [exact I4|]. split; [intros x X; right; apply HF3; exact X|]. split; [left; reflexivity|]. split.
        -- constructor.
           ++ intros u Hu. assert (u <> t) by (intros ->; contradiction). destruct (G4 u H) as (X1 & X2 & X3). destruct (G3 u Hu) as (Y1 & Y2 & Y3). repeat split; congruence.
           ++ intros x X. apply O4, O3, X.
           ++ intros x X. destruct (N4 x X) as [Y| ->]; [apply N3; exact Y|right; exact Hv].
        -- intros u [<-|Hu]; [right; apply rt_refl|apply HA3; exact Hu].
Qed.

Lemma above_affected : forall t u, above t u -> affected t -> affected u.
Proof.
  intros t u H (w & Hw & C). exists w. split; [|exact C]. apply rt_trans with t; [|exact Hw]. clear - H. induction H as [x y [_ H]| |x y z _ H1 _ H2]; [apply rt_step; exact H|apply rt_refl|eapply rt_trans; eassumption].
Qed.

Lemma compile_spec : forall fuel matching, N <= fuel -> (forall t, In t matching -> K t /\ changed t = true) ->
  exists res, compile_targets fuel ts bk supplied matching = Ok res /\ NoDup res /\
    (forall x, In x res -> affected x /\ good res x) /\
    (forall m u, In m matching -> above m u -> Bel u ->
      (of_type u "executable" -> In u res) /\ (builds u -> exists a, above u a /\ In a res)).
Proof.
  intros fuel matching Hf HM. unfold compile_targets.
  assert (G : forall l st fin, (forall t, In t l -> K t /\ changed t = true) -> up_inv fin [] st -> (forall x, In x fin -> affected x) ->
    exists st' fin', ofold (fun st t => add_compile_targets fuel ts bk supplied true t st) l st = Ok st' /\ up_inv fin' [] st' /\ incl fin fin' /\ incl l fin' /\ (forall x, In x fin' -> affected x)).
  { induction l as [|t l IH]; intros st fin HL HI HA.
    - exists st, fin. split; [reflexivity|]. split; [exact HI|]. split; [intros x X; exact X|]. split; [intros x []|exact HA].
    - cbn [ofold]. destruct (HL t (or_introl eq_refl)) as [Kt Ct]. destruct (up_spec fuel t true fin [] st Kt ltac:(lia) (fun _ => Ct) HI (fun u (X : In u []) => match X with end)) as (st1 & fin1 & E & I1 & F1 & T1 & _ & A1).
      rewrite E. cbn [bind]. destruct (IH st1 fin1) as (st2 & fin2 & E2 & I2 & F2 & L2 & A2).
      + intros x Hx. apply HL. right. exact Hx.
      + exact I1.
      + intros x Hx. destruct (A1 x Hx) as [X|X]; [apply HA; exact X|]. eapply above_affected; [exact X|]. apply affected_step. left. exact Ct.
      + exists st2, fin2. split; [exact E2|]. split; [exact I2|]. split; [intros x X; apply F2, F1, X|]. split; [intros x [<-|X]; [apply F2; exact T1|apply L2; exact X]|exact A2]. }
  destruct (G matching (mk_c [] (fun _ => false) (fun _ => false) (is_linked ts) []) []) as (st & fin & E & I & _ & L & A).
  - exact HM.
  - constructor; cbn [c_visited c_in_roots c_added c_linked c_result]; [cbn; tauto|intros x []|intros x []|intros x []|split; reflexivity|intros x []|constructor].
  - intros x [].
  - rewrite E. cbn [bind]. exists (c_result st). split; [reflexivity|]. destruct I as [V D F R U Gd ND]. split; [exact ND|]. split.
    + intros x X. split; [apply A, R, X|apply Gd; exact X].
    + intros m u Hm Hu Bu. pose proof (f_up _ _ _ (F m (L m Hm)) u Hu) as Fu. destruct (F u Fu) as [F1 F2 F3 F4 F5 F6]. split; [apply F5; exact Bu|]. intros X. apply F4, F6; assumption.
Qed.
End Search.
