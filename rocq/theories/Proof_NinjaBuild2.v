(** Proofs about the build statements for ninja: one target. *)
From Coq Require Import Relations Operators_Properties.
From Verif Require Import Lib Str LibFacts Model_Names Model_Path Model_Graph Model_Writer Model_NinjaBuild Spec_NinjaBuild Proof_NinjaBuild.
Local Open Scope string_scope.

Section Target.
Variables (s : setup) (ts : list target) (es : list edge).
Hypothesis OK : accepted es.
Notation le := (le es).
Notation lt := (lt es).

Definition below (t d : target) : Prop := d = t \/ through ts t d.
Definition D (t : target) (x : string) : Prop := exists d, below t d /\ done s ts d x.
Definition G (t : target) (x : string) : Prop := exists d, below t d /\ generates s d x.
Lemma below_split : forall t d, below t d -> d = t \/ exists m, depends ts t m /\ below m d.
Proof.
  intros t d [->|T]; [left; reflexivity|right]. apply clos_trans_t1n_iff in T. destruct T as [d X|m d X T]; [exists d; split; [exact X|left; reflexivity]|].
  exists m. split; [exact X|right]. apply clos_trans_t1n_iff. exact T.
Qed.
Lemma D_split : forall t x, D t x -> done s ts t x \/ exists m, depends ts t m /\ D m x.
Proof. intros t x (d & B & X). destruct (below_split t d B) as [->|(m & Y & B')]; [left; exact X|right; exists m; split; [exact Y|exists d; split; assumption]]. Qed.
Lemma G_split : forall t x, G t x -> generates s t x \/ exists m, depends ts t m /\ G m x.
Proof. intros t x (d & B & X). destruct (below_split t d B) as [->|(m & Y & B')]; [left; exact X|right; exists m; split; [exact Y|exists d; split; assumption]]. Qed.
Lemma G_D : forall t x, G t x -> D t x.
Proof. intros t x (d & B & X). exists d. split; [exact B|left; exact X]. Qed.
Lemma through_split : forall t d, through ts t d -> exists m, depends ts t m /\ below m d.
Proof. intros t d T. apply clos_trans_t1n_iff in T. destruct T as [d X|m d X T]; [exists d; split; [exact X|left; reflexivity]|]. exists m. split; [exact X|right]. apply clos_trans_t1n_iff. exact T. Qed.

Definition P (t : target) (o : option info) : Prop :=
  match o with
  | None => (forall x, ~ D t x) /\ ~ linked s ts t
  | Some i =>
    (exists f, final_output i = Some f /\ made es f /\ (forall x, D t x -> le x f) /\ exists g, preaction_input i = Some (Some g) /\ le f g) /\
    (forall q, precompile_input i = Some q -> made es q) /\
    (forall x, G t x -> exists q, precompile_input i = Some q /\ le x q) /\
    (linked s ts t -> out_type i = type t /\ out_binary i = product s t) /\
    (linkable i = true -> linked s ts t /\ (type t = Static_library \/ type t = Shared_library))
  end.
Definition facts (t : target) : Prop :=
  (forall d x y, through ts t d -> done s ts d x -> waits s t y -> lt x y) /\
  (forall x y, G t x -> compiles s t y -> lt x y) /\
  (forall b x, linked s ts t -> product s t = Some b -> (exists d, through ts t d /\ done s ts d x) \/ generates s t x \/ compiles s t x -> lt x b).

Section One.
Variables (outputs : infos) (t : target).
Let deps := deps_of outputs t.
Hypothesis DI : forall i, In i deps -> exists d, depends ts t d /\ P d (Some i).
Hypothesis DN : forall d, depends ts t d -> P d None \/ exists i, In i deps /\ P d (Some i).

Lemma below_dep : forall d x m, depends ts t m -> below m d -> done s ts d x -> D m x.
Proof. intros d x m _ B X. exists d. split; assumption. Qed.

Lemma spec_facts : forall r o, write_spec s outputs t = Some (r, o) -> incl r es -> P t o /\ facts t.
Proof.
  intros r o H In_. unfold write_spec in H. fold deps in H.
  destruct (traverse preaction_input deps) as [pre|] eqn:EP; cbn [bind] in H; [|discriminate].
  destruct (collapse s t "actions_depends" (flat_map filled pre) None) as [[ade ad]|] eqn:EA; cbn [bind fst snd] in H; [|discriminate].
  destruct (collapse s t "compile_depends" (flat_map filled (map precompile_input deps)) None) as [[cde cd]|] eqn:EC; cbn [bind fst snd] in H; [|discriminate].
  destruct (write_generated s t ad) as [[ge gen]|] eqn:EG; cbn [bind fst snd] in H; [|discriminate].
  destruct (traverse (write_source s t (or_ gen cd)) (all_sources t)) as [objs|] eqn:EO; cbn [bind] in H; [|discriminate].
  destruct (traverse (to_ninja s t) (filter (ends_with ".o") (all_sources t))) as [given|] eqn:EV; cbn [bind] in H; [|discriminate].
  set (objects := (flat_map outs (concat objs) ++ given)%list) in H. set (cpp := (existsb uses_cpp deps || existsb is_cpp (all_sources t))%bool) in H.
  set (rest := if match objects, gen, ad with [], None, None => true | _, _, _ => false end then Some ((ade ++ cde ++ ge ++ concat objs)%list, None) else _) in H.
  assert (SUB : incl (ade ++ cde ++ ge ++ concat objs)%list es).
  { subst rest. destruct (match objects, gen, ad with [], None, None => true | _, _, _ => false end); [injection H as <- <-; exact In_|].
    destruct (write_target s outputs t cpp objects (or_ gen ad)) as [[[e b] k]|]; cbn [bind] in H; [|discriminate]. injection H as <- <-. intros x X. apply In_. apply in_or_app. left. exact X. }
  assert (I1 : incl ade es) by (intros x X; apply SUB; apply in_or_app; left; exact X).
  assert (I2 : incl cde es) by (intros x X; apply SUB; apply in_or_app; right; apply in_or_app; left; exact X).
  assert (I3 : incl ge es) by (intros x X; apply SUB; apply in_or_app; right; apply in_or_app; right; apply in_or_app; left; exact X).
  assert (I4 : incl (concat objs) es) by (intros x X; apply SUB; apply in_or_app; right; apply in_or_app; right; apply in_or_app; right; exact X).
  (* what the dependencies leave *)
  assert (PG : forall i d, In i deps -> P d (Some i) -> exists f g, final_output i = Some f /\ (forall x, D d x -> le x f) /\ le f g /\ In g (flat_map filled pre)).
  { intros i d I ((f & F & _ & L & g & Q & LG) & _). exists f, g. split; [exact F|]. split; [exact L|]. split; [exact LG|]. destruct (traverse_in _ _ _ EP i I) as (y & Y & J). rewrite Q in Y. injection Y as <-.
    apply in_flat_map. exists (Some g). split; [exact J|]. apply filled_in. split; [reflexivity|]. exact (made_full es OK g (made_r es f g LG)). }
  assert (MP : forall x, In x (flat_map filled pre) -> made es x).
  { intros x X. apply in_flat_map in X. destruct X as (p & J & X). apply filled_in in X. destruct X as (-> & _). destruct (traverse_out _ _ _ EP _ J) as (i & I & Q). destruct (DI i I) as (d & _ & (f & _ & _ & _ & g & Q' & LG) & _).
    rewrite Q in Q'. injection Q' as ->. exact (made_r es f g LG). }
  pose proof (collapse_spec es s t _ _ _ _ EA I1 MP) as CA.
  assert (ADm : forall a, ad = Some a -> made es a) by (intros a ->; exact (proj1 (proj2 CA))).
  assert (ADi : forall i d, In i deps -> P d (Some i) -> exists a f, ad = Some a /\ final_output i = Some f /\ le f a /\ forall x, D d x -> le x a).
  { intros i d I Q. destruct (PG i d I Q) as (f & g & F & L & LG & J). destruct ad as [a|]; [|rewrite CA in J; contradiction]. exists a, f. split; [reflexivity|]. split; [exact F|].
    assert (LA : le f a) by (apply (le_trans es OK f g a LG); exact (proj2 (proj2 CA) g J)). split; [exact LA|]. intros x X. exact (le_trans es OK x f a (L x X) LA). }
  assert (ADd : forall d x, depends ts t d -> D d x -> exists a, ad = Some a /\ le x a).
  { intros d x X Y. destruct (DN d X) as [(N & _)|(i & I & Q)]; [destruct (N x Y)|]. destruct (ADi i d I Q) as (a & f & A & _ & _ & L). exists a. split; [exact A|exact (L x Y)]. }
  assert (ADn : ad = None -> deps = []).
  { intros A. destruct deps as [|i l] eqn:ED; [reflexivity|]. destruct (DI i (or_introl eq_refl)) as (d & _ & Q). destruct (ADi i d (or_introl eq_refl) Q) as (a & f & A' & _). congruence. }
  assert (MC : forall x, In x (flat_map filled (map precompile_input deps)) -> made es x).
  { intros x X. apply in_flat_map in X. destruct X as (p & J & X). apply filled_in in X. destruct X as (-> & _). apply in_map_iff in J. destruct J as (i & Q & I). destruct (DI i I) as (d & _ & _ & M & _). exact (M x Q). }
  pose proof (collapse_spec es s t _ _ _ _ EC I2 MC) as CC.
  assert (CDm : forall c, cd = Some c -> made es c) by (intros c ->; exact (proj1 (proj2 CC))).
  assert (CDd : forall d x, depends ts t d -> G d x -> exists c, cd = Some c /\ le x c).
  { intros d x X Y. destruct (DN d X) as [(N & _)|(i & I & Q)]; [destruct (N x (G_D d x Y))|]. destruct Q as (_ & _ & Q & _). destruct (Q x Y) as (q & Q1 & L).
    assert (J : In q (flat_map filled (map precompile_input deps))).
    { apply in_flat_map. exists (Some q). split; [apply in_map_iff; exists i; split; assumption|]. apply filled_in. split; [reflexivity|]. exact (made_full es OK q (made_r es x q L)). }
    destruct cd as [c|]; [|rewrite CC in J; contradiction]. exists c. split; [reflexivity|]. exact (le_trans es OK x q c L (proj2 (proj2 CC) q J)). }
  destruct (write_generated_spec es OK s t ad ge gen EG I3 ADm) as (GE1 & GE2 & GE3).
  (* before compiling *)
  assert (GM : forall q, gen = Some q -> q <> "") by (intros q Q; exact (made_full es OK q (proj1 (GE3 q Q)))).
  assert (PRE : forall x, G t x -> exists q, or_ gen cd = Some q /\ le x q).
  { intros x X. destruct (G_split t x X) as [X1|(d & X1 & X2)].
    - destruct (GE1 x X1) as (q & Q & L). exists q. split; [apply or_some; [exact Q|exact (GM q Q)]|exact L].
    - destruct gen as [q|] eqn:EQ.
      + exists q. split; [apply or_some; [reflexivity|exact (GM q eq_refl)]|]. destruct (ADd d x X1 (G_D d x X2)) as (a & A & L). apply (le_trans es OK x a q L). apply lt_le. exact (proj2 (GE3 q eq_refl) a A).
      + exact (CDd d x X1 X2). }
  assert (PREm : forall q, or_ gen cd = Some q -> made es q).
  { intros q Q. destruct gen as [g|]; [|exact (CDm q Q)]. rewrite (or_some _ _ g eq_refl (GM g eq_refl)) in Q. injection Q as <-. exact (proj1 (GE3 g eq_refl)). }
  assert (CP : forall y, compiles s t y -> exists e, In e (concat objs) /\ outs e = [y] /\ order_only e = as_list (or_ gen cd)).
  { intros y (f & c & F & C & U). destruct (traverse_in _ _ _ EO f F) as (l & L & J). unfold write_source in L. rewrite C in L. destruct (to_ninja s t f) as [i|]; cbn [bind] in L; [|discriminate]. rewrite U in L. cbn [bind] in L. injection L as <-.
    exists (statement [y] c [i] [] (as_list (or_ gen cd))). split; [apply in_concat; eexists; split; [exact J|left; reflexivity]|]. split; reflexivity. }
  (* before linking *)
  assert (CDX : forall d x, depends ts t d -> D d x -> exists q, or_ gen ad = Some q /\ le x q).
  { intros d x X Y. destruct (ADd d x X Y) as (a & A & L). destruct gen as [q|] eqn:EQ; [|exists a; split; [exact A|exact L]].
    exists q. split; [apply or_some; [reflexivity|exact (GM q eq_refl)]|]. apply (le_trans es OK x a q L). apply lt_le. exact (proj2 (GE3 q eq_refl) a A). }
  assert (CDG : forall x, generates s t x -> exists q, or_ gen ad = Some q /\ le x q).
  { intros x X. destruct (GE1 x X) as (q & Q & L). exists q. split; [apply or_some; [exact Q|exact (GM q Q)]|exact L]. }
  assert (CDXm : forall q, or_ gen ad = Some q -> made es q).
  { intros q Q. destruct gen as [g|]; [|exact (ADm q Q)]. rewrite (or_some _ _ g eq_refl (GM g eq_refl)) in Q. injection Q as <-. exact (proj1 (GE3 g eq_refl)). }
  assert (OBJ : forall y, compiles s t y -> In y objects /\ made es y).
  { intros y Y. destruct (CP y Y) as (e & J & O & _). split; [|exists e; split; [exact (I4 e J)|rewrite O; left; reflexivity]]. apply in_or_app. left. apply in_flat_map. exists e. split; [exact J|rewrite O; left; reflexivity]. }
  assert (LK : linked s ts t -> type t <> None_ /\ (objects <> [] \/ existsb linkable deps = true)).
  { intros [o' N Y|f N F E|d N X T L]; (split; [exact N|]).
    - left. intros Z. destruct (OBJ o' Y) as (J & _). rewrite Z in J. exact J.
    - left. intros Z. assert (J : In f (filter (ends_with ".o") (all_sources t))) by (apply filter_In; split; assumption). destruct (traverse_in _ _ _ EV f J) as (y & _ & K).
      assert (K2 : In y objects) by (apply in_or_app; right; exact K). rewrite Z in K2. exact K2.
    - right. destruct (DN d X) as [(_ & N')|(i & I & Q)]; [contradiction|]. apply existsb_exists. exists i. split; [exact I|]. destruct Q as (_ & _ & _ & Q & _). destruct (Q L) as (Q1 & _). unfold linkable. rewrite Q1. destruct T as [->| ->]; reflexivity. }
  (* the two first facts *)
  assert (F1 : forall d x y, through ts t d -> done s ts d x -> waits s t y -> lt x y).
  { intros d x y T X Y. destruct (through_split t d T) as (m & M & B). destruct (ADd m x M ltac:(exists d; split; assumption)) as (a & A & L). exact (le_lt es OK x a y L (GE2 a y A Y)). }
  assert (F2 : forall x y, G t x -> compiles s t y -> lt x y).
  { intros x y X Y. destruct (PRE x X) as (q & Q & L). destruct (CP y Y) as (e & J & O & OO). apply (le_lt es OK x q y L). apply (lt_read es e q y (I4 e J)); [|rewrite O; left; reflexivity|exact (PREm q Q)].
    unfold reads. rewrite OO, Q. apply in_or_app. right. apply in_or_app. right. left. reflexivity. }
  subst rest. destruct (match objects, gen, ad with [], None, None => true | _, _, _ => false end) eqn:ET.
  - (* nothing *)
    injection H as <- <-. assert (Z : objects = [] /\ gen = None /\ ad = None) by (destruct objects, gen, ad; try discriminate ET; repeat split; reflexivity). destruct Z as (Z1 & Z2 & Z3).
    assert (NL : ~ linked s ts t). { intros L. destruct (LK L) as (_ & [N|N]); [contradiction|]. rewrite (ADn Z3) in N. discriminate. }
    assert (ND : forall x, ~ D t x).
    { intros x X. destruct (D_split t x X) as [[X1|[(_ & X1)|(X1 & _)]]|(m & M & X1)].
      - destruct (GE1 x X1) as (q & Q & _). congruence.
      - destruct (OBJ x X1) as (J & _). rewrite Z1 in J. exact J.
      - exact (NL X1).
      - destruct (ADd m x M X1) as (a & A & _). congruence. }
    split; [split; [exact ND|exact NL]|]. split; [exact F1|]. split; [exact F2|]. intros b x L. contradiction.
  - destruct (write_target s outputs t cpp objects (or_ gen ad)) as [[[we b] k]|] eqn:EW; cbn [bind] in H; [|discriminate].
    assert (LINK : linked s ts t -> exists p e, product s t = Some p /\ b = Some p /\ k = type t /\ we = [e] /\ In p (outs e) /\ (uses_toc {| out_type := k; preaction_stamp := ad; precompile_stamp := cd; actions_stamp := gen; out_binary := b; uses_cpp := cpp |} = true -> In (p ++ ".TOC") (outs e)) /\ incl objects (ins e) /\ order_only e = filled (or_ gen ad)).
    { intros L. destruct (LK L) as (N & M). unfold write_target in EW. fold deps in EW.
      assert (T : match objects with [] => negb (existsb linkable deps) | _ => false end = false) by (destruct objects; [destruct M as [M|M]; [contradiction|rewrite M; reflexivity]|reflexivity]). rewrite T in EW.
      destruct (type t) eqn:TY; [| | | |contradiction].
      - destruct (write_link s outputs t cpp objects (or_ gen ad)) as [[e p]|] eqn:WL; cbn [bind fst snd] in EW; [|discriminate]. injection EW as <- <- <-. unfold write_link in WL.
        destruct (traverse dependency_links (deps_of outputs t)) as [dl|]; cbn [bind] in WL; [|discriminate]. destruct (product s t) as [p'|]; cbn [bind] in WL; [|discriminate]. injection WL as <- <-.
        eexists. eexists. split; [reflexivity|]. split; [reflexivity|]. split; [reflexivity|]. split; [reflexivity|]. cbn [outs ins order_only]. rewrite TY. split; [left; reflexivity|]. split; [discriminate|]. split; [intros x X; apply in_or_app; left; exact X|reflexivity].
      - destruct (product s t) as [p|]; cbn [bind] in EW; [|discriminate]. injection EW as <- <- <-.
        eexists. eexists. split; [reflexivity|]. split; [reflexivity|]. split; [reflexivity|]. split; [reflexivity|]. cbn [statement outs ins order_only]. split; [left; reflexivity|]. split; [discriminate|]. split; [intros x X; exact X|reflexivity].
      - destruct (write_link s outputs t cpp objects (or_ gen ad)) as [[e p]|] eqn:WL; cbn [bind fst snd] in EW; [|discriminate]. injection EW as <- <- <-. unfold write_link in WL.
        destruct (traverse dependency_links (deps_of outputs t)) as [dl|]; cbn [bind] in WL; [|discriminate]. destruct (product s t) as [p'|]; cbn [bind] in WL; [|discriminate]. injection WL as <- <-.
        eexists. eexists. split; [reflexivity|]. split; [reflexivity|]. split; [reflexivity|]. split; [reflexivity|]. cbn [outs ins order_only]. rewrite TY. split; [left; reflexivity|]. split; [intros _; right; left; reflexivity|]. split; [intros x X; apply in_or_app; left; exact X|reflexivity].
      - destruct (write_link s outputs t cpp objects (or_ gen ad)) as [[e p]|] eqn:WL; cbn [bind fst snd] in EW; [|discriminate]. injection EW as <- <- <-. unfold write_link in WL.
        destruct (traverse dependency_links (deps_of outputs t)) as [dl|]; cbn [bind] in WL; [|discriminate]. destruct (product s t) as [p'|]; cbn [bind] in WL; [|discriminate]. injection WL as <- <-.
        eexists. eexists. split; [reflexivity|]. split; [reflexivity|]. split; [reflexivity|]. split; [reflexivity|]. cbn [outs ins order_only]. rewrite TY. split; [left; reflexivity|]. split; [intros _; right; left; reflexivity|]. split; [intros x X; apply in_or_app; left; exact X|reflexivity]. }
    assert (DEC : linked s ts t \/ (~ linked s ts t /\ b = or_ gen ad /\ k = None_ /\ we = [])).
    { unfold write_target in EW. fold deps in EW.
      destruct (match objects with [] => negb (existsb linkable deps) | _ => false end) eqn:T.
      { right. split; [|injection EW as <- <- <-; repeat split; reflexivity]. intros L. destruct (LK L) as (_ & [N|N]); [destruct objects; [contradiction|discriminate T]|destruct objects; [rewrite N in T; discriminate T|discriminate T]]. }
      destruct (match type t with None_ => true | _ => false end) eqn:TN.
      { right. destruct (type t) eqn:TY; try discriminate TN. split; [intros L; apply (proj1 (LK L)); first [exact TY|reflexivity]|injection EW as <- <- <-; repeat split; reflexivity]. }
      assert (NN : type t <> None_) by (intros Z; rewrite Z in TN; discriminate TN). left.
      destruct objects as [|y l] eqn:EOB; [apply negb_false_iff in T; apply existsb_exists in T; destruct T as (i & I & Li); destruct (DI i I) as (d & X & Q); destruct Q as (_ & _ & _ & _ & Q); destruct (Q Li) as (Q1 & Q2); apply (linked_library s ts t d); [exact NN|exact X|exact Q2|exact Q1]|].
      assert (J : In y objects) by (rewrite EOB; left; reflexivity); unfold objects in J; apply in_app_or in J; destruct J as [J|J].
      - apply in_flat_map in J; destruct J as (e & J & Y); apply in_concat in J; destruct J as (le0 & J1 & J2); destruct (traverse_out _ _ _ EO le0 J1) as (f & F & W); unfold write_source in W; destruct (compiler f) as [c|] eqn:CF; [|injection W as <-; contradiction].
        destruct (to_ninja s t f); cbn [bind] in W; [|discriminate]; destruct (unique s t (fst (splitext f) ++ ".o") true) as [u|] eqn:U; cbn [bind] in W; [|discriminate].
        apply (linked_compiled s ts t u); [exact NN|exists f, c; split; [exact F|split; [exact CF|exact U]]].
      - destruct (traverse_out _ _ _ EV y J) as (f & F & _); apply filter_In in F; destruct F as (F & F'); apply (linked_object s ts t f); [exact NN|exact F|exact F']. }
    destruct DEC as [L|(NL & -> & -> & ->)].
    + destruct (LINK L) as (p & e & PR & -> & -> & -> & PO & TOC & OI & OO). clear LINK.
      assert (Ee : In e es). { injection H as <- _. apply In_. apply in_or_app. right. left. reflexivity. }
      assert (Mp : made es p) by (exists e; split; assumption).
      assert (Np : p <> "") by exact (made_full es OK p Mp).
      assert (LQ : forall x, (exists q, or_ gen ad = Some q /\ le x q) -> lt x p).
      { intros x (q & Q & Lq). apply (le_lt es OK x q p Lq). apply (lt_read es e q p Ee); [|exact PO|exact (CDXm q Q)]. unfold reads. rewrite OO, Q. apply in_or_app. right. apply in_or_app. right.
        apply filled_in. split; [reflexivity|exact (made_full es OK q (CDXm q Q))]. }
      assert (LO : forall x, compiles s t x -> lt x p).
      { intros x X. destruct (OBJ x X) as (J & M). apply (lt_read es e x p Ee); [|exact PO|exact M]. unfold reads. apply in_or_app. left. exact (OI x J). }
      set (i := {| out_type := type t; preaction_stamp := ad; precompile_stamp := cd; actions_stamp := gen; out_binary := Some p; uses_cpp := cpp |}) in *.
      assert (Eo : o = Some i) by (injection H as _ <-; destruct p; [contradiction|reflexivity]). subst o.
      assert (FO : final_output i = Some p) by (unfold final_output; cbn [out_binary actions_stamp i]; apply or_some; [reflexivity|exact Np]).
      split; [|split; [exact F1|split; [exact F2|]]].
      * split; [|split; [|split; [|split]]].
        -- exists p. split; [exact FO|]. split; [exact Mp|]. split.
           ++ intros x X. destruct (D_split t x X) as [[X1|[(_ & X1)|(_ & X1)]]|(m & M & X1)].
              ** apply lt_le. exact (LQ x (CDG x X1)).
              ** apply lt_le. exact (LO x X1).
              ** rewrite PR in X1. injection X1 as <-. apply le_refl. exact Mp.
              ** apply lt_le. exact (LQ x (CDX m x M X1)).
           ++ unfold preaction_input. rewrite FO. destruct (uses_toc i) eqn:UT.
              ** exists (p ++ ".TOC"). split; [reflexivity|]. exact (le_same es e p (p ++ ".TOC") Ee PO (TOC eq_refl)).
              ** exists p. split; [rewrite (or_some _ _ p eq_refl Np); reflexivity|]. apply le_refl. exact Mp.
        -- exact PREm.
        -- exact PRE.
        -- intros _. split; [reflexivity|symmetry; exact PR].
        -- intros K. split; [exact L|]. unfold linkable in K. cbn [out_type i] in K. destruct (type t); try discriminate K; [left|right]; reflexivity.
      * intros b x _ B [(d & T & X)|[X|X]]; rewrite PR in B; injection B as <-.
        -- destruct (through_split t d T) as (m & M & Bm). apply LQ. apply (CDX m x M). exists d. split; assumption.
        -- exact (LQ x (CDG x X)).
        -- exact (LO x X).
    + clear LINK. split; [|split; [exact F1|split; [exact F2|intros b x L; contradiction]]].
      assert (DB : forall x, D t x -> exists q, or_ gen ad = Some q /\ le x q).
      { intros x X. destruct (D_split t x X) as [[X1|[(N & X1)|(X1 & _)]]|(m & M & X1)].
        - exact (CDG x X1).
        - destruct NL. exact (linked_compiled s ts t x N X1).
        - contradiction.
        - exact (CDX m x M X1). }
      injection H as _ <-. destruct (or_ gen ad) as [q|] eqn:EQ; [|split; [intros x X; destruct (DB x X) as (q & Q & _); discriminate Q|exact NL]].
      pose proof (CDXm q eq_refl) as Mq. pose proof (made_full es OK q Mq) as Nq.
      set (i := {| out_type := None_; preaction_stamp := ad; precompile_stamp := cd; actions_stamp := gen; out_binary := Some q; uses_cpp := cpp |}).
      assert (FO : final_output i = Some q) by (unfold final_output; cbn [out_binary actions_stamp i]; apply or_some; [reflexivity|exact Nq]).
      assert (E : match q with "" => None | String _ _ => Some i end = Some i) by (destruct q; [contradiction|reflexivity]).
      match goal with |- P t ?o => replace o with (Some i) by (symmetry; exact E) end.
      split; [|split; [|split; [|split]]].
      * exists q. split; [exact FO|]. split; [exact Mq|]. split; [intros x X; destruct (DB x X) as (q' & Q & Lq); injection Q as <-; exact Lq|].
        exists q. split; [unfold preaction_input; rewrite FO; cbn [uses_toc out_type i]; rewrite (or_some _ _ q eq_refl Nq); reflexivity|apply le_refl; exact Mq].
      * exact PREm.
      * exact PRE.
      * intros L. contradiction.
      * intros K. discriminate K.
Qed.
End One.
End Target.
