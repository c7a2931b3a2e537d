(** Proofs about the build statements for ninja: all targets. *)
From Coq Require Import Relations Operators_Properties.
From Verif Require Import Lib Str LibFacts Model_Names Model_Path Model_Graph Proof_Graph Model_Writer Model_NinjaBuild Spec_NinjaBuild Proof_NinjaBuild Proof_NinjaBuild2.
Local Open Scope string_scope.

Definition infos_of (l : list (target * option info)) : infos := flat_map (fun ti => match snd ti with Some i => [(qualified (fst ti), i)] | None => [] end) l.
Lemma infos_in : forall l q i, In (q, i) (infos_of l) <-> exists d, In (d, Some i) l /\ qualified d = q.
Proof.
  intros l q i. unfold infos_of. rewrite in_flat_map. split.
  - intros ((d & [j|]) & I & J); cbn [snd fst] in J; [|contradiction]. destruct J as [J|[]]. injection J as <- <-. exists d. split; [exact I|reflexivity].
  - intros (d & I & <-). exists (d, Some i). split; [exact I|left; reflexivity].
Qed.
Lemma infos_nodup : forall l, NoDup (map qualified (map fst l)) -> NoDup (map fst (infos_of l)).
Proof.
  induction l as [|[d o] l IH]; cbn; intros N; [constructor|]. apply NoDup_cons_iff in N. destruct N as (N & N'). destruct o as [i|]; cbn; [|exact (IH N')].
  constructor; [|exact (IH N')]. intros I. apply N. apply in_map_iff in I. destruct I as ((q & j) & E & I). cbn in E. subst q. apply infos_in in I. destruct I as (d' & I & E). rewrite <- E. apply in_map. apply in_map_iff. exists (d', Some j). split; [reflexivity|exact I].
Qed.
Lemma through_in : forall ts t d, through ts t d -> In d ts.
Proof. intros ts t d T. induction T as [t d X|t m d _ _ _ IH]; [exact (proj1 (proj2 X))|exact IH]. Qed.
Section S.
Variable s : setup.
Lemma write_all_fst : forall ts outputs r l, write_all s outputs ts = Some (r, l) -> map fst l = ts.
Proof.
  induction ts as [|t ts IH]; cbn [write_all]; intros outputs r l H; [injection H as <- <-; reflexivity|].
  destruct (write_spec s outputs t) as [w|]; cbn [bind] in H; [|discriminate]. destruct (write_all s _ ts) as [[r' l']|] eqn:E; cbn [bind fst snd] in H; [|discriminate]. injection H as <- <-. cbn. f_equal. exact (IH _ _ _ E).
Qed.
Lemma write_all_split : forall l1 outputs t l2 r l, write_all s outputs (l1 ++ t :: l2)%list = Some (r, l) ->
  exists r1 lr1 w lr2, write_all s outputs l1 = Some (r1, lr1) /\ write_spec s (outputs ++ infos_of lr1)%list t = Some w /\ incl (fst w) r /\ l = (lr1 ++ (t, snd w) :: lr2)%list.
Proof.
  induction l1 as [|a l1 IH]; intros outputs t l2 r l H; cbn [write_all app] in H.
  - destruct (write_spec s outputs t) as [w|] eqn:W; cbn [bind] in H; [|discriminate]. destruct (write_all s _ l2) as [[r' l']|] eqn:E; cbn [bind fst snd] in H; [|discriminate]. injection H as <- <-.
    exists [], [], w, l'. cbn [write_all infos_of flat_map]. rewrite app_nil_r. split; [reflexivity|]. split; [exact W|]. split; [intros x X; apply in_or_app; left; exact X|reflexivity].
  - destruct (write_spec s outputs a) as [w|] eqn:W; cbn [bind] in H; [|discriminate]. destruct (write_all s _ (l1 ++ t :: l2)%list) as [[r' l']|] eqn:E; cbn [bind fst snd] in H; [|discriminate]. injection H as <- <-.
    destruct (IH _ _ _ _ _ E) as (r1 & lr1 & w' & lr2 & H1 & H2 & H3 & H4). exists (fst w ++ r1)%list, ((a, snd w) :: lr1), w', lr2. split; [cbn [write_all]; rewrite W; cbn [bind]; rewrite H1; reflexivity|].
    split; [|split; [intros x X; apply in_or_app; right; exact (H3 x X)|rewrite H4; reflexivity]].
    cbn [infos_of flat_map fst snd]. destruct (snd w) as [i|]; [|exact H2]. rewrite <- app_assoc in H2. exact H2.
Qed.
Lemma write_all_app : forall l1 l2 outputs r l, write_all s outputs (l1 ++ l2)%list = Some (r, l) -> exists r1 lr1 lr2, write_all s outputs l1 = Some (r1, lr1) /\ l = (lr1 ++ lr2)%list.
Proof.
  induction l1 as [|a l1 IH]; intros l2 outputs r l H; cbn [write_all app] in H; [exists [], [], l; split; reflexivity|].
  destruct (write_spec s outputs a) as [w|] eqn:W; cbn [bind] in H; [|discriminate]. destruct (write_all s _ (l1 ++ l2)%list) as [[r' l']|] eqn:E; cbn [bind fst snd] in H; [|discriminate]. injection H as <- <-.
  destruct (IH _ _ _ _ E) as (r1 & lr1 & lr2 & H1 & H2). exists (fst w ++ r1)%list, ((a, snd w) :: lr1), lr2. split; [cbn [write_all]; rewrite W; cbn [bind]; rewrite H1; reflexivity|rewrite H2; reflexivity].
Qed.

Section All.
Variables (ts : list target) (es : list edge) (r : list edge) (l : list (target * option info)).
Hypothesis OK : accepted es.
Hypothesis W : write_all s [] ts = Some (r, l).
Hypothesis In_ : incl r es.
Hypothesis N : NoDup (map qualified ts).
Hypothesis O : in_order ts.

Lemma deps_of_in : forall l1 t l2 r1 lr1, ts = (l1 ++ t :: l2)%list -> write_all s [] l1 = Some (r1, lr1) ->
  forall i, In i (deps_of (infos_of lr1) t) -> exists d, depends ts t d /\ In (d, Some i) lr1.
Proof.
  intros l1 t l2 r1 lr1 E W1 i I. unfold deps_of in I. apply in_flat_map in I. destruct I as (q & Q & I). destruct (assoc q (infos_of lr1)) as [j|] eqn:A; [|contradiction]. destruct I as [->|[]].
  apply assoc_In in A. apply infos_in in A. destruct A as (d & A & <-). exists d. split; [|exact A]. split; [rewrite E; apply in_or_app; right; left; reflexivity|]. split; [|exact Q].
  rewrite E. apply in_or_app. left. rewrite <- (write_all_fst _ _ _ _ W1). apply in_map_iff. exists (d, Some i). split; [reflexivity|exact A].
Qed.
Lemma deps_of_has : forall l1 t l2 r1 lr1, ts = (l1 ++ t :: l2)%list -> write_all s [] l1 = Some (r1, lr1) ->
  forall d, depends ts t d -> exists o, In (d, o) lr1 /\ match o with Some i => In i (deps_of (infos_of lr1) t) | None => True end.
Proof.
  intros l1 t l2 r1 lr1 E W1 d X. pose proof (O l1 t l2 d E X) as J. rewrite <- (write_all_fst _ _ _ _ W1) in J. apply in_map_iff in J. destruct J as ([d' o] & E' & J). cbn in E'. subst d'. exists o. split; [exact J|]. destruct o as [i|]; [|exact I].
  destruct X as (_ & _ & X). unfold deps_of. apply in_flat_map. exists (qualified d). split; [exact X|].
  assert (A : assoc (qualified d) (infos_of lr1) = Some i).
  { apply In_assoc; [|apply infos_in; exists d; split; [exact J|reflexivity]]. apply infos_nodup. rewrite (write_all_fst _ _ _ _ W1). rewrite E in N. rewrite map_app in N. exact (proj1 (NoDup_app_inv _ _ _ N)). }
  rewrite A. left. reflexivity.
Qed.

Lemma all_facts : forall t o, In (t, o) l -> P s ts es t o /\ facts s ts es t.
Proof.
  assert (A : forall l1 l2 r1 lr1, ts = (l1 ++ l2)%list -> write_all s [] l1 = Some (r1, lr1) -> forall t o, In (t, o) lr1 -> P s ts es t o /\ facts s ts es t).
  { intros l1. induction l1 as [|t l1 IH] using rev_ind; intros l2 r1 lr1 E W1 d o I; [cbn in W1; injection W1 as <- <-; contradiction|].
    rewrite <- app_assoc in E. cbn [app] in E. pose proof W as W'. rewrite E in W'. destruct (write_all_split l1 [] t l2 r l W') as (r0 & lr0 & w & lr2 & H1 & H2 & H3 & H4). cbn [app] in H2.
    destruct (write_all_split l1 [] t [] r1 lr1 W1) as (r0' & lr0' & w' & lr2' & H1' & H2' & _ & H4'). rewrite H1 in H1'. injection H1' as <- <-. cbn [app] in H2'. rewrite H2 in H2'. injection H2' as <-.
    assert (Z : lr2' = []). { pose proof (write_all_fst _ _ _ _ W1) as F. rewrite H4' in F. pose proof (write_all_fst _ _ _ _ H1) as F1. rewrite map_app, F1 in F. apply app_inv_head in F. cbn in F. injection F as F. destruct lr2'; [reflexivity|discriminate]. }
    subst lr2'. rewrite H4' in I. apply in_app_or in I. destruct I as [I|[I|[]]]; [exact (IH (t :: l2) r0 lr0 E H1 d o I)|]. injection I as <- <-.
    destruct w as [we wo]. apply (spec_facts s ts es OK (infos_of lr0) t) with (r := we); [| |exact H2|intros x X; exact (In_ x (H3 x X))].
    - intros i I. destruct (deps_of_in l1 t l2 r0 lr0 E H1 i I) as (d & X & J). exists d. split; [exact X|]. exact (proj1 (IH (t :: l2) r0 lr0 E H1 d (Some i) J)).
    - intros d X. destruct (deps_of_has l1 t l2 r0 lr0 E H1 d X) as (o & J & K). pose proof (proj1 (IH (t :: l2) r0 lr0 E H1 d o J)) as Pd. destruct o as [i|]; [right; exists i; split; [exact K|exact Pd]|left; exact Pd]. }
  intros t o I. exact (A ts [] r l ltac:(symmetry; apply app_nil_r) W t o I).
Qed.
Lemma in_all : forall t, In t ts -> exists o, In (t, o) l.
Proof. intros t I. rewrite <- (write_all_fst _ _ _ _ W) in I. apply in_map_iff in I. destruct I as ([t' o] & E & I). cbn in E. subst t'. exists o. exact I. Qed.
Lemma facts_in : forall t, In t ts -> facts s ts es t.
Proof. intros t I. destruct (in_all t I) as (o & J). exact (proj2 (all_facts t o J)). Qed.

(** ** C++ *)
Lemma cpp_iff : forall f, is_cpp f = true <-> In (snd (splitext f)) [".cc"; ".cpp"; ".cxx"].
Proof.
  intros f. unfold is_cpp, compiler. generalize (snd (splitext f)). intros x. split.
  - intros H. destruct (string_dec x ".cc") as [->|N1]; [left; reflexivity|]. destruct (string_dec x ".cpp") as [->|N2]; [right; left; reflexivity|]. destruct (string_dec x ".cxx") as [->|N3]; [right; right; left; reflexivity|].
    exfalso. revert H. repeat (match goal with |- context [match ?v with _ => _ end] => is_var v; destruct v end; try discriminate; try contradiction).
  - intros [<-|[<-|[<-|[]]]]; reflexivity.
Qed.
Lemma cpp_compiles : forall f, is_cpp f = true -> exists c, compiler f = Some c.
Proof. intros f. unfold is_cpp. destruct (compiler f) as [c|]; [intros _; exists c; reflexivity|discriminate]. Qed.
Lemma spec_cpp : forall outputs t we wo, write_spec s outputs t = Some (we, wo) ->
  let cpp := (existsb uses_cpp (deps_of outputs t) || existsb is_cpp (all_sources t))%bool in
  (forall i, wo = Some i -> uses_cpp i = cpp) /\
  (has_cpp t -> exists o, compiles s t o) /\
  (forall i p, wo = Some i -> out_type i <> None_ -> out_type i <> Static_library -> product s t = Some p -> exists e, In e we /\ In p (outs e) /\ variables e = if cpp then [("ld", "$ldxx")] else []).
Proof.
  intros outputs t we wo H cpp. unfold write_spec in H.
  destruct (traverse preaction_input (deps_of outputs t)) as [pre|] eqn:EP; cbn [bind] in H; [|discriminate].
  destruct (collapse s t "actions_depends" (flat_map filled pre) None) as [[ade ad]|] eqn:EA; cbn [bind fst snd] in H; [|discriminate].
  destruct (collapse s t "compile_depends" (flat_map filled (map precompile_input (deps_of outputs t))) None) as [[cde cd]|] eqn:EC; cbn [bind fst snd] in H; [|discriminate].
  destruct (write_generated s t ad) as [[ge gen]|] eqn:EG; cbn [bind fst snd] in H; [|discriminate].
  destruct (traverse (write_source s t (or_ gen cd)) (all_sources t)) as [objs|] eqn:EO; cbn [bind] in H; [|discriminate].
  destruct (traverse (to_ninja s t) (filter (ends_with ".o") (all_sources t))) as [given|] eqn:EV; cbn [bind] in H; [|discriminate].
  fold cpp in H. set (objects := (flat_map outs (concat objs) ++ given)%list) in H.
  assert (C2 : has_cpp t -> exists o, compiles s t o).
  { intros (f & F & C). apply cpp_iff in C. destruct (cpp_compiles f C) as (c & K). destruct (traverse_in _ _ _ EO f F) as (x & X & _). unfold write_source in X. rewrite K in X. destruct (to_ninja s t f); cbn [bind] in X; [|discriminate].
    destruct (unique s t (fst (splitext f) ++ ".o") true) as [u|] eqn:U; cbn [bind] in X; [|discriminate]. exists u, f, c. split; [exact F|split; [exact K|exact U]]. }
  set (test := match objects, gen, ad with [], None, None => true | _, _, _ => false end) in H.
  destruct test.
  - injection H as <- <-. split; [discriminate|]. split; [exact C2|]. intros i p X. discriminate X.
  - destruct (write_target s outputs t cpp objects (or_ gen ad)) as [[[we' b] k]|] eqn:EW; cbn [bind] in H; [|discriminate]. injection H as <- <-.
    split; [intros i X; destruct b as [[|c b]|]; try discriminate X; injection X as <-; reflexivity|]. split; [exact C2|].
    assert (OT : forall i, match b with Some (String _ _) => Some {| out_type := k; preaction_stamp := ad; precompile_stamp := cd; actions_stamp := gen; out_binary := b; uses_cpp := cpp |} | _ => None end = Some i -> out_type i = k).
    { intros i X. destruct b as [[|c b]|]; try discriminate X; injection X as <-; reflexivity. }
    assert (WL : forall e p, write_link s outputs t cpp objects (or_ gen ad) = Some (e, p) -> product s t = Some p /\ In p (outs e) /\ variables e = if cpp then [("ld", "$ldxx")] else []).
    { intros e p X. unfold write_link in X. destruct (traverse dependency_links (deps_of outputs t)) as [dl|]; cbn [bind] in X; [|discriminate]. destruct (product s t) as [p'|]; cbn [bind] in X; [|discriminate]. injection X as <- <-.
      split; [reflexivity|]. cbn [outs variables]. split; [destruct (type t); left; reflexivity|reflexivity]. }
    intros i p I1 I2 I3 Pp. rewrite (OT i I1) in I2, I3. clear I1 OT.
    unfold write_target in EW. destruct (match objects with [] => negb (existsb linkable (deps_of outputs t)) | _ => false end).
    { injection EW as <- <- <-. contradiction. }
    destruct (type t) eqn:TY.
    2: { destruct (product s t) as [p9|] eqn:PR; cbn [bind] in EW; [|discriminate]. injection EW as <- <- <-. contradiction. }
    4: { injection EW as <- <- <-. contradiction. }
    all: destruct (write_link s outputs t cpp objects (or_ gen ad)) as [[e0 p0]|] eqn:EL; cbn [bind fst snd] in EW; [|discriminate]; injection EW as <- <- <-; destruct (WL e0 p0 eq_refl) as (L1 & L2 & L3).
    all: rewrite L1 in Pp; injection Pp as <-; exists e0; split; [apply in_or_app; right; left; reflexivity|split; [exact L2|exact L3]].
Qed.
Lemma cpp_all : forall t i, In (t, Some i) l ->
  (uses_cpp i = true -> exists d, below ts t d /\ has_cpp d) /\ (forall d, below ts t d -> has_cpp d -> type d <> None_ -> uses_cpp i = true).
Proof.
  assert (A : forall l1 l2 r1 lr1, ts = (l1 ++ l2)%list -> write_all s [] l1 = Some (r1, lr1) -> forall t i, In (t, Some i) lr1 ->
     (uses_cpp i = true -> exists d, below ts t d /\ has_cpp d) /\ (forall d, below ts t d -> has_cpp d -> type d <> None_ -> uses_cpp i = true)).
  { intros l1. induction l1 as [|t l1 IH] using rev_ind; intros l2 r1 lr1 E W1 d o I; [cbn in W1; injection W1 as <- <-; contradiction|].
    rewrite <- app_assoc in E. cbn [app] in E. pose proof W as W'. rewrite E in W'. destruct (write_all_split l1 [] t l2 r l W') as (r0 & lr0 & w & lr2 & H1 & H2 & H3 & H4). cbn [app] in H2.
    destruct (write_all_split l1 [] t [] r1 lr1 W1) as (r0' & lr0' & w' & lr2' & H1' & H2' & _ & H4'). rewrite H1 in H1'. injection H1' as <- <-. cbn [app] in H2'. rewrite H2 in H2'. injection H2' as <-.
    assert (Z : lr2' = []). { pose proof (write_all_fst _ _ _ _ W1) as F. rewrite H4' in F. pose proof (write_all_fst _ _ _ _ H1) as F1. rewrite map_app, F1 in F. apply app_inv_head in F. cbn in F. injection F as F. destruct lr2'; [reflexivity|discriminate]. }
    subst lr2'. rewrite H4' in I. apply in_app_or in I. destruct I as [I|[I|[]]]; [exact (IH (t :: l2) r0 lr0 E H1 d o I)|]. destruct w as [we wo]. cbn [snd] in I. injection I as <- ->.
    destruct (spec_cpp _ _ _ _ H2) as (C1 & _ & _). specialize (C1 o eq_refl). split.
    - intros U. rewrite C1 in U. apply orb_true_iff in U. destruct U as [U|U].
      + apply existsb_exists in U. destruct U as (i & I & U). destruct (deps_of_in l1 t l2 r0 lr0 E H1 i I) as (m & X & J). destruct (proj1 (IH (t :: l2) r0 lr0 E H1 m i J) U) as (d & B & C). exists d. split; [|exact C]. right.
        destruct B as [->|B]; [constructor 1; exact X|]. econstructor 2; [constructor 1; exact X|exact B].
      + apply existsb_exists in U. destruct U as (f & F & U). exists t. split; [left; reflexivity|]. exists f. split; [exact F|apply cpp_iff; exact U].
    - intros d B C T. rewrite C1. apply orb_true_iff. destruct (below_split ts t d B) as [->|(m & M & B')].
      + right. destruct C as (f & F & C). apply existsb_exists. exists f. split; [exact F|apply cpp_iff; exact C].
      + left. destruct (deps_of_has l1 t l2 r0 lr0 E H1 m M) as ([i|] & J & K).
        * apply existsb_exists. exists i. split; [exact K|]. exact (proj2 (IH (t :: l2) r0 lr0 E H1 m i J) d B' C T).
        * exfalso. assert (Jl : In (m, None) l) by (rewrite H4; apply in_or_app; left; exact J). destruct (all_facts m None Jl) as ((ND & _) & _).
          assert (Id : In d ts). { destruct B' as [->|B']; [exact (proj1 (proj2 M))|exact (through_in ts m d B')]. }
          destruct (in_split d ts Id) as (k1 & k2 & Ek). pose proof W as Wk. rewrite Ek in Wk. destruct (write_all_split k1 [] d k2 r l Wk) as (? & ? & [ke ko] & ? & _ & K2 & _). destruct (spec_cpp _ _ _ _ K2) as (_ & C2 & _). destruct (C2 C) as (z9 & X).
          apply (ND z9). exists d. split; [exact B'|]. right. left. split; assumption. }
  intros t i I. exact (A ts [] r l ltac:(symmetry; apply app_nil_r) W t i I).
Qed.

Lemma driver : forall t e b, In t ts -> linked s ts t -> type t <> Static_library -> product s t = Some b -> In e es -> In b (outs e) ->
  (In ("ld", "$ldxx") (variables e) -> exists d, below ts t d /\ has_cpp d) /\ (forall d, below ts t d -> has_cpp d -> type d <> None_ -> In ("ld", "$ldxx") (variables e)).
Proof.
  intros t e b It L T Pb Ie Ob. destruct (in_split t ts It) as (k1 & k2 & Ek). pose proof W as Wk. rewrite Ek in Wk. destruct (write_all_split k1 [] t k2 r l Wk) as (? & ? & [ke ko] & ? & _ & K2 & K3 & K4). cbn [snd fst] in *.
  assert (J : In (t, ko) l) by (rewrite K4; apply in_or_app; right; left; reflexivity). destruct (all_facts t ko J) as (Pt & _). destruct ko as [i|]; [|destruct Pt as (_ & Pt); contradiction]. destruct Pt as (_ & _ & _ & Pt & _). destruct (Pt L) as (Q1 & Q2).
  assert (NN : type t <> None_) by (destruct L; assumption).
  destruct (spec_cpp _ _ _ _ K2) as (C1 & _ & C3). specialize (C1 i eq_refl). rewrite <- C1 in C3. destruct (C3 i b eq_refl ltac:(rewrite Q1; exact NN) ltac:(rewrite Q1; exact T) Pb) as (e' & E1 & E2 & E3).
  assert (Ee : e = e') by exact (one_edge es OK b e e' Ie (In_ e' (K3 e' E1)) Ob E2). subst e'. destruct (cpp_all t i J) as (A1 & A2). rewrite E3. split.
  - intros V. apply A1. destruct (uses_cpp i); [reflexivity|contradiction].
  - intros d B C D. rewrite (A2 d B C D). left. reflexivity.
Qed.
Lemma final_covers : forall t x, In t ts -> D s ts t x -> exists i f, In (t, Some i) l /\ final_output i = Some f /\ sees_to es f x.
Proof.
  intros t x I X. destruct (in_all t I) as (o & J). destruct (all_facts t o J) as (Pt & _). destruct o as [i|]; [|destruct Pt as (ND & _); destruct (ND x X)].
  destruct Pt as ((f & F & _ & Lx & _) & _). exists i, f. split; [exact J|]. split; [exact F|]. exact (le_asked es x f (Lx x X)).
Qed.
End All.
Lemma sees_trans : forall es q e f x, In e es -> In q (outs e) -> In f (reads e) -> sees_to es f x -> sees_to es q x.
Proof.
  intros es q e f x I Q F (e' & A & X). exists e'. split; [|exact X]. clear X. induction A as [e' I' Q'|e' p e'' A IH P' I' Q'].
  - exact (asked_for es q e f e' (asked_itself es q e I Q) F I' Q').
  - exact (asked_for es q e' p e'' IH P' I' Q').
Qed.

(** ** the whole file *)
Section Whole.
Variables (needed : string -> bool) (ts : list target) (es : list edge).
Hypothesis B : build_ninja s needed ts = Some es.
Hypothesis N : NoDup (map qualified ts).
Hypothesis O : in_order ts.
Hypothesis OK : accepted es.

Lemma opened : exists r l, write_all s [] ts = Some (r, l) /\ incl r es /\ incl (short_names l) es /\ incl (all_edge needed l) es.
Proof.
  unfold build_ninja in B. destruct (write_all s [] ts) as [[r l]|] eqn:W; cbn [bind fst snd] in B; [|discriminate]. injection B as E. exists r, l. split; [reflexivity|]. rewrite <- E.
  split; [intros x X; apply in_or_app; left; exact X|]. split; [intros x X; apply in_or_app; right; apply in_or_app; left; exact X|]. intros x X. apply in_or_app; right; apply in_or_app; right; apply in_or_app; right. exact X.
Qed.
Lemma whole_facts : forall t, In t ts -> facts s ts es t.
Proof. destruct opened as (r & l & W & I & _). intros t It. exact (facts_in ts es r l OK W I N O t It). Qed.
Lemma whole_driver : forall t e b, In t ts -> linked s ts t -> type t <> Static_library -> product s t = Some b -> In e es -> In b (outs e) ->
  (In ("ld", "$ldxx") (variables e) -> exists d, below ts t d /\ has_cpp d) /\ (forall d, below ts t d -> has_cpp d -> type d <> None_ -> In ("ld", "$ldxx") (variables e)).
Proof. destruct opened as (r & l & W & I & _). exact (driver ts es r l OK W I N O). Qed.
Lemma final_in : forall l (t : target) i f, In (t, Some i) l -> final_output i = Some f -> In f (final_outputs l).
Proof. intros l t i f J F. unfold final_outputs. apply in_flat_map. exists (t, Some i). split; [exact J|]. cbn [snd]. rewrite F. left. reflexivity. Qed.
Lemma whole_all : forall t x, In t ts -> needed (qualified t) = true -> D s ts t x -> sees_to es "all" x.
Proof.
  destruct opened as (r & l & W & I & _ & A). intros t x It Nt X. destruct (final_covers ts es r l OK W I N O t x It X) as (i & f & J & F & S_).
  assert (K : In f (sort (unify (final_outputs (filter (fun ti => needed (qualified (fst ti))) l))))).
  { apply sort_In. apply unify_In. apply (final_in _ t i); [apply filter_In; split; [exact J|exact Nt]|exact F]. }
  unfold all_edge in A. destruct (sort (unify (final_outputs (filter (fun ti => needed (qualified (fst ti))) l)))) as [|z o]; [contradiction|].
  apply (sees_trans es "all" (statement ["all"] "phony" (z :: o) [] []) f x); [apply A; left; reflexivity|left; reflexivity| |exact S_]. unfold reads. apply in_or_app. left. exact K.
Qed.
Lemma whole_name : forall t x, In t ts -> toolset t = "target" -> D s ts t x -> sees_to es (target_name t) x.
Proof.
  destruct opened as (r & l & W & I & A & _). intros t x It Nt X. destruct (final_covers ts es r l OK W I N O t x It X) as (i & f & J & F & S_).
  destruct (String.eqb (target_name t) f) eqn:E; [apply String.eqb_eq in E; rewrite E; exact S_|].
  assert (HS : has_short_name (t, Some i) = true) by (unfold has_short_name; cbn [fst snd]; rewrite F, E, Nt; reflexivity).
  set (l' := filter has_short_name l). assert (J' : In (t, Some i) l') by (apply filter_In; split; assumption).
  set (e := statement [target_name t] "phony" (final_outputs (filter (fun ti => String.eqb (target_name (fst ti)) (target_name t)) l')) [] []).
  apply (sees_trans es (target_name t) e f x); [|left; reflexivity| |exact S_].
  - apply A. unfold short_names. fold l'. apply in_map_iff. exists (target_name t). split; [reflexivity|]. apply sort_In. apply unify_In. apply in_map_iff. exists (t, Some i). split; [reflexivity|exact J'].
  - unfold reads. apply in_or_app. left. unfold e, statement. cbn [ins]. apply (final_in _ t i); [apply filter_In; split; [exact J'|cbn [fst]; apply String.eqb_refl]|exact F].
Qed.
End Whole.
End S.
Lemma through_from : forall ts t d, through ts t d -> In t ts.
Proof. intros ts t d T. induction T as [t d X|t m d _ IH _ _]; [exact (proj1 X)|exact IH]. Qed.
