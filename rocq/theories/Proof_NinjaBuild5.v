(** Proofs about the build statements for ninja: what is linked. *)
From Coq Require Import Relations Operators_Properties.
From Verif Require Import Lib Str LibFacts Model_Names Model_Path Model_Graph Model_Release Proof_Graph Model_Writer Model_NinjaBuild Spec_NinjaBuild Proof_NinjaBuild Proof_NinjaBuild2 Proof_NinjaBuild3.
Local Open Scope string_scope.

Section S.
Variable s : setup.
Lemma spec_inputs : forall outputs t we wo, write_spec s outputs t = Some (we, wo) ->
  forall i p, wo = Some i -> out_type i <> None_ -> product s t = Some p ->
  exists e, In e we /\ In p (outs e) /\ (forall o, compiles s t o -> In o (ins e)) /\
    (forall f x, In f (all_sources t) -> ends_with ".o" f = true -> to_ninja s t f = Some x -> In x (ins e)) /\
    (out_type i <> Static_library -> forall j b, In j (deps_of outputs t) -> linkable j = true -> out_binary j = Some b -> if uses_toc j then In (b ++ ".TOC") (implicit e) else In b (ins e)).
Proof.
  intros outputs t we wo H. unfold write_spec in H.
  destruct (traverse preaction_input (deps_of outputs t)) as [pre|] eqn:EP; cbn [bind] in H; [|discriminate].
  destruct (collapse s t "actions_depends" (flat_map filled pre) None) as [[ade ad]|] eqn:EA; cbn [bind fst snd] in H; [|discriminate].
  destruct (collapse s t "compile_depends" (flat_map filled (map precompile_input (deps_of outputs t))) None) as [[cde cd]|] eqn:EC; cbn [bind fst snd] in H; [|discriminate].
  destruct (write_generated s t ad) as [[ge gen]|] eqn:EG; cbn [bind fst snd] in H; [|discriminate].
  destruct (traverse (write_source s t (or_ gen cd)) (all_sources t)) as [objs|] eqn:EO; cbn [bind] in H; [|discriminate].
  destruct (traverse (to_ninja s t) (filter (ends_with ".o") (all_sources t))) as [given|] eqn:EV; cbn [bind] in H; [|discriminate].
  set (cpp := (existsb uses_cpp (deps_of outputs t) || existsb is_cpp (all_sources t))%bool) in H. set (objects := (flat_map outs (concat objs) ++ given)%list) in H.
  assert (OB1 : forall o, compiles s t o -> In o objects).
  { intros o (f & c & F & C & U). destruct (traverse_in _ _ _ EO f F) as (l & L & J). unfold write_source in L. rewrite C in L. destruct (to_ninja s t f) as [i|]; cbn [bind] in L; [|discriminate]. rewrite U in L. cbn [bind] in L. injection L as <-.
    apply in_or_app. left. apply in_flat_map. exists (statement [o] c [i] [] (as_list (or_ gen cd))). split; [apply in_concat; eexists; split; [exact J|left; reflexivity]|left; reflexivity]. }
  assert (OB2 : forall f x, In f (all_sources t) -> ends_with ".o" f = true -> to_ninja s t f = Some x -> In x objects).
  { intros f x F E X. assert (J : In f (filter (ends_with ".o") (all_sources t))) by (apply filter_In; split; assumption). destruct (traverse_in _ _ _ EV f J) as (y & Y & K). rewrite X in Y. injection Y as <-. apply in_or_app. right. exact K. }
  set (test := match objects, gen, ad with [], None, None => true | _, _, _ => false end) in H.
  destruct test; [injection H as <- <-; discriminate|].
  destruct (write_target s outputs t cpp objects (or_ gen ad)) as [[[we' b] k]|] eqn:EW; cbn [bind] in H; [|discriminate]. injection H as <- <-.
  assert (OT : forall i, match b with Some (String _ _) => Some {| out_type := k; preaction_stamp := ad; precompile_stamp := cd; actions_stamp := gen; out_binary := b; uses_cpp := cpp |} | _ => None end = Some i -> out_type i = k).
  { intros i X. destruct b as [[|c b]|]; try discriminate X; injection X as <-; reflexivity. }
  assert (WL : forall e p, write_link s outputs t cpp objects (or_ gen ad) = Some (e, p) -> product s t = Some p /\ In p (outs e) /\ incl objects (ins e) /\
     forall j b, In j (deps_of outputs t) -> linkable j = true -> out_binary j = Some b -> if uses_toc j then In (b ++ ".TOC") (implicit e) else In b (ins e)).
  { intros e p X. unfold write_link in X. destruct (traverse dependency_links (deps_of outputs t)) as [dl|] eqn:DL; cbn [bind] in X; [|discriminate]. destruct (product s t) as [p'|]; cbn [bind] in X; [|discriminate]. injection X as <- <-.
    split; [reflexivity|]. cbn [outs ins implicit]. split; [destruct (type t); left; reflexivity|]. split; [intros x X; apply in_or_app; left; exact X|].
    intros j bj J Lj Bj. destruct (traverse_in _ _ _ DL j J) as (y & Y & K). unfold dependency_links in Y. rewrite Lj, Bj in Y. destruct (uses_toc j); cbn [bind] in Y; injection Y as <-.
    - apply sort_In. apply unify_In. apply in_flat_map. eexists. split; [exact K|]. left. reflexivity.
    - apply in_or_app. right. apply unify_In. apply in_flat_map. eexists. split; [exact K|]. left. reflexivity. }
  intros i p I1 I2 Pp. rewrite (OT i I1) in I2. rewrite (OT i I1). clear I1 OT i.
  unfold write_target in EW. destruct (match objects with [] => negb (existsb linkable (deps_of outputs t)) | _ => false end).
  { injection EW as <- <- <-. contradiction. }
  destruct (type t) eqn:TY.
  2: { destruct (product s t) as [p9|] eqn:PR; cbn [bind] in EW; [|discriminate]. injection EW as <- <- <-. injection Pp as ->. eexists. split; [apply in_or_app; right; left; reflexivity|].
       cbn [statement outs ins implicit]. split; [left; reflexivity|]. split; [exact OB1|]. split; [exact OB2|]. contradiction. }
  4: { injection EW as <- <- <-. contradiction. }
  all: destruct (write_link s outputs t cpp objects (or_ gen ad)) as [[e0 p0]|] eqn:EL; cbn [bind fst snd] in EW; [|discriminate]; injection EW as <- <- <-; destruct (WL e0 p0 eq_refl) as (L1 & L2 & L3 & L4).
  all: rewrite L1 in Pp; injection Pp as <-; exists e0; split; [apply in_or_app; right; left; reflexivity|]; split; [exact L2|]; split; [intros o X; exact (L3 o (OB1 o X))|]; split; [intros f x F E X; exact (L3 x (OB2 f x F E X))|]; intros _; exact L4.
Qed.

Section All.
Variables (needed : string -> bool) (ts : list target) (es : list edge).
Hypothesis B : build_ninja s needed ts = Some es.
Hypothesis N : NoDup (map qualified ts).
Hypothesis O : in_order ts.
Hypothesis OK : accepted es.
Lemma linked_with : forall t e b, In t ts -> linked s ts t -> product s t = Some b -> In e es -> In b (outs e) ->
  (forall o, compiles s t o -> In o (ins e)) /\
  (forall f x, In f (all_sources t) -> ends_with ".o" f = true -> to_ninja s t f = Some x -> In x (ins e)) /\
  (type t <> Static_library -> forall d x, depends ts t d -> linked s ts d -> product s d = Some x ->
     (type d = Static_library -> In x (ins e)) /\ (type d = Shared_library -> In (x ++ ".TOC") (implicit e))).
Proof.
  destruct (opened s needed ts es B) as (r & l & W & I & _). intros t e b It L Pb Ie Ob.
  destruct (in_split t ts It) as (k1 & k2 & Ek). pose proof W as Wk. rewrite Ek in Wk. destruct (write_all_split s k1 [] t k2 r l Wk) as (r1 & lr1 & [ke ko] & lr2 & K1 & K2 & K3 & K4). cbn [snd fst app] in *.
  assert (J : In (t, ko) l) by (rewrite K4; apply in_or_app; right; left; reflexivity). destruct (all_facts s ts es r l OK W I N O t ko J) as (Pt & _). destruct ko as [i|]; [|destruct Pt as (_ & Pt); contradiction]. destruct Pt as (_ & _ & _ & Pt & _). destruct (Pt L) as (Q1 & Q2).
  assert (NN : type t <> None_) by (destruct L; assumption).
  destruct (spec_inputs _ _ _ _ K2 i b eq_refl ltac:(rewrite Q1; exact NN) Pb) as (e' & E1 & E2 & E3 & E4 & E5).
  assert (Ee : e = e') by exact (one_edge es OK b e e' Ie (I e' (K3 e' E1)) Ob E2). subst e'. split; [exact E3|]. split; [exact E4|].
  intros T d x X Ld Px. rewrite Q1 in E5. destruct (deps_of_has s ts N O k1 t k2 r1 lr1 Ek K1 d X) as (od & Jd & Kd).
  assert (Jl : In (d, od) l) by (rewrite K4; apply in_or_app; left; exact Jd). destruct (all_facts s ts es r l OK W I N O d od Jl) as (Pd & _). destruct od as [j|]; [|destruct Pd as (_ & Pd); contradiction].
  destruct Pd as (_ & _ & _ & Pd & _). destruct (Pd Ld) as (D1 & D2). rewrite Px in D2.
  split; intros Td; (assert (G : linkable j = true) by (unfold linkable; rewrite D1, Td; reflexivity)); specialize (E5 T j x Kd G D2); unfold uses_toc in E5; rewrite D1, Td in E5; exact E5.
Qed.
End All.

(** ** the names of products *)
Lemma product_names : forall t, product_name t = None -> product_dir t = None -> standalone t = false -> toolset t = "target" ->
  (type t = Executable -> product_prefix t = None -> product_extension t = None -> product s t = Some (target_name t)) /\
  (type t = Shared_library -> product_prefix t = None -> product_extension t = None -> (forall x, target_name t <> "lib" ++ x) -> product s t = Some ("lib/lib" ++ target_name t ++ ".so")) /\
  (type t = Loadable_module -> product_prefix t = None -> product_extension t = None -> (forall x, target_name t <> "lib" ++ x) -> product s t = Some ("lib" ++ target_name t ++ ".so")) /\
  (type t = Loadable_module -> product_prefix t = Some "" -> product_extension t = Some "node" -> product s t = Some (target_name t ++ ".node")).
Proof.
  assert (WL : forall n, (forall x, n <> "lib" ++ x) -> without_lib n = n).
  { intros n H. unfold without_lib. destruct (after_prefix "lib" n) as [r|] eqn:E; [|reflexivity]. exfalso. apply (H r).
    destruct n as [|a n]; cbn [after_prefix] in E; [discriminate|]. destruct (Ascii.eqb "l" a) eqn:A1; [|discriminate]. apply Ascii.eqb_eq in A1. subst a.
    destruct n as [|a n]; cbn [after_prefix] in E; [discriminate|]. destruct (Ascii.eqb "i" a) eqn:A1; [|discriminate]. apply Ascii.eqb_eq in A1. subst a.
    destruct n as [|a n]; cbn [after_prefix] in E; [discriminate|]. destruct (Ascii.eqb "b" a) eqn:A1; [|discriminate]. apply Ascii.eqb_eq in A1. subst a. injection E as <-. reflexivity. }
  assert (NIL : forall x, x ++ "" = x) by (induction x as [|a x IH]; [reflexivity|cbn [append]; rewrite IH; reflexivity]).
  intros t HN HD HS HT. unfold product, output_name. rewrite HN, HD, HS, HT.
  split; [|split; [|split]]; intros T P E; rewrite T, P, E.
  - cbn [append String.eqb]. rewrite NIL. reflexivity.
  - intros H. rewrite String.eqb_refl, (WL _ H). reflexivity.
  - intros H. rewrite String.eqb_refl, (WL _ H). reflexivity.
  - reflexivity.
Qed.
End S.
