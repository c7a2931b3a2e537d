From Verif Require Import Lib Str StrFacts LibFacts Model_Names Model_Path Model_Writer Model_XcodeGroups Spec_XcodeGroups.
From Verif Require Import Proof_Path Proof_XcodeGroups Proof_XcodeGroups2 Proof_XcodeGroups3.
From Coq Require Import Lia Permutation.
Local Open Scope string_scope.
Arguments init : simpl never.

Definition result (top : bool) (s : string) (kids kids' : list elem) : Prop :=
  goods top kids' /\ ((kids' = kids /\ In s (listed kids)) \/ (~ In s (listed kids) /\ Permutation (listed kids') (s :: listed kids))).
Lemma goods_nil : forall top, goods top [].
Proof. intros top. split; constructor. Qed.
(** What a group that is added to lists. *)
Lemma through : forall top d r kids, okc top d -> r <> "" -> goods top kids -> (has_char slash r = true \/ language d = None) -> In (d ++ "/" ++ r) (listed kids) -> exists sub, In (Group false (init None (Some d)) sub) kids /\ In r (listed sub).
Proof.
  intros top d r kids D R G NV I. destruct (listed_In top kids _ G I) as [(c & E & C & _)|[(c & sub & t & E & C & K & T)|(n & sub & c & q & E & N & C & L' & K & J)]].
  - exfalso. apply (no_slash_app c d r (proj1 (proj1 C))). symmetry. exact E.
  - destruct (slash_split _ _ _ _ (proj1 (proj1 D)) (proj1 (proj1 C)) E) as [<- <-]. exists sub. split; assumption.
  - exfalso. destruct (slash_split _ _ _ _ (proj1 (proj1 D)) (proj1 C) E) as [<- <-]. destruct NV as [NV|NV]; [destruct N as [N _]; congruence|congruence].
Qed.
Lemma group_main : forall n top d rest kids kids', okc top d -> rest <> [] -> Forall okn rest -> (2 <= length rest \/ language d = None) ->
  (forall sub sub', goods false sub -> add n (String.concat "/" rest) sub = Added sub' -> result false (String.concat "/" rest) sub sub' /\ (2 <= length rest -> no_file sub -> no_file sub')) ->
  goods top kids -> add_group n d rest kids = Added kids' -> result top (d ++ "/" ++ String.concat "/" rest) kids kids' /\ (no_file kids -> no_file kids').
Proof.
  intros n top d rest kids kids' D NE FO NV IH G H. set (r := String.concat "/" rest) in *. unfold add_group in H. fold r in H.
  assert (R : r <> "") by (apply concat_nonempty; [intros c C; rewrite Forall_forall in FO; apply (FO c C)|exact NE]).
  assert (NV' : has_char slash r = true \/ language d = None).
  { destruct NV as [NV|NV]; [left|right; exact NV]. unfold r. destruct rest as [|a [|b rest]]; cbn in NV; try lia. rewrite concat_cons, has_char_app. cbn. apply orb_true_r. }
  rewrite (child_find d kids (proj1 D)) in H. destruct (find (has_key d) kids) as [e|] eqn:E.
  - destruct (find_split _ _ _ E) as (M & l1 & l2 & K & CH). assert (I := find_In _ _ _ E). assert (G' := G). destruct G' as [F ND]. rewrite Forall_forall in F. apply (proj1 (has_key_id top e d (F e I) (proj1 D))) in M.
    destruct (id_cases top e d (F e I) M) as [_ [->|(sub & -> & FS & DS & LS & XS)]]; [discriminate H|]. destruct (add n r sub) as [sub'| |] eqn:A; try discriminate H. rewrite CH in H. injection H as <-.
    destruct (IH sub sub' (conj FS DS) A) as [[[FS' DS'] C] NF]. split.
    + split.
      * rewrite K in G. apply (goods_replace top l1 _ _ l2 G); [|reflexivity]. constructor; [exact D|exact FS'|exact DS'| |].
        -- intros L. destruct NV as [NV|NV]; [|contradiction]. apply (NF NV). exact (LS L).
        -- destruct C as [[-> _]|[_ P]]; [exact XS|]. exists r. apply (Permutation_in _ (Permutation_sym P)). left. reflexivity.
      * destruct C as [[-> C]|[C P]].
        -- left. split; [symmetry; exact K|]. unfold listed. apply in_flat_map. eexists. split; [exact I|]. rewrite (files_group top d sub D FS). apply (in_map (fun s => d ++ "/" ++ s)). exact C.
        -- right. split.
           ++ intros J. destruct (through top d r kids D R G NV' J) as (u & U & Y). apply C. assert (Z : Group false (init None (Some d)) u = Group false (init None (Some d)) sub) by (apply (nodup_same kids _ _ ND U I); reflexivity). injection Z as ->. exact Y.
           ++ rewrite K. apply listed_grow. rewrite (files_group top d sub D FS), (files_group top d sub' D FS'). change (cons (d ++ "/" ++ r) (map (fun s => d ++ "/" ++ s) (listed sub))) with (map (fun s => d ++ "/" ++ s) (r :: listed sub)). apply Permutation_map. exact P.
    + intros N p J. rewrite K in N. apply in_app_or in J. destruct J as [J|[J|J]]; [apply (N p); apply in_or_app; left; exact J|discriminate J|apply (N p); apply in_or_app; right; right; exact J].
  - destruct (append_child _ kids) as [k| |] eqn:A; try discriminate H. clear A k. destruct (add n r []) as [sub'| |] eqn:A; try discriminate H. injection H as <-.
    destruct (IH [] sub' (goods_nil false) A) as [[[FS' DS'] C] NF]. destruct C as [[_ []]|[_ P]].
    assert (N : forall k, In k kids -> id k <> (false, Some d)).
    { intros k K X. destruct G as [F _]. rewrite Forall_forall in F. apply (proj2 (has_key_id top k d (F k K) (proj1 D))) in X. rewrite (find_none_all _ _ E k K) in X. discriminate X. }
    assert (ID : forall u, id (Group false (init None (Some d)) u) = (false, Some d)) by (intros u; cbn [id props_of]; rewrite (key_init top d D); reflexivity).
    split.
    + split.
      * apply goods_snoc; [exact G| |intros k K; rewrite ID; exact (N k K)]. constructor; [exact D|exact FS'|exact DS'| |].
        -- intros L. destruct NV as [NV|NV]; [|contradiction]. apply (NF NV). intros p [].
        -- exists r. apply (Permutation_in _ (Permutation_sym P)). left. reflexivity.
      * right. split.
        -- intros J. destruct (through top d r kids D R G NV' J) as (u & U & _). apply (N _ U). apply ID.
        -- rewrite listed_app, listed_one, (files_group top d sub' D FS'). transitivity (app (listed kids) (cons (d ++ "/" ++ r) nil)); [|apply Permutation_sym, Permutation_cons_append]. apply Permutation_app_head. exact (Permutation_map (fun s => d ++ "/" ++ s) P).
    + intros NFk p J. apply in_app_or in J. destruct J as [J|[J|[]]]; [exact (NFk p J)|discriminate J].
Qed.
Lemma language_end : forall d r, language d = Some r -> exists x, d = x ++ "j".
Proof.
  intros d r L. unfold language, splitext in L. destruct (rsplit1 "/" d) as [[h b]|] eqn:E1.
  - apply rsplit1_Some in E1. destruct E1 as [-> _]. destruct (rsplit1 "." b) as [[x e]|] eqn:E2; [|discriminate L]. apply rsplit1_Some in E2. destruct E2 as [-> _]. destruct (only_dots x); [discriminate L|]. destruct (String.eqb_spec ("." ++ e) ".lproj") as [E|E]; [|discriminate L]. cbn in E. injection E as ->.
    exists (h ++ String "/" (x ++ ".lpro")). rewrite !append_assoc. cbn. rewrite !append_assoc. reflexivity.
  - destruct (rsplit1 "." d) as [[x e]|] eqn:E2; [|discriminate L]. apply rsplit1_Some in E2. destruct E2 as [-> _]. destruct (only_dots x); [discriminate L|]. destruct (String.eqb_spec ("." ++ e) ".lproj") as [E|E]; [|discriminate L]. cbn in E. injection E as ->.
    exists (x ++ ".lpro"). rewrite append_assoc. reflexivity.
Qed.
Lemma snoc_inj : forall a b x y, a ++ String x "" = b ++ String y "" -> x = y.
Proof.
  induction a as [|p a IH]; intros b x y E; destruct b as [|q b]; cbn in E.
  - congruence.
  - injection E as _ E. destruct b; discriminate E.
  - injection E as _ E. destruct a; discriminate E.
  - injection E as _ E. exact (IH b x y E).
Qed.
Lemma language_plain : forall top d r, okc top d -> language d = Some r -> no_variable d.
Proof.
  intros top d r [_ [N|[_ (v & E & _)]]] L; [exact N|]. exfalso. destruct (language_end d r L) as (x & X). rewrite X in E. rewrite <- append_assoc in E. apply snoc_inj in E. discriminate E.
Qed.

Theorem add_main : forall l n top kids kids', normal l -> comps top l -> goods top kids -> add n (String.concat "/" l) kids = Added kids' ->
  result top (String.concat "/" l) kids kids' /\ (2 <= length l -> no_file kids -> no_file kids').
Proof.
  induction l as [|c l IH]; intros n top kids kids' N C G H; [destruct C|]. destruct n as [|n]; [discriminate H|]. destruct C as [C F]. destruct l as [|a l].
  - change (String.concat "/" [c]) with c in *. rewrite (add_one n c kids N) in H. split; [exact (file_main top c kids kids' C G H)|]. cbn. lia.
  - assert (K : Forall okn (a :: l)) by (revert F; apply Forall_impl; intros x X; apply X).
    assert (IHr : forall sub sub', goods false sub -> add n (String.concat "/" (a :: l)) sub = Added sub' -> result false (String.concat "/" (a :: l)) sub sub' /\ (2 <= length (a :: l) -> no_file sub -> no_file sub')).
    { intros sub sub' Gs Hs. apply (IH n false sub sub'); [exact (normal_tail c a l N)| |exact Gs|exact Hs]. apply Forall_cons_iff in F. exact F. }
    rewrite (concat_cons "/" c (a :: l)) in *. cbv iota in *. destruct l as [|b l].
    + change (c ++ "/" ++ String.concat "/" [a]) with (String.concat "/" [c; a]) in H. rewrite (add_two n c a kids N) in H. change (String.concat "/" [c; a]) with (c ++ "/" ++ a) in H. change (String.concat "/" [a]) with a in *. destruct (language c) as [r|] eqn:L.
      * apply Forall_cons_iff in K. destruct K as [K _]. destruct (variant_main top c a r kids kids' (proj1 C) (language_plain top c r C L) K L G H) as (V1 & V2 & V3). split; [split; assumption|]. intros _. exact V2.
      * destruct (group_main n top c [a] kids kids' C ltac:(discriminate) K (or_intror L) IHr G H) as [A B]. split; [exact A|intros _; exact B].
    + change (c ++ "/" ++ String.concat "/" (a :: b :: l)) with (String.concat "/" (c :: a :: b :: l)) in H. rewrite (add_more n c a b l kids N) in H.
      assert (LL : 2 <= length (a :: b :: l)) by (cbn [length]; lia).
      destruct (group_main n top c (a :: b :: l) kids kids' C ltac:(discriminate) K (or_introl LL) IHr G H) as [A B]. split; [exact A|intros _; exact B].
Qed.

(** ** When adding succeeds *)
Definition free (s : string) (kids : list elem) : Prop := forall t, In t (listed kids) -> ~ inside s t /\ ~ inside t s.
Lemma append_fine : forall top e kids, good top e -> goods top kids -> (forall k, In k kids -> id k <> id e) -> append_child e kids = Added (kids ++ [e])%list.
Proof.
  intros top e kids Ge G N. assert (F := proj1 G). rewrite Forall_forall in F. unfold append_child.
  assert (HK : forall s, okn s -> id e = (false, Some s) -> existsb (has_key s) kids = false).
  { intros s S E. destruct (existsb (has_key s) kids) eqn:X; [|reflexivity]. apply existsb_exists in X. destruct X as (k & K & X). apply (proj1 (has_key_id top k s (F k K) S)) in X. exfalso. apply (N k K). congruence. }
  inversion Ge as [t c C E1 E2|t c sub C FS D L X E1 E2|t n sub C FS NE D E1 E2]; subst; cbn [props_of].
  - rewrite (key_init top c C). rewrite (HK c (proj1 C)) by (cbn [id props_of]; rewrite (key_init top c C); reflexivity). rewrite andb_false_r. reflexivity.
  - rewrite (key_init top c C). rewrite (HK c (proj1 C)) by (cbn [id props_of]; rewrite (key_init top c C); reflexivity). rewrite andb_false_r. reflexivity.
  - change (key {| name := Some n; tree := "<group>"; path := None |}) with (@None string). cbv iota. cbn [name]. destruct (existsb (is_variant (Some n) None) kids) eqn:X; [|reflexivity]. apply existsb_exists in X. destruct X as (k & K & X). apply (proj1 (variant_id top k n (F k K))) in X. destruct (N k K X).
Qed.
Lemma good_new_group : forall top d, okc top d -> forall kids, goods top kids -> (forall k, In k kids -> id k <> (false, Some d)) -> append_child (Group false (init None (Some d)) []) kids = Added (kids ++ [Group false (init None (Some d)) []])%list.
Proof.
  intros top d D kids G N. assert (F := proj1 G). rewrite Forall_forall in F. unfold append_child. cbn [props_of]. rewrite (key_init top d D). destruct (existsb (has_key d) kids) eqn:X; [|rewrite andb_false_r; reflexivity].
  apply existsb_exists in X. destruct X as (k & K & X). apply (proj1 (has_key_id top k d (F k K) (proj1 D))) in X. destruct (N k K X).
Qed.
Lemma group_succeeds : forall n top d rest kids, okc top d -> rest <> [] ->
  (forall sub, goods false sub -> free (String.concat "/" rest) sub -> exists sub', add n (String.concat "/" rest) sub = Added sub') ->
  goods top kids -> free (d ++ "/" ++ String.concat "/" rest) kids -> exists kids', add_group n d rest kids = Added kids'.
Proof.
  intros n top d rest kids D NE IH G FR. unfold add_group. rewrite (child_find d kids (proj1 D)). destruct (find (has_key d) kids) as [e|] eqn:E.
  - destruct (find_split _ _ _ E) as (M & l1 & l2 & K & CH). assert (I := find_In _ _ _ E). assert (F := proj1 G). rewrite Forall_forall in F. apply (proj1 (has_key_id top e d (F e I) (proj1 D))) in M.
    destruct (id_cases top e d (F e I) M) as [_ [->|(sub & -> & FS & DS & LS & XS)]].
    + exfalso. assert (J : In d (listed kids)) by (unfold listed; apply in_flat_map; eexists; split; [exact I|]; left; apply (place_init top d D)). apply (proj2 (FR d J)). exists (String.concat "/" rest). reflexivity.
    + destruct (IH sub (conj FS DS)) as (sub' & A).
      * intros t T. assert (J : In (d ++ "/" ++ t) (listed kids)) by (unfold listed; apply in_flat_map; eexists; split; [exact I|]; rewrite (files_group top d sub D FS); apply (in_map (fun s => d ++ "/" ++ s)); exact T).
        destruct (FR _ J) as [F1 F2]. split; intros (u & U); [apply F1|apply F2]; exists u; rewrite U, !append_assoc; reflexivity.
      * rewrite A, CH. eexists. reflexivity.
  - rewrite (good_new_group top d D kids G).
    + destruct (IH [] (goods_nil false)) as (sub' & A); [intros t []|]. rewrite A. eexists. reflexivity.
    + intros k K X. assert (F := proj1 G). rewrite Forall_forall in F. apply (proj2 (has_key_id top k d (F k K) (proj1 D))) in X. rewrite (find_none_all _ _ E k K) in X. discriminate X.
Qed.
Theorem add_succeeds : forall l n top kids, normal l -> comps top l -> goods top kids -> free (String.concat "/" l) kids -> length l <= n -> exists kids', add n (String.concat "/" l) kids = Added kids'.
Proof.
  induction l as [|c l IH]; intros n top kids N C G FR LN; [destruct C|]. cbn in LN. destruct n as [|n]; [lia|]. destruct C as [C F]. destruct l as [|a l].
  - change (String.concat "/" [c]) with c in *. rewrite (add_one n c kids N). unfold add_file. rewrite (child_find c kids (proj1 C)). destruct (find (has_key c) kids) as [e|] eqn:E.
    + assert (M := proj1 (find_split _ _ _ E)). assert (I := find_In _ _ _ E). assert (Fk := proj1 G). rewrite Forall_forall in Fk. apply (proj1 (has_key_id top e c (Fk e I) (proj1 C))) in M.
      destruct (id_cases top e c (Fk e I) M) as [_ [->|(sub & -> & FS & DS & LS & (s & XS))]]; [eexists; reflexivity|]. exfalso.
      assert (J : In (c ++ "/" ++ s) (listed kids)) by (unfold listed; apply in_flat_map; eexists; split; [exact I|]; rewrite (files_group top c sub C FS); apply (in_map (fun s => c ++ "/" ++ s)); exact XS).
      apply (proj1 (FR _ J)). exists s. reflexivity.
    + rewrite (new_file_init top c C). rewrite (append_fine top); [eexists; reflexivity|constructor; exact C|exact G|]. intros k K. replace (id (File (init None (Some c)))) with (false, Some c) by (cbn [id props_of]; rewrite (key_init top c C); reflexivity).
      intros X. assert (Fk := proj1 G). rewrite Forall_forall in Fk. apply (proj2 (has_key_id top k c (Fk k K) (proj1 C))) in X. rewrite (find_none_all _ _ E k K) in X. discriminate X.
  - assert (IHr : forall sub, goods false sub -> free (String.concat "/" (a :: l)) sub -> exists sub', add n (String.concat "/" (a :: l)) sub = Added sub').
    { intros sub Gs Fs. apply (IH n false sub); [exact (normal_tail c a l N)| |exact Gs|exact Fs|cbn [length] in *; lia]. apply Forall_cons_iff in F. exact F. }
    rewrite (concat_cons "/" c (a :: l)) in *. cbv iota in *. destruct l as [|b l].
    + change (c ++ "/" ++ String.concat "/" [a]) with (String.concat "/" [c; a]). rewrite (add_two n c a kids N). change (String.concat "/" [c; a]) with (c ++ "/" ++ a). destruct (language c) as [r|] eqn:L; [|exact (group_succeeds n top c [a] kids C ltac:(discriminate) IHr G FR)].
      change (String.concat "/" [a]) with a in *. assert (K : okn a) by (apply Forall_cons_iff in F; apply F). assert (V := language_plain top c r C L).
      assert (VF : variant_file a (File {| name := Some r; tree := "<group>"; path := Some (c ++ "/" ++ a) |})) by (exists c, r; split; [exact L|]; split; [apply C|]; split; [exact V|reflexivity]).
      unfold add_variant. rewrite (new_variant_file r c a (proj1 C) K V). assert (Fk := proj1 G). rewrite Forall_forall in Fk. destruct (find (is_variant (Some a) None) kids) as [e|] eqn:E.
      * destruct (find_split _ _ _ E) as (M & l1 & l2 & Kk & CH). assert (I := find_In _ _ _ E). apply (proj1 (variant_id top e a (Fk e I))) in M. destruct (id_variant top e a (Fk e I) M) as (sub & -> & _ & FV & NE & DS).
        unfold child_at. destruct (String.eqb_spec (c ++ "/" ++ a) ""); [destruct c; discriminate|]. assert (FV' := FV). rewrite Forall_forall in FV'. destruct (find (has_key (c ++ "/" ++ a)) sub) as [f|] eqn:Ef.
        -- destruct (FV' f (find_In _ _ _ Ef)) as (d' & r' & _ & _ & _ & ->). eexists. reflexivity.
        -- unfold append_child. cbn [props_of]. change (key {| name := Some r; tree := "<group>"; path := Some (c ++ "/" ++ a) |}) with (Some (c ++ "/" ++ a)). cbv iota.
           destruct (existsb (has_key (c ++ "/" ++ a)) sub) eqn:X; [apply existsb_exists in X; destruct X as (f & Y & X); rewrite (find_none_all _ _ Ef f Y) in X; discriminate X|]. rewrite andb_false_r. rewrite CH. eexists. reflexivity.
      * change (init (Some a) None) with {| name := Some a; tree := "<group>"; path := None |}. rewrite (append_fine top); [eexists; reflexivity| |exact G|].
        -- constructor; [exact K|constructor; [exact VF|constructor]|discriminate|repeat constructor; intros []].
        -- intros k Kk X. apply (proj2 (variant_id top k a (Fk k Kk))) in X. rewrite (find_none_all _ _ E k Kk) in X. discriminate X.
    + change (c ++ "/" ++ String.concat "/" (a :: b :: l)) with (String.concat "/" (c :: a :: b :: l)). rewrite (add_more n c a b l kids N). exact (group_succeeds n top c (a :: b :: l) kids C ltac:(discriminate) IHr G FR).
Qed.
