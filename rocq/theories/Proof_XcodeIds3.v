(** Files apart (Model_XcodeIds against Spec_XcodeIds). *)
From Coq Require Import NArith Lia.
From Verif Require Import Lib Str StrFacts LibFacts Model_Names Model_Path Model_Writer Model_XcodeGroups Model_XcodeIds Spec_XcodeGroups Spec_XcodeIds.
From Verif Require Import Proof_Path Proof_XcodeGroups Proof_XcodeGroups2 Proof_XcodeGroups5 Proof_XcodeIds Proof_XcodeIds2.
From Verif Require Proof_NinjaAction2 Proof_Expand.
Local Open Scope string_scope.
Arguments init : simpl never.

(** ** what identifies a file *)
Lemma localized_same : forall d r r', localized d r -> localized d r' -> r = r'.
Proof. intros d r r' [E _] [E' _]. rewrite E in E'. exact (Proof_NinjaAction2.append_inj_r _ _ _ E'). Qed.
Lemma snoc2 : forall A (a b : list A) x y z, (a ++ [x] = b ++ [y; z])%list -> a = (b ++ [y])%list /\ x = z.
Proof. intros A a b x y z E. replace (b ++ [y; z])%list with ((b ++ [y]) ++ [z])%list in E by (rewrite <- app_assoc; reflexivity). apply app_inj_tail in E. exact E. Qed.
Theorem identified_same : forall g l a b, identified g l a -> identified g l b -> a = b.
Proof.
  intros g l a b A B. inversion A as [dirs f N El Ea|dirs d r f L El Ea]; subst.
  - inversion B as [dirs' f' N' El' Eb|dirs' d' r' f' L' El' Eb]; subst.
    + apply app_inj_tail in El'. destruct El' as [-> ->]. reflexivity.
    + symmetry in El'. apply snoc2 in El'. destruct El' as [-> ->]. exfalso. exact (N _ _ _ eq_refl L').
  - inversion B as [dirs' f' N' El' Eb|dirs' d' r' f' L' El' Eb]; subst.
    + apply snoc2 in El'. destruct El' as [-> ->]. exfalso. exact (N' _ _ _ eq_refl L).
    + replace (dirs ++ [d; f])%list with ((dirs ++ [d]) ++ [f])%list in El' by (rewrite <- app_assoc; reflexivity). symmetry in El'. apply snoc2 in El'. destruct El' as [E ->]. apply app_inj_tail in E. destruct E as [-> ->]. rewrite (localized_same _ _ _ L L'). reflexivity.
Qed.
Lemma pairs_cut : forall dirs dirs' t t', hd_error t <> Some "PBXGroup.path" -> hd_error t' <> Some "PBXGroup.path" ->
  (flat_map (fun d => ["PBXGroup.path"; d]) dirs ++ t = flat_map (fun d => ["PBXGroup.path"; d]) dirs' ++ t')%list -> dirs = dirs' /\ t = t'.
Proof.
  induction dirs as [|d dirs IH]; intros [|d' dirs'] t t' T T' E; cbn [flat_map app] in E.
  - split; [reflexivity|exact E].
  - rewrite E in T. cbn in T. congruence.
  - rewrite <- E in T'. cbn in T'. congruence.
  - injection E as -> E. destruct (IH dirs' t t' T T' E) as [-> ->]. split; reflexivity.
Qed.
Theorem identified_apart : forall g l l' a, identified g l a -> identified g l' a -> l = l'.
Proof.
  intros g l l' a A B. enough (Q : forall b, identified g l' b -> a = b -> l = l') by exact (Q a B eq_refl). clear B. intros b B Eb.
  destruct A as [dirs f N|dirs d r f L], B as [dirs' f' N'|dirs' d' r' f' L']; cbn [app] in Eb; injection Eb as Eb; apply pairs_cut in Eb; try (cbn; congruence); destruct Eb as [-> Eb]; try discriminate Eb; injection Eb; intros; subst; reflexivity.
Qed.

(** ** components of UTF-8 text are UTF-8 text *)
Lemma further_cut : forall more s a c b, Forall further_byte more -> (N_of_ascii c < 128)%N -> string_of_list_ascii more ++ s = a ++ String c b -> exists a', a = string_of_list_ascii more ++ a' /\ s = a' ++ String c b.
Proof.
  induction more as [|x more IH]; intros s a c b F C E; [exists a; split; [reflexivity|exact E]|]. apply Forall_cons_iff in F. destruct F as [X F]. cbn in E. destruct a as [|y a]; cbn [append] in E; injection E as -> E.
  - unfold further_byte in X. lia.
  - destruct (IH s a c b F C E) as (a' & -> & ->). exists a'. split; reflexivity.
Qed.
Lemma utf8_parts : forall t, utf8 t -> forall a c b, (N_of_ascii c < 128)%N -> t = a ++ String c b -> utf8 a /\ utf8 b.
Proof.
  intros t U. induction U as [|x more s X M U IH]; intros a c b C E; [destruct a; discriminate E|]. destruct a as [|y a]; cbn [append] in E.
  - injection E as -> E. assert (Z : more = []) by (unfold first_byte in X; destruct more; [reflexivity|cbn [length] in X; lia]). subst more. cbn in E. subst s. split; [constructor|exact U].
  - injection E as -> E. destruct (further_cut more s a c b M C E) as (a' & -> & E'). destruct (IH a' c b C E') as [A B]. split; [|exact B]. constructor; assumption.
Qed.
Lemma text_parts : forall a c b, (N_of_ascii c < 128)%N -> text (a ++ String c b) -> text a /\ text b.
Proof.
  intros a c b C [U S]. destruct (utf8_parts _ U a c b C eq_refl) as [A B]. unfold text, short in *. rewrite Proof_Expand.length_app in S. cbn [String.length] in S. split; split; try assumption; lia.
Qed.
Lemma text_comps : forall l, text (String.concat "/" l) -> Forall text l.
Proof.
  induction l as [|a l IH]; intros T; [constructor|]. destruct l as [|b l]; [constructor; [exact T|constructor]|]. change (String.concat "/" (a :: b :: l)) with (a ++ String "/" (String.concat "/" (b :: l))) in T. apply text_parts in T; [|reflexivity]. destruct T as [A B]. constructor; [exact A|exact (IH B)].
Qed.
Fixpoint low (s : string) : bool := match s with "" => true | String c s' => N.ltb (N_of_ascii c) 128 && low s' end.
Lemma low_utf8 : forall s, low s = true -> utf8 s.
Proof.
  induction s as [|c s IH]; intros L; [constructor|]. cbn in L. apply andb_true_iff in L. destruct L as [C L]. apply N.ltb_lt in C. apply (utf8_char c [] s); [left; split; [reflexivity|exact C]|constructor|exact (IH L)].
Qed.
Lemma literal_text : forall s, In s ["PBXGroup.name"; "PBXGroup.path"; "PBXVariantGroup.name"; "PBXFileReference.name"; "PBXFileReference.path"] -> text s.
Proof. intros s H. cbn [In] in H. decompose [or] H; try contradiction; subst s; (split; [apply low_utf8; reflexivity|reflexivity]). Qed.
Lemma identified_text : forall g l a, text g -> Forall text l -> identified g l a -> Forall text a.
Proof.
  intros g l a G F H. assert (P : forall dirs, Forall text dirs -> Forall text (flat_map (fun d => ["PBXGroup.path"; d]) dirs)) by (induction 1 as [|d dirs D _ IHd]; cbn [flat_map app]; [constructor|]; constructor; [apply literal_text; cbn; tauto|]; constructor; assumption).
  destruct H as [dirs f N|dirs d r f L].
  - apply Forall_app in F. destruct F as [D F]. apply Forall_cons_iff in F. destruct F as [F _]. cbn [app]. constructor; [apply literal_text; cbn; tauto|]. constructor; [exact G|]. apply Forall_app. split; [exact (P dirs D)|]. repeat (constructor; [first [exact F|apply literal_text; cbn; tauto]|]). constructor.
  - apply Forall_app in F. destruct F as [D F]. apply Forall_cons_iff in F. destruct F as [Td F]. apply Forall_cons_iff in F. destruct F as [F _].
    assert (R : text r) by (destruct L as [-> _]; change ".lproj" with (String "." "lproj") in Td; apply text_parts in Td; [exact (proj1 Td)|reflexivity]).
    cbn [app]. constructor; [apply literal_text; cbn; tauto|]. constructor; [exact G|]. apply Forall_app. split; [exact (P dirs D)|]. repeat (constructor; [first [exact F|exact Td|exact R|apply literal_text; cbn; tauto]|]). constructor.
Qed.

(** ** the files of a project *)
Lemma says_split : forall g pl c, says g pl c -> identified g (split_char "/" pl) c.
Proof. intros g pl c (l & F & N & -> & H). change (split_char "/") with (split_char slash). rewrite (normal_split l F N). exact H. Qed.
Theorem by_path : forall sha1 fed g n paths kids, Forall (plain g) paths -> has_char "/" g = false -> add_all n paths [] = Added kids ->
  let t := take_over (source g) (Group false (source g) kids) in
  Forall2 (fun pl id => exists hs, identified g (split_char "/" pl) hs /\ id = id_of (sha1 (fed ++ feeds hs))) (files "" t) (file_ids (compute_ids sha1 fed t)).
Proof.
  intros sha1 fed g n paths kids F S A t. assert (P := project_says g n paths kids F S A). fold t in P. unfold file_ids. assert (I := ids_chains sha1 fed t []). change (feeds []) with "" in I. rewrite append_nil_r in I. rewrite I. clear I.
  induction P as [|pl c pls cs H _ IH]; [constructor|]. cbn [map]. constructor; [|exact IH]. exists c. split; [exact (says_split g pl c H)|reflexivity].
Qed.
Lemma chains_apart : forall g pls cs, Forall2 (says g) pls cs -> NoDup pls -> NoDup cs.
Proof.
  intros g pls cs P. induction P as [|pl c pls cs H P IH]; intros N; [constructor|]. apply NoDup_cons_iff in N. destruct N as [N M]. constructor; [|exact (IH M)]. intros X. apply N. clear IH M N.
  induction P as [|pl' c' pls' cs' H' P IH]; [destruct X|]. destruct X as [->|X]; [|right; exact (IH X)]. left. destruct H as (l & F & _ & -> & I). destruct H' as (l' & F' & _ & -> & I'). rewrite (identified_apart g l l' c I I'). reflexivity.
Qed.
Theorem apart : forall fed g n paths kids, Forall (plain g) paths -> has_char "/" g = false -> add_all n paths [] = Added kids ->
  text g -> Forall (fun p => text (normpath p)) paths ->
  let t := take_over (source g) (Group false (source g) kids) in
  exists inputs, NoDup inputs /\ forall sha1, file_ids (compute_ids sha1 fed t) = map (fun x => id_of (sha1 x)) inputs.
Proof.
  intros fed g n paths kids F S A G T t. assert (P := project_says g n paths kids F S A). fold t in P.
  assert (O : Forall ordinary paths) by (revert F; apply Forall_impl; intros p [H _]; exact H). destruct (files_listed n paths kids O A) as [D M]. assert (L := taken_over n paths kids g O A). cbv zeta in L. change {| name := Some g; tree := "<group>"; path := None |} with (source g) in L. fold t in L.
  exists (map (fun c => fed ++ feeds c) (chains [] t)). split.
  - rewrite <- L in D. assert (C := chains_apart g _ _ P D). assert (Tc : Forall (Forall text) (chains [] t)).
    { assert (Tp : Forall text (files "" t)) by (rewrite L; apply Forall_forall; intros s Hs; apply M in Hs; apply in_map_iff in Hs; destruct Hs as (p & <- & Hp); rewrite Forall_forall in T; exact (T p Hp)).
      clear - P Tp G. induction P as [|pl c pls cs H P IH]; [constructor|]. apply Forall_cons_iff in Tp. destruct Tp as [Tp Tq]. constructor; [|exact (IH Tq)]. destruct H as (l & _ & _ & -> & H). exact (identified_text g l c G (text_comps l Tp) H). }
    clear - C Tc. induction C as [|c cs N C IH]; [constructor|]. apply Forall_cons_iff in Tc. destruct Tc as [Tc Ts]. cbn [map]. constructor; [|exact (IH Ts)]. intros X. apply in_map_iff in X. destruct X as (c' & E & X). apply append_inj in E. apply feeds_inj in E; [|rewrite Forall_forall in Ts; exact (Ts c' X)|exact Tc]. subst c'. exact (N X).
  - intros sha1. unfold file_ids. assert (I := ids_chains sha1 fed t []). change (feeds []) with "" in I. rewrite append_nil_r in I. rewrite I, map_map. reflexivity.
Qed.
Lemma Forall2_nth : forall A B (R : A -> B -> Prop) l l', Forall2 R l l' -> forall i a b, nth_error l i = Some a -> nth_error l' i = Some b -> R a b.
Proof. induction 1 as [|x y l l' H _ IH]; intros [|i] a b E E'; try discriminate E; cbn in E, E'; [congruence|exact (IH i a b E E')]. Qed.
Theorem same_id : forall sha1 fed g n paths kids n' paths' kids', Forall (plain g) paths -> Forall (plain g) paths' -> has_char "/" g = false -> add_all n paths [] = Added kids -> add_all n' paths' [] = Added kids' ->
  let t := take_over (source g) (Group false (source g) kids) in let t' := take_over (source g) (Group false (source g) kids') in
  forall s i j id id', nth_error (files "" t) i = Some s -> nth_error (file_ids (compute_ids sha1 fed t)) i = Some id ->
  nth_error (files "" t') j = Some s -> nth_error (file_ids (compute_ids sha1 fed t')) j = Some id' -> id = id'.
Proof.
  intros sha1 fed g n paths kids n' paths' kids' F F' S A A' t t' s i j id id' E1 E2 E3 E4. assert (P := by_path sha1 fed g n paths kids F S A). assert (P' := by_path sha1 fed g n' paths' kids' F' S A'). cbv zeta in P, P'. fold t in P. fold t' in P'.
  destruct (Forall2_nth _ _ _ _ _ P i s id E1 E2) as (hs & H & ->). destruct (Forall2_nth _ _ _ _ _ P' j s id' E3 E4) as (hs' & H' & ->). rewrite (identified_same g _ _ _ H H'). reflexivity.
Qed.
