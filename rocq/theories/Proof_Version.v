(** Proofs about version comparison. *)
From Coq Require Import NArith Lia.
From Verif Require Import Lib Str Model_Version Spec_Version.
Local Open Scope N_scope.

Definition thenc (c d : comparison) : comparison := match c with Datatypes.Eq => d | _ => c end.
Fixpoint lexc {A} (f : A -> A -> comparison) (l l' : list A) : comparison :=
  match l, l' with
  | [], [] => Datatypes.Eq
  | [], _ :: _ => Datatypes.Lt
  | _ :: _, [] => Datatypes.Gt
  | x :: l, y :: l' => thenc (f x y) (lexc f l l')
  end.

(** ** Comparisons that are total orders *)
Definition good {A} (f : A -> A -> comparison) : Prop :=
  (forall x y, f y x = CompOpp (f x y)) /\
  (forall x y z c, f x y = c -> f y z = c -> f x z = c) /\
  (forall x y z, f x y = Datatypes.Eq -> f x z = f y z).

Lemma good_right : forall A (f : A -> A -> comparison), good f -> forall x y z, f x y = Datatypes.Eq -> f z x = f z y.
Proof. intros A f (Ha & _ & He) x y z H. rewrite (Ha x z), (Ha y z). f_equal. apply He. exact H. Qed.
Lemma good_refl : forall A (f : A -> A -> comparison), good f -> forall x, f x x = Datatypes.Eq.
Proof. intros A f (Ha & _) x. specialize (Ha x x). destruct (f x x); [reflexivity|discriminate|discriminate]. Qed.
Lemma good_N : good N.compare.
Proof.
  split; [|split].
  - intros x y. apply N.compare_antisym.
  - intros x y z [] H1 H2.
    + apply N.compare_eq_iff in H1. subst. exact H2.
    + rewrite N.compare_lt_iff in *. lia.
    + rewrite N.compare_gt_iff in *. lia.
  - intros x y z H. apply N.compare_eq_iff in H. subst. reflexivity.
Qed.
Lemma good_thenc : forall A (f g : A -> A -> comparison), good f -> good g -> good (fun x y => thenc (f x y) (g x y)).
Proof.
  intros A f g Hf Hg. pose proof (good_right _ _ Hf) as Hfr. destruct Hf as (Fa & Ft & Fe). destruct Hg as (Ga & Gt & Ge). split; [|split].
  - intros x y. rewrite Fa. destruct (f x y); cbn; [apply Ga|reflexivity|reflexivity].
  - intros x y z c H1 H2. destruct (f x y) eqn:E1; cbn in H1.
    + rewrite (Fe _ _ _ E1). destruct (f y z); cbn in *; [eapply Gt; eassumption|assumption|assumption].
    + destruct (f y z) eqn:E2; cbn in H2.
      * rewrite <- (Hfr _ _ x E2), E1. exact H1.
      * rewrite (Ft x y z _ E1 E2). exact H1.
      * congruence.
    + destruct (f y z) eqn:E2; cbn in H2.
      * rewrite <- (Hfr _ _ x E2), E1. exact H1.
      * congruence.
      * rewrite (Ft x y z _ E1 E2). exact H1.
  - intros x y z H. destruct (f x y) eqn:E1; try discriminate. cbn in H. rewrite (Fe _ _ z E1), (Ge _ _ z H). reflexivity.
Qed.
Lemma good_pull : forall A B (h : A -> B) (f : B -> B -> comparison), good f -> good (fun x y => f (h x) (h y)).
Proof. intros A B h f (Fa & Ft & Fe). repeat split; intros; [apply Fa|eapply Ft; eassumption|apply Fe; assumption]. Qed.
Lemma good_lexc : forall A (f : A -> A -> comparison), good f -> good (lexc f).
Proof.
  intros A f Hf. pose proof (good_right _ _ Hf) as Hfr. destruct Hf as (Fa & Ft & Fe). split; [|split].
  - induction x as [|x l IH]; intros [|y l']; try reflexivity. cbn. rewrite Fa, IH. destruct (f x y); reflexivity.
  - induction x as [|x l IH]; intros [|y l'] [|z l''] c H1 H2; cbn in *; try congruence.
    destruct (f x y) eqn:E1; cbn in H1.
    + rewrite (Fe _ _ z E1). destruct (f y z); cbn in *; [eapply IH; eassumption|assumption|assumption].
    + destruct (f y z) eqn:E2; cbn in H2.
      * rewrite <- (Hfr _ _ x E2), E1. exact H1.
      * rewrite (Ft x y z _ E1 E2). exact H1.
      * congruence.
    + destruct (f y z) eqn:E2; cbn in H2.
      * rewrite <- (Hfr _ _ x E2), E1. exact H1.
      * congruence.
      * rewrite (Ft x y z _ E1 E2). exact H1.
  - induction x as [|x l IH]; intros [|y l'] z H; try discriminate; [reflexivity|]. cbn in H. destruct (f x y) eqn:E; try discriminate. cbn in H.
    destruct z as [|z l'']; [reflexivity|]. cbn. rewrite (Fe _ _ z E), (IH _ l'' H). reflexivity.
Qed.

Lemma lexc_eq : forall A (f : A -> A -> comparison), (forall x y, f x y = Datatypes.Eq <-> x = y) -> forall l l', lexc f l l' = Datatypes.Eq <-> l = l'.
Proof.
  intros A f Hf. induction l as [|x l IH]; intros [|y l']; cbn; split; intros H; try discriminate; try reflexivity.
  - destruct (f x y) eqn:E; try discriminate. apply Hf in E. cbn in H. apply IH in H. congruence.
  - injection H as -> ->. rewrite (proj2 (Hf y y) eq_refl). cbn. apply IH. reflexivity.
Qed.
Lemma lexc_lt : forall A (f : A -> A -> comparison) (R : A -> A -> Prop), (forall x y, f x y = Datatypes.Eq <-> x = y) -> (forall x y, f x y = Datatypes.Lt <-> R x y) ->
  forall l l', lexc f l l' = Datatypes.Lt <-> lex_before R l l'.
Proof.
  intros A f R He Hl. induction l as [|x l IH]; intros [|y l']; cbn; split; intros H; try discriminate; try (inversion H; fail); try reflexivity; try (apply lex_prefix).
  - destruct (f x y) eqn:E; try discriminate; cbn in H.
    + apply He in E. subst. apply lex_tail. apply IH. exact H.
    + apply lex_head. apply Hl. exact E.
  - inversion H; subst.
    + rewrite (proj2 (Hl x y)) by assumption. reflexivity.
    + rewrite (proj2 (He y y) eq_refl). cbn. apply IH. assumption.
Qed.

(** strings *)
Definition ascii_cmp (a b : ascii) : comparison := N.compare (N_of_ascii a) (N_of_ascii b).
Lemma string_compare_lexc : forall s t, String.compare s t = lexc ascii_cmp (list_ascii_of_string s) (list_ascii_of_string t).
Proof. induction s as [|a s IH]; intros [|b t]; try reflexivity. cbn. rewrite IH. unfold Ascii.compare, ascii_cmp. destruct (N.compare _ _); reflexivity. Qed.
Lemma ascii_cmp_eq : forall a b, ascii_cmp a b = Datatypes.Eq <-> a = b.
Proof.
  intros a b. unfold ascii_cmp. rewrite N.compare_eq_iff. split; [|intros ->; reflexivity].
  intros H. rewrite <- (ascii_N_embedding a), <- (ascii_N_embedding b), H. reflexivity.
Qed.
Lemma list_ascii_inj : forall s t, list_ascii_of_string s = list_ascii_of_string t -> s = t.
Proof. intros s t H. rewrite <- (string_of_list_ascii_of_string s), <- (string_of_list_ascii_of_string t), H. reflexivity. Qed.
Lemma string_compare_eq : forall s t, String.compare s t = Datatypes.Eq <-> s = t.
Proof.
  intros s t. rewrite string_compare_lexc, lexc_eq by apply ascii_cmp_eq. split; [apply list_ascii_inj|intros ->; reflexivity].
Qed.
Lemma string_compare_lt : forall s t, String.compare s t = Datatypes.Lt <-> string_before s t.
Proof. intros s t. rewrite string_compare_lexc. apply lexc_lt; [apply ascii_cmp_eq|]. intros a b. apply N.compare_lt_iff. Qed.
Lemma good_string : good String.compare.
Proof.
  pose proof (good_lexc _ _ (good_pull _ _ N_of_ascii _ good_N)) as H. fold ascii_cmp in H.
  assert (E : good (fun s t => lexc ascii_cmp (list_ascii_of_string s) (list_ascii_of_string t))) by (apply (good_pull _ _ list_ascii_of_string); exact H).
  destruct E as (A & B & C). repeat split; intros; rewrite ?string_compare_lexc in *; [apply A|eapply B; eassumption|apply C; assumption].
Qed.

(** ** Keys *)
Definition dec (a b : key) (c : comparison) : Prop :=
  match c with
  | Datatypes.Eq => key_eq a b = true
  | _ => key_eq a b = false /\ forall o, key_cmp o a b = Some (of_comparison o c)
  end.
Definition decT (l l' : list key) (c : comparison) : Prop :=
  key_eq (KTuple l) (KTuple l') = (match c with Datatypes.Eq => true | _ => false end) /\ forall o, key_cmp o (KTuple l) (KTuple l') = Some (of_comparison o c).
Lemma decT_dec : forall l l' c, decT l l' c -> dec (KTuple l) (KTuple l') c.
Proof. intros l l' [] [H1 H2]; cbn [dec]; auto. Qed.
Lemma key_eq_cons : forall x y l l', key_eq (KTuple (x :: l)) (KTuple (y :: l')) = key_eq x y && key_eq (KTuple l) (KTuple l').
Proof. reflexivity. Qed.
Lemma key_cmp_cons : forall o x y l l', key_cmp o (KTuple (x :: l)) (KTuple (y :: l')) = if key_eq x y then key_cmp o (KTuple l) (KTuple l') else key_cmp o x y.
Proof. reflexivity. Qed.
Lemma decT_cons : forall x y l l' c d, dec x y c -> decT l l' d -> decT (x :: l) (y :: l') (thenc c d).
Proof.
  intros x y l l' c d H [H1 H2]. unfold decT. rewrite key_eq_cons. destruct c; cbn [dec thenc] in *.
  - rewrite H, H1. split; [reflexivity|]. intros o. rewrite key_cmp_cons, H. apply H2.
  - destruct H as [H H']. rewrite H. split; [reflexivity|]. intros o. rewrite key_cmp_cons, H. apply H'.
  - destruct H as [H H']. rewrite H. split; [reflexivity|]. intros o. rewrite key_cmp_cons, H. apply H'.
Qed.
Lemma decT_nil : decT [] [] Datatypes.Eq. Proof. split; reflexivity. Qed.
Lemma decT_map : forall A (k : A -> key) (f : A -> A -> comparison), (forall x y, dec (k x) (k y) (f x y)) -> forall l l', decT (map k l) (map k l') (lexc f l l').
Proof. intros A k f H. induction l as [|x l IH]; intros [|y l']; cbn [map lexc]; [apply decT_nil|split; reflexivity|split; reflexivity|apply decT_cons; [apply H|apply IH]]. Qed.

Lemma dec_int : forall m n, dec (KInt m) (KInt n) (N.compare m n).
Proof.
  intros m n. unfold dec. cbn [key_eq key_cmp]. destruct (N.compare m n) eqn:E.
  - apply N.eqb_eq. apply N.compare_eq_iff. exact E.
  - split; [apply N.eqb_neq; intros ->; rewrite N.compare_refl in E; discriminate|reflexivity].
  - split; [apply N.eqb_neq; intros ->; rewrite N.compare_refl in E; discriminate|reflexivity].
Qed.
Lemma dec_str : forall s t, dec (KStr s) (KStr t) (String.compare s t).
Proof.
  intros s t. unfold dec. cbn [key_eq key_cmp]. pose proof (string_compare_eq s t) as HE. destruct (String.compare s t) eqn:E.
  - apply String.eqb_eq. apply HE. reflexivity.
  - split; [apply String.eqb_neq; intros H; apply HE in H; discriminate|reflexivity].
  - split; [apply String.eqb_neq; intros H; apply HE in H; discriminate|reflexivity].
Qed.
Lemma dec_tag : forall t u, dec (tag_key t) (tag_key u) (thenc (String.compare (fst t) (fst u)) (N.compare (snd t) (snd u))).
Proof.
  intros t u. apply decT_dec. replace (thenc (String.compare (fst t) (fst u)) (N.compare (snd t) (snd u))) with (thenc (String.compare (fst t) (fst u)) (thenc (N.compare (snd t) (snd u)) Datatypes.Eq))
    by (destruct (N.compare (snd t) (snd u)); reflexivity).
  apply decT_cons; [apply dec_str|]. apply decT_cons; [apply dec_int|apply decT_nil].
Qed.

(** ** Components *)
Definition ocmp_first (a b : option N) : comparison :=
  match a, b with None, None => Datatypes.Eq | None, Some _ => Datatypes.Lt | Some _, None => Datatypes.Gt | Some m, Some n => N.compare m n end.
Definition ocmp_last (a b : option N) : comparison :=
  match a, b with None, None => Datatypes.Eq | None, Some _ => Datatypes.Gt | Some _, None => Datatypes.Lt | Some m, Some n => N.compare m n end.
Definition segc (a b : N + string) : comparison :=
  match a, b with
  | inl m, inl n => N.compare m n
  | inr s, inr t => String.compare s t
  | inr _, inl _ => Datatypes.Lt
  | inl _, inr _ => Datatypes.Gt
  end.
Definition localc (a b : option (list (N + string))) : comparison :=
  match a, b with None, None => Datatypes.Eq | None, Some _ => Datatypes.Lt | Some _, None => Datatypes.Gt | Some l, Some l' => lexc segc l l' end.
Definition vcompare (v w : version) : comparison :=
  thenc (N.compare (v_epoch v) (v_epoch w))
  (thenc (lexc N.compare (strip_zeros (v_release v)) (strip_zeros (v_release w)))
  (thenc (thenc (N.compare (phase v) (phase w)) (ocmp_first (number (v_pre v)) (number (v_pre w))))
  (thenc (ocmp_first (number (v_post v)) (number (v_post w)))
  (thenc (ocmp_last (number (v_dev v)) (number (v_dev w)))
         (localc (v_local v) (v_local w)))))).

Lemma dec_seg : forall a b, dec (local_key a) (local_key b) (segc a b).
Proof.
  intros [m|s] [n|t]; apply decT_dec; cbn [segc].
  - replace (N.compare m n) with (thenc (N.compare m n) (thenc Datatypes.Eq Datatypes.Eq)) by (destruct (N.compare m n); reflexivity).
    apply decT_cons; [apply dec_int|]. apply decT_cons; [reflexivity|apply decT_nil].
  - split; [reflexivity|intros []; reflexivity].
  - split; [reflexivity|intros []; reflexivity].
  - replace (String.compare s t) with (thenc Datatypes.Eq (thenc (String.compare s t) Datatypes.Eq)) by (destruct (String.compare s t); reflexivity).
    apply decT_cons; [reflexivity|]. apply decT_cons; [apply dec_str|apply decT_nil].
Qed.
Definition local_of (v : version) : key := match v_local v with None => KNegInf | Some l => KTuple (map local_key l) end.
Lemma dec_local : forall v w, dec (local_of v) (local_of w) (localc (v_local v) (v_local w)).
Proof.
  intros v w. unfold local_of. destruct (v_local v) as [l|], (v_local w) as [l'|]; cbn [localc].
  - apply decT_dec. apply decT_map. apply dec_seg.
  - split; [reflexivity|intros []; reflexivity].
  - split; [reflexivity|intros []; reflexivity].
  - reflexivity.
Qed.
Definition post_of (v : version) : key := match v_post v with None => KNegInf | Some t => tag_key t end.
Definition dev_of (v : version) : key := match v_dev v with None => KInf | Some t => tag_key t end.
Definition pre_of (v : version) : key := match v_pre v, v_post v, v_dev v with None, None, Some _ => KNegInf | None, _, _ => KInf | Some t, _, _ => tag_key t end.
Lemma cmpkey_eq : forall v, cmpkey v = KTuple [KInt (v_epoch v); KTuple (map KInt (strip_zeros (v_release v))); pre_of v; post_of v; dev_of v; local_of v].
Proof. reflexivity. Qed.

Lemma dec_post : forall v w, normalised v -> normalised w -> dec (post_of v) (post_of w) (ocmp_first (number (v_post v)) (number (v_post w))).
Proof.
  intros v w (_ & H1 & _) (_ & H2 & _). unfold post_of. destruct (v_post v) as [[l n]|], (v_post w) as [[l' n']|]; cbn [number option_map snd ocmp_first].
  - rewrite (H1 l n eq_refl), (H2 l' n' eq_refl). exact (dec_tag ("post"%string, n) ("post"%string, n')).
  - split; [reflexivity|intros []; reflexivity].
  - split; [reflexivity|intros []; reflexivity].
  - reflexivity.
Qed.
Lemma dec_dev : forall v w, normalised v -> normalised w -> dec (dev_of v) (dev_of w) (ocmp_last (number (v_dev v)) (number (v_dev w))).
Proof.
  intros v w (_ & _ & H1) (_ & _ & H2). unfold dev_of. destruct (v_dev v) as [[l n]|], (v_dev w) as [[l' n']|]; cbn [number option_map snd ocmp_last].
  - rewrite (H1 l n eq_refl), (H2 l' n' eq_refl). exact (dec_tag ("dev"%string, n) ("dev"%string, n')).
  - split; [reflexivity|intros []; reflexivity].
  - split; [reflexivity|intros []; reflexivity].
  - reflexivity.
Qed.
Lemma dec_pre : forall v w, normalised v -> normalised w ->
  dec (pre_of v) (pre_of w) (thenc (N.compare (phase v) (phase w)) (ocmp_first (number (v_pre v)) (number (v_pre w)))).
Proof.
  intros v w (H1 & _ & _) (H2 & _ & _). unfold pre_of, phase. destruct (v_pre v) as [[l n]|], (v_pre w) as [[l' n']|]; cbn [number option_map snd ocmp_first].
  - replace (N.compare (letter_rank l) (letter_rank l')) with (String.compare l l'); [exact (dec_tag (l, n) (l', n'))|].
    destruct (H1 l n eq_refl) as [-> | [-> | ->]], (H2 l' n' eq_refl) as [-> | [-> | ->]]; reflexivity.
  - destruct (H1 l n eq_refl) as [-> | [-> | ->]], (v_post w), (v_dev w); (split; [reflexivity|intros []; reflexivity]).
  - destruct (H2 l' n' eq_refl) as [-> | [-> | ->]], (v_post v), (v_dev v); (split; [reflexivity|intros []; reflexivity]).
  - destruct (v_post v), (v_dev v), (v_post w), (v_dev w); try reflexivity; (split; [reflexivity|intros []; reflexivity]).
Qed.

Theorem cmp_spec : forall v w, normalised v -> normalised w ->
  version_eq v w = (match vcompare v w with Datatypes.Eq => true | _ => false end) /\ forall o, version_cmp o v w = Some (of_comparison o (vcompare v w)).
Proof.
  intros v w Hv Hw. unfold version_eq, version_cmp. rewrite !cmpkey_eq.
  match goal with |- key_eq (KTuple ?a) (KTuple ?b) = _ /\ _ => change (decT a b (vcompare v w)) end.
  unfold vcompare. replace (localc (v_local v) (v_local w)) with (thenc (localc (v_local v) (v_local w)) Datatypes.Eq) by (destruct (localc _ _); reflexivity).
  repeat apply decT_cons; [apply dec_int|apply decT_dec; apply decT_map; apply dec_int|apply dec_pre; assumption|apply dec_post; assumption|apply dec_dev; assumption|apply dec_local|apply decT_nil].
Qed.

(** ** Releases *)
Lemma nth_snoc_zero : forall (l : list N) i, nth i (l ++ [0]) 0 = nth i l 0.
Proof.
  intros l i. destruct (Nat.lt_ge_cases i (length l)) as [H|H]; [apply app_nth1; exact H|]. rewrite app_nth2 by exact H. rewrite (nth_overflow l) by exact H.
  destruct (i - length l)%nat as [|[|k]]; reflexivity.
Qed.
Lemma strip_snoc : forall l x, strip_zeros (l ++ [x]) = if N.eqb x 0 then strip_zeros l else (l ++ [x])%list.
Proof. intros l x. unfold strip_zeros. rewrite rev_app_distr. cbn. destruct (N.eqb x 0); [reflexivity|]. cbn. rewrite rev_involutive. reflexivity. Qed.
Lemma nth_strip : forall l i, nth i (strip_zeros l) 0 = nth i l 0.
Proof.
  induction l as [|x l IH] using rev_ind; intros i; [reflexivity|]. rewrite strip_snoc. destruct (N.eqb_spec x 0) as [->|_]; [|reflexivity]. rewrite nth_snoc_zero. apply IH.
Qed.
Definition stripped (l : list N) : Prop := l = [] \/ last l 0 <> 0.
Lemma strip_stripped : forall l, stripped (strip_zeros l).
Proof.
  induction l as [|x l IH] using rev_ind; [left; reflexivity|]. rewrite strip_snoc. destruct (N.eqb_spec x 0) as [->|n]; [exact IH|]. right. rewrite last_last. exact n.
Qed.
Lemma stripped_tail : forall x l, stripped (x :: l) -> stripped l.
Proof. intros x [|y l] [H|H]; [left; reflexivity|left; reflexivity|discriminate|right; exact H]. Qed.
Lemma first_nonzero : forall l, l <> [] -> stripped l -> release_before [] l.
Proof.
  induction l as [|x l IH]; intros Hne Hs; [contradiction|]. destruct (N.eq_dec x 0) as [->|n].
  - destruct l as [|y l]; [destruct Hs as [H|H]; [discriminate|cbn in H; contradiction]|]. destruct IH as (i & H1 & H2); [discriminate|eapply stripped_tail; exact Hs|].
    exists (S i). split; [|cbn [nth] in *; destruct i; exact H2]. intros [|j] Hj; [reflexivity|]. specialize (H1 j ltac:(lia)). cbn [nth] in *. destruct j; exact H1.
  - exists 0%nat. split; [intros j Hj; lia|]. cbn. lia.
Qed.
Lemma lexc_before : forall l l', stripped l' -> lexc N.compare l l' = Datatypes.Lt -> release_before l l'.
Proof.
  induction l as [|x l IH]; intros [|y l'] Hs H; try discriminate.
  - apply first_nonzero; [discriminate|exact Hs].
  - cbn in H. destruct (N.compare x y) eqn:E; try discriminate.
    + apply N.compare_eq_iff in E. subst y. destruct (IH l' (stripped_tail _ _ Hs) H) as (i & H1 & H2). exists (S i). split; [|exact H2]. intros [|j] Hj; [reflexivity|]. apply H1. lia.
    + apply N.compare_lt_iff in E. exists 0%nat. split; [intros j Hj; lia|exact E].
Qed.
Lemma before_not_same : forall r r', release_before r r' -> ~ same_release r r'.
Proof. intros r r' (i & _ & H) HS. specialize (HS i). lia. Qed.
Lemma before_asym : forall r r', release_before r r' -> ~ release_before r' r.
Proof.
  intros r r' (i & H1 & H2) (j & H3 & H4). destruct (Nat.lt_trichotomy i j) as [H|[H|H]]; [specialize (H3 i H); lia|subst; lia|specialize (H1 j H); lia].
Qed.
Lemma before_strip : forall r r', release_before (strip_zeros r) (strip_zeros r') <-> release_before r r'.
Proof. intros r r'. unfold release_before. split; intros (i & H1 & H2); exists i; split; intros; rewrite ?nth_strip in *; auto; specialize (H1 j H); rewrite ?nth_strip in H1; exact H1. Qed.
Definition relc (r r' : list N) : comparison := lexc N.compare (strip_zeros r) (strip_zeros r').
Lemma relc_imp : forall r r', match relc r r' with Datatypes.Eq => same_release r r' | Datatypes.Lt => release_before r r' | Datatypes.Gt => release_before r' r end.
Proof.
  intros r r'. unfold relc. destruct (lexc _ _ _) eqn:E.
  - apply lexc_eq in E; [|apply N.compare_eq_iff]. intros i. rewrite <- (nth_strip r), <- (nth_strip r'), E. reflexivity.
  - apply before_strip. apply lexc_before; [apply strip_stripped|exact E].
  - apply before_strip. apply lexc_before; [apply strip_stripped|]. destruct (good_lexc _ _ good_N) as (A & _). rewrite A, E. reflexivity.
Qed.
Lemma relc_eq : forall r r', relc r r' = Datatypes.Eq <-> same_release r r'.
Proof.
  intros r r'. pose proof (relc_imp r r') as H. destruct (relc r r'); split; intros X; try discriminate; auto.
  - exfalso. exact (before_not_same _ _ H X).
  - exfalso. apply (before_not_same _ _ H). intros i. symmetry. apply X.
Qed.
Lemma relc_lt : forall r r', relc r r' = Datatypes.Lt <-> release_before r r'.
Proof.
  intros r r'. pose proof (relc_imp r r') as H. destruct (relc r r'); split; intros X; try discriminate; auto.
  - exfalso. exact (before_not_same _ _ X H).
  - exfalso. exact (before_asym _ _ H X).
Qed.

Lemma ocmp_first_eq : forall a b, ocmp_first a b = Datatypes.Eq <-> a = b.
Proof. intros [m|] [n|]; cbn; split; intros H; try discriminate; try reflexivity; [apply N.compare_eq_iff in H; congruence|injection H as ->; apply N.compare_refl]. Qed.
Lemma ocmp_last_eq : forall a b, ocmp_last a b = Datatypes.Eq <-> a = b.
Proof. intros [m|] [n|]; cbn; split; intros H; try discriminate; try reflexivity; [apply N.compare_eq_iff in H; congruence|injection H as ->; apply N.compare_refl]. Qed.
Lemma ocmp_first_lt : forall a b, ocmp_first a b = Datatypes.Lt <-> absent_first a b.
Proof. intros [m|] [n|]; cbn; split; intros H; try discriminate; try reflexivity; try contradiction; apply N.compare_lt_iff; exact H. Qed.
Lemma ocmp_last_lt : forall a b, ocmp_last a b = Datatypes.Lt <-> absent_last a b.
Proof. intros [m|] [n|]; cbn; split; intros H; try discriminate; try reflexivity; try contradiction; apply N.compare_lt_iff; exact H. Qed.
Lemma segc_eq : forall a b, segc a b = Datatypes.Eq <-> a = b.
Proof.
  intros [m|s] [n|t]; cbn; split; intros H; try discriminate.
  - apply N.compare_eq_iff in H. congruence.
  - injection H as ->. apply N.compare_refl.
  - apply string_compare_eq in H. congruence.
  - injection H as ->. apply string_compare_eq. reflexivity.
Qed.
Lemma segc_lt : forall a b, segc a b = Datatypes.Lt <-> segment_before a b.
Proof. intros [m|s] [n|t]; cbn; split; intros H; try discriminate; try reflexivity; try contradiction; try (apply N.compare_lt_iff; exact H); apply string_compare_lt; exact H. Qed.
Lemma localc_eq : forall a b, localc a b = Datatypes.Eq <-> a = b.
Proof. intros [l|] [l'|]; cbn; split; intros H; try discriminate; try reflexivity; [apply lexc_eq in H; [congruence|apply segc_eq]|injection H as ->; apply lexc_eq; [apply segc_eq|reflexivity]]. Qed.
Lemma localc_lt : forall a b, localc a b = Datatypes.Lt <-> local_before a b.
Proof. intros [l|] [l'|]; cbn; split; intros H; try discriminate; try reflexivity; try contradiction; (eapply lexc_lt; [apply segc_eq|apply segc_lt|exact H]). Qed.

Lemma thenc_lt : forall c d, thenc c d = Datatypes.Lt <-> c = Datatypes.Lt \/ (c = Datatypes.Eq /\ d = Datatypes.Lt).
Proof. intros [] d; cbn; split; intros H; try discriminate; auto; destruct H as [H|[H H']]; try discriminate; auto. Qed.
Lemma thenc_eq : forall c d, thenc c d = Datatypes.Eq <-> c = Datatypes.Eq /\ d = Datatypes.Eq.
Proof. intros [] d; cbn; split; intros H; try discriminate; try (destruct H as [H H']; try discriminate); auto. Qed.

Theorem vcompare_lt : forall v w, vcompare v w = Datatypes.Lt <-> version_before v w.
Proof.
  intros v w. unfold vcompare. rewrite !thenc_lt, !thenc_eq. fold (relc (v_release v) (v_release w)).
  rewrite relc_eq, relc_lt, N.compare_eq_iff, !N.compare_lt_iff, N.compare_eq_iff, !ocmp_first_eq, !ocmp_first_lt, ocmp_last_eq, ocmp_last_lt, localc_lt. split.
  - intros H. decompose [or and] H; [apply by_epoch|apply by_release|apply by_phase|apply by_pre|apply by_post|apply by_dev|apply by_local]; assumption.
  - intros []; tauto.
Qed.
Theorem vcompare_eq : forall v w, normalised v -> normalised w -> (vcompare v w = Datatypes.Eq <-> same_version v w).
Proof.
  intros v w (A1 & A2 & A3) (B1 & B2 & B3). unfold vcompare, same_version. rewrite !thenc_eq. fold (relc (v_release v) (v_release w)).
  rewrite relc_eq, !N.compare_eq_iff, !ocmp_first_eq, ocmp_last_eq, localc_eq. split.
  - intros (H1 & H2 & (H3 & H4) & H5 & H6 & H7). repeat split; auto.
    + unfold phase in H3. destruct (v_pre v) as [[l n]|], (v_pre w) as [[l' n']|]; try discriminate; [|reflexivity]. cbn in H4. injection H4 as ->.
      f_equal. f_equal. destruct (A1 l n' eq_refl) as [-> | [-> | ->]], (B1 l' n' eq_refl) as [-> | [-> | ->]]; try reflexivity; discriminate.
    + destruct (v_post v) as [[l n]|], (v_post w) as [[l' n']|]; try discriminate; [|reflexivity]. cbn in H5. injection H5 as ->. rewrite (A2 l n' eq_refl), (B2 l' n' eq_refl). reflexivity.
    + destruct (v_dev v) as [[l n]|], (v_dev w) as [[l' n']|]; try discriminate; [|reflexivity]. cbn in H6. injection H6 as ->. rewrite (A3 l n' eq_refl), (B3 l' n' eq_refl). reflexivity.
  - intros (H1 & H2 & H3 & H4 & H5 & H6). unfold phase. rewrite H3, H4, H5. auto 10.
Qed.

Lemma good_ocmp_first : good ocmp_first.
Proof.
  destruct good_N as (A & B & C). split; [|split].
  - intros [x|] [y|]; cbn; auto.
  - intros [x|] [y|] [z|] c; cbn; intros; try congruence. eapply B; eassumption.
  - intros [x|] [y|] [z|]; cbn; intros; try congruence. apply C; assumption.
Qed.
Lemma good_ocmp_last : good ocmp_last.
Proof.
  destruct good_N as (A & B & C). split; [|split].
  - intros [x|] [y|]; cbn; auto.
  - intros [x|] [y|] [z|] c; cbn; intros; try congruence. eapply B; eassumption.
  - intros [x|] [y|] [z|]; cbn; intros; try congruence. apply C; assumption.
Qed.
Lemma good_segc : good segc.
Proof.
  destruct good_N as (A & B & C). destruct good_string as (A' & B' & C'). split; [|split].
  - intros [x|x] [y|y]; cbn; auto.
  - intros [x|x] [y|y] [z|z] c; cbn; intros; try congruence; [eapply B; eassumption|eapply B'; eassumption].
  - intros [x|x] [y|y] [z|z]; cbn; intros; try congruence; [apply C; assumption|apply C'; assumption].
Qed.
Lemma good_localc : good localc.
Proof.
  destruct (good_lexc _ _ good_segc) as (A & B & C). split; [|split].
  - intros [x|] [y|]; cbn; auto.
  - intros [x|] [y|] [z|] c; cbn; intros; try congruence. eapply B; eassumption.
  - intros [x|] [y|] [z|]; cbn; intros; try congruence. apply C; assumption.
Qed.
Theorem good_vcompare : good vcompare.
Proof.
  unfold vcompare. repeat apply (good_thenc version).
  - apply (good_pull _ _ v_epoch). apply good_N.
  - apply (good_pull _ _ (fun v => strip_zeros (v_release v)) _ (good_lexc _ _ good_N)).
  - apply (good_pull _ _ phase _ good_N).
  - apply (good_pull _ _ (fun v => number (v_pre v)) _ good_ocmp_first).
  - apply (good_pull _ _ (fun v => number (v_post v)) _ good_ocmp_first).
  - apply (good_pull _ _ (fun v => number (v_dev v)) _ good_ocmp_last).
  - apply (good_pull _ _ v_local _ good_localc).
Qed.

(** ** The property *)
Theorem version_comparisons : forall v w, normalised v -> normalised w ->
  (version_cmp Lt v w = Some true <-> version_before v w) /\ (version_cmp Gt v w = Some true <-> version_before w v) /\
  (version_cmp Le v w = Some true <-> version_before v w \/ same_version v w) /\ (version_cmp Ge v w = Some true <-> version_before w v \/ same_version v w) /\
  (version_eq v w = true <-> same_version v w) /\ (version_ne v w = true <-> ~ same_version v w) /\ forall o, version_cmp o v w <> None.
Proof.
  intros v w Hv Hw. destruct (cmp_spec v w Hv Hw) as [HE HC]. unfold version_ne. rewrite HE, !HC. rewrite <- (vcompare_lt v w), <- (vcompare_lt w v), <- (vcompare_eq v w Hv Hw).
  destruct good_vcompare as (A & _). rewrite (A v w).
  destruct (vcompare v w); cbn [of_comparison CompOpp negb]; (split; [|split; [|split; [|split; [|split; [|split]]]]]); try (intros o; rewrite HC; discriminate); split; intros H; try discriminate; try reflexivity; auto; try congruence;
    try (destruct H; discriminate).
Qed.
Theorem version_order : forall u v w, normalised u -> normalised v -> normalised w ->
  (version_before u v -> version_before v w -> version_before u w) /\
  (same_version u v -> (version_before u w <-> version_before v w) /\ (version_before w u <-> version_before w v)) /\
  (version_before u v -> ~ version_before v u /\ ~ same_version u v) /\
  (version_before u v \/ same_version u v \/ version_before v u).
Proof.
  intros u v w Hu Hv Hw. pose proof good_vcompare as G. pose proof (good_right _ _ G) as GR. destruct G as (A & B & C).
  rewrite <- !vcompare_lt, <- !vcompare_eq by assumption. split; [|split; [|split]].
  - apply B.
  - intros E. rewrite (C _ _ w E), (GR _ _ w E). tauto.
  - intros H. rewrite (A u v), H. cbn. split; discriminate.
  - rewrite (A u v). destruct (vcompare u v); auto.
Qed.
