(** Facts about the vocabulary of [Lib]. *)
From Verif Require Import Lib.

Lemma mem_In : forall x l, mem x l = true <-> In x l.
Proof.
  intros x l. unfold mem. rewrite existsb_exists. split.
  - intros [y [Hy He]]. apply String.eqb_eq in He. subst. exact Hy.
  - intros H. exists x. split; [exact H | apply String.eqb_refl].
Qed.

Lemma mem_false : forall x l, mem x l = false <-> ~ In x l.
Proof.
  intros x l. rewrite <- mem_In. destruct (mem x l); split; intros H; try reflexivity; try discriminate.
  exfalso. apply H. reflexivity.
Qed.

Lemma mem_spec : forall x l, reflect (In x l) (mem x l).
Proof.
  intros x l. destruct (mem x l) eqn:E; constructor; [apply mem_In | apply mem_false]; exact E.
Qed.

Lemma mem_perm : forall x l l', (forall y, In y l <-> In y l') -> mem x l = mem x l'.
Proof.
  intros x l l' H. destruct (mem_spec x l), (mem_spec x l'); try reflexivity; exfalso; firstorder.
Qed.

Lemma assoc_In : forall B k (v : B) l, assoc k l = Some v -> In (k, v) l.
Proof.
  intros B k v l; induction l as [|[k' v'] l IH]; simpl; [discriminate|].
  destruct (String.eqb_spec k k'); intros H; [inversion H; subst; left; reflexivity | right; auto].
Qed.

Lemma assoc_None : forall B k (l : list (string * B)), assoc k l = None <-> ~ In k (map fst l).
Proof.
  intros B k l; induction l as [|[k' v'] l IH]; simpl; [tauto|].
  destruct (String.eqb_spec k k') as [->|Hn]; split.
  - discriminate.
  - intros H; exfalso; apply H; left; reflexivity.
  - intros H [->|Hi]; [congruence | apply IH in H; contradiction].
  - intros H. apply IH. intros Hi. apply H; right; exact Hi.
Qed.

Lemma assoc_Some_key : forall B k (l : list (string * B)), In k (map fst l) -> exists v, assoc k l = Some v.
Proof.
  intros B k l H. destruct (assoc k l) as [v|] eqn:E; [exists v; reflexivity|].
  apply assoc_None in E. contradiction.
Qed.

Lemma In_assoc : forall B k (v : B) l, NoDup (map fst l) -> In (k, v) l -> assoc k l = Some v.
Proof.
  intros B k v l; induction l as [|[k' v'] l IH]; simpl; [intros _ []|].
  intros Hnd [He|Hi]; inversion Hnd as [|? ? Hk Hnd']; subst.
  - inversion He; subst. rewrite String.eqb_refl. reflexivity.
  - destruct (String.eqb_spec k k') as [->|Hn]; [|apply IH; assumption].
    exfalso. apply Hk. apply in_map_iff. exists (k', v). split; [reflexivity|exact Hi].
Qed.

Lemma assoc_perm : forall B (l l' : list (string * B)) k,
  NoDup (map fst l) -> Permutation l l' -> assoc k l = assoc k l'.
Proof.
  intros B l l' k Hnd Hp.
  assert (Hnd' : NoDup (map fst l')) by (apply (Permutation_NoDup (Permutation_map fst Hp)); exact Hnd).
  destruct (assoc k l) as [v|] eqn:E.
  - symmetry. apply In_assoc; [exact Hnd'|]. apply (Permutation_in _ Hp). apply assoc_In. exact E.
  - symmetry. apply assoc_None. apply assoc_None in E. intros H. apply E.
    apply (Permutation_in _ (Permutation_sym (Permutation_map fst Hp))). exact H.
Qed.

(** *** Order on strings *)

Lemma ascii_compare_N : forall a b, Ascii.compare a b = N.compare (N_of_ascii a) (N_of_ascii b).
Proof. reflexivity. Qed.

Lemma ascii_compare_Eq : forall a b, Ascii.compare a b = Eq -> a = b.
Proof.
  intros a b H. rewrite ascii_compare_N in H. apply N.compare_eq in H.
  rewrite <- (ascii_N_embedding a), <- (ascii_N_embedding b), H. reflexivity.
Qed.

Lemma compare_refl : forall s, String.compare s s = Eq.
Proof.
  induction s as [|a s IH]; simpl; [reflexivity|].
  rewrite ascii_compare_N, N.compare_refl. exact IH.
Qed.

Lemma string_lt_trans : forall a b c, String.compare a b = Lt -> String.compare b c = Lt -> String.compare a c = Lt.
Proof.
  induction a as [|x a IH]; intros b c; destruct b as [|y b], c as [|z c]; simpl; try discriminate; auto.
  destruct (Ascii.compare x y) eqn:E1, (Ascii.compare y z) eqn:E2; try discriminate; intros H1 H2.
  - apply ascii_compare_Eq in E1, E2. subst. rewrite ascii_compare_N, N.compare_refl. eapply IH; eassumption.
  - apply ascii_compare_Eq in E1. subst. rewrite E2. reflexivity.
  - apply ascii_compare_Eq in E2. subst. rewrite E1. reflexivity.
  - rewrite ascii_compare_N in *. 
    assert (N.compare (N_of_ascii x) (N_of_ascii z) = Lt) as ->; [|reflexivity].
    apply N.compare_lt_iff in E1. apply N.compare_lt_iff in E2. apply N.compare_lt_iff. eapply N.lt_trans; eassumption.
Qed.

Lemma leb_trans : forall a b c, String.leb a b = true -> String.leb b c = true -> String.leb a c = true.
Proof.
  unfold String.leb. intros a b c.
  destruct (String.compare a b) eqn:E1; destruct (String.compare b c) eqn:E2; try discriminate; intros _ _.
  - apply String.compare_eq_iff in E1, E2; subst. rewrite compare_refl. reflexivity.
  - apply String.compare_eq_iff in E1; subst. rewrite E2. reflexivity.
  - apply String.compare_eq_iff in E2; subst. rewrite E1. reflexivity.
  - rewrite (string_lt_trans _ _ _ E1 E2). reflexivity.
Qed.

Inductive sorted : list string -> Prop :=
| sorted_nil : sorted []
| sorted_cons x l : (forall y, In y l -> String.leb x y = true) -> sorted l -> sorted (x :: l).

Lemma insert_perm : forall x l, Permutation (insert x l) (x :: l).
Proof.
  intros x l; induction l as [|y l IH]; simpl; [reflexivity|].
  destruct (String.leb x y); [reflexivity|].
  rewrite IH. apply perm_swap.
Qed.

Lemma sort_perm : forall l, Permutation (sort l) l.
Proof.
  induction l as [|x l IH]; simpl; [reflexivity|].
  rewrite insert_perm. constructor. exact IH.
Qed.

Lemma insert_sorted : forall x l, sorted l -> sorted (insert x l).
Proof.
  intros x l H; induction H as [|y l Hy Hs IH]; simpl.
  - constructor; [intros y []|constructor].
  - destruct (String.leb x y) eqn:E.
    + constructor; [|constructor; assumption].
      intros z [<-|Hz]; [exact E|]. apply (leb_trans _ y); [exact E|apply Hy; exact Hz].
    + constructor; [|exact IH].
      intros z Hz. apply (Permutation_in _ (insert_perm x l)) in Hz. destruct Hz as [<-|Hz].
      * destruct (String.leb_total x y) as [C|C]; [congruence|exact C].
      * apply Hy; exact Hz.
Qed.

Lemma sort_sorted : forall l, sorted (sort l).
Proof. induction l as [|x l IH]; simpl; [constructor|apply insert_sorted; exact IH]. Qed.

Lemma sorted_perm_eq : forall l l', sorted l -> sorted l' -> Permutation l l' -> l = l'.
Proof.
  intros l l' H. revert l'. induction H as [|x l Hx Hs IH]; intros l' H' Hp.
  - apply Permutation_nil in Hp. congruence.
  - destruct H' as [|y l' Hy Hs'].
    + symmetry in Hp. apply Permutation_nil in Hp. discriminate.
    + assert (x = y) as ->.
      { assert (Hyl : In y (x :: l)) by (apply (Permutation_in _ (Permutation_sym Hp)); left; reflexivity).
        assert (Hxl : In x (y :: l')) by (apply (Permutation_in _ Hp); left; reflexivity).
        destruct Hyl as [E|Hyl]; [exact E|]. destruct Hxl as [E|Hxl]; [symmetry; exact E|].
        apply String.leb_antisym; [apply Hx; exact Hyl | apply Hy; exact Hxl]. }
      f_equal. apply IH; [exact Hs'|]. apply Permutation_cons_inv in Hp. exact Hp.
Qed.

Lemma sort_perm_eq : forall l l', Permutation l l' -> sort l = sort l'.
Proof.
  intros l l' H. apply sorted_perm_eq; try apply sort_sorted.
  rewrite !sort_perm. exact H.
Qed.

Lemma sort_In : forall x l, In x (sort l) <-> In x l.
Proof.
  intros x l; split; apply Permutation_in; [|symmetry]; apply sort_perm.
Qed.

Lemma sort_length : forall l, length (sort l) = length l.
Proof. intros l. apply Permutation_length. apply sort_perm. Qed.

Lemma sort_NoDup : forall l, NoDup l -> NoDup (sort l).
Proof. intros l. apply Permutation_NoDup. symmetry. apply sort_perm. Qed.

(** *** [oset_add] *)

Lemma oset_add_In : forall x y l, In y (oset_add x l) <-> y = x \/ In y l.
Proof.
  intros x y l. unfold oset_add. destruct (mem_spec x l) as [H|H].
  - split; [tauto|]. intros [->|Hy]; assumption.
  - rewrite in_app_iff. simpl. firstorder congruence.
Qed.

Lemma NoDup_snoc : forall A (l : list A) x, NoDup l -> ~ In x l -> NoDup (l ++ [x]).
Proof.
  intros A l x Hnd Hx. apply (Permutation_NoDup (Permutation_cons_append l x)).
  constructor; assumption.
Qed.

Lemma oset_add_NoDup : forall x l, NoDup l -> NoDup (oset_add x l).
Proof.
  intros x l H. unfold oset_add. destruct (mem_spec x l) as [Hx|Hx]; [exact H|].
  apply NoDup_snoc; assumption.
Qed.

Lemma oset_add_prefix : forall x l, exists r, oset_add x l = l ++ r.
Proof.
  intros x l. unfold oset_add. destruct (mem x l); [exists []; rewrite app_nil_r; reflexivity | exists [x]; reflexivity].
Qed.

Lemma NoDup_app_inv : forall A (l r : list A), NoDup (l ++ r) -> NoDup l /\ NoDup r /\ (forall x, In x l -> ~ In x r).
Proof.
  intros A l r; induction l as [|a l IH]; simpl; intros H.
  - repeat split; [constructor|exact H|intros x []].
  - inversion H as [|? ? Ha Hnd]; subst. destruct (IH Hnd) as [H1 [H2 H3]].
    repeat split; [constructor; [intros C; apply Ha; apply in_or_app; left; exact C|exact H1]|exact H2|].
    intros x [<-|Hx]; [intros C; apply Ha; apply in_or_app; right; exact C|apply H3; exact Hx].
Qed.

Lemma NoDup_app_intro : forall A (l r : list A), NoDup l -> NoDup r -> (forall x, In x l -> ~ In x r) -> NoDup (l ++ r).
Proof.
  intros A l r Hl Hr Hd; induction Hl as [|a l Ha Hl IH]; simpl; [exact Hr|].
  constructor; [|apply IH; intros x Hx; apply Hd; right; exact Hx].
  intros C. apply in_app_or in C. destruct C as [C|C]; [contradiction|]. apply (Hd a); [left; reflexivity|exact C].
Qed.

(** *** [before] *)

Lemma before_app_l : forall A (x y : A) l r, before x y l -> before x y (l ++ r).
Proof.
  intros A x y l r [l1 [l2 [l3 E]]]. exists l1, l2, (l3 ++ r). subst l.
  rewrite <- app_assoc. simpl. rewrite <- app_assoc. reflexivity.
Qed.

Lemma before_snoc : forall A (x y : A) l, In x l -> before x y (l ++ [y]).
Proof.
  intros A x y l H. apply in_split in H. destruct H as [l1 [l2 E]]. subst.
  exists l1, l2, []. rewrite <- app_assoc. reflexivity.
Qed.

Lemma before_In : forall A (x y : A) l, before x y l -> In x l /\ In y l.
Proof.
  intros A x y l [l1 [l2 [l3 E]]]. subst l. split.
  - apply in_or_app. right. left. reflexivity.
  - apply in_or_app. right. right. apply in_or_app. right. left. reflexivity.
Qed.

Lemma before_cons : forall A (x y : A) z l, before x y l -> before x y (z :: l).
Proof. intros A x y z l [l1 [l2 [l3 E]]]. exists (z :: l1), l2, l3. subst; reflexivity. Qed.

Lemma before_head : forall A (x y : A) l, In y l -> before x y (x :: l).
Proof.
  intros A x y l H. apply in_split in H. destruct H as [l1 [l2 E]]. subst. exists [], l1, l2. reflexivity.
Qed.

Lemma before_app_r : forall A (x y : A) l r, before x y r -> before x y (l ++ r).
Proof. intros A x y l r H; induction l; simpl; [exact H|apply before_cons; assumption]. Qed.

Lemma before_irrefl : forall A (x : A) l, NoDup l -> ~ before x x l.
Proof.
  intros A x l Hnd [l1 [l2 [l3 E]]]. subst. apply NoDup_remove_2 in Hnd. apply Hnd.
  rewrite app_assoc. apply in_or_app. right. left. reflexivity.
Qed.

Lemma before_trans : forall A (x y z : A) l, NoDup l -> before x y l -> before y z l -> before x z l.
Proof.
  intros A x y z l Hnd H1 H2.
  destruct H1 as [a [b [c E1]]]. destruct H2 as [d [e [f E2]]].
  assert (Hnd' := Hnd). rewrite E2 in Hnd'. apply NoDup_app_inv in Hnd'. destruct Hnd' as [_ [_ Hdis]].
  assert (Hyd : ~ In y d) by (intros C; apply (Hdis y C); left; reflexivity).
  (* position of y is unique: l = (a ++ x :: b) ++ y :: c = d ++ y :: (e ++ z :: f) *)
  assert (E : (a ++ x :: b) ++ y :: c = d ++ y :: (e ++ z :: f)).
  { rewrite <- app_assoc. simpl. rewrite <- E1. exact E2. }
  assert (Hu : forall (p q p' q' : list A), p ++ y :: q = p' ++ y :: q' -> NoDup (p ++ y :: q) -> p = p' /\ q = q').
  { induction p as [|h p IH]; intros q p' q' Hpq Hn; destruct p' as [|h' p']; simpl in *.
    - inversion Hpq; split; reflexivity.
    - inversion Hpq; subst. exfalso. inversion Hn as [|? ? Hk _]; subst. apply Hk. apply in_or_app. right; left; reflexivity.
    - inversion Hpq; subst. exfalso. inversion Hn as [|? ? Hk _]; subst. apply Hk. apply in_or_app. right; left; reflexivity.
    - inversion Hpq; subst. inversion Hn; subst. destruct (IH q p' q' H1) as [-> ->]; [assumption|]. split; reflexivity. }
  apply Hu in E. 
  - destruct E as [Ed Ec]. exists a, (b ++ y :: e), f. rewrite E1. subst c.
    rewrite <- app_assoc. reflexivity.
  - rewrite E, <- E2. exact Hnd.
Qed.

(** *** [sublist] *)

Lemma sublist_refl : forall A (l : list A), sublist l l.
Proof. induction l; constructor; assumption. Qed.

Lemma sublist_nil : forall A (l : list A), sublist [] l.
Proof. induction l; constructor; assumption. Qed.

Lemma sublist_In : forall A (l l' : list A) x, sublist l l' -> In x l -> In x l'.
Proof. intros A l l' x H; induction H; simpl; intros Hx; [exact Hx|destruct Hx; [left|right]; auto|right; auto]. Qed.

Lemma sublist_filter : forall A f (l : list A), sublist (filter f l) l.
Proof. intros A f l; induction l; simpl; [constructor|]. destruct (f a); constructor; assumption. Qed.

Lemma sublist_trans : forall A (a b c : list A), sublist a b -> sublist b c -> sublist a c.
Proof.
  intros A a b c H1 H2. revert a H1. induction H2; intros a H1.
  - exact H1.
  - inversion H1; subst; constructor; auto.
  - constructor; auto.
Qed.

Lemma sublist_NoDup : forall A (l l' : list A), sublist l l' -> NoDup l' -> NoDup l.
Proof.
  intros A l l' H; induction H; intros Hnd; [constructor| |]; inversion Hnd; subst; auto.
  constructor; auto. intros C. eapply sublist_In in C; eauto.
Qed.

Lemma sublist_app : forall A (a b c d : list A), sublist a b -> sublist c d -> sublist (a ++ c) (b ++ d).
Proof. intros A a b c d H; induction H; simpl; intros; [assumption|constructor|constructor]; auto. Qed.

(** *** Pigeonhole facts used for fuel *)

Lemma NoDup_incl_len : forall (l l' : list string), NoDup l -> incl l l' -> length l <= length l'.
Proof. intros. apply NoDup_incl_length; assumption. Qed.

Lemma filter_length_le : forall A f (l : list A), length (filter f l) <= length l.
Proof. intros A f l; induction l; simpl; [lia|]. destruct (f a); simpl; lia. Qed.

(** number of elements of the universe [U] not in [V] *)
Definition missing (U V : list string) : nat := length (filter (fun x => negb (mem x V)) U).

Lemma missing_le : forall U V, missing U V <= length U.
Proof. intros. apply filter_length_le. Qed.

Lemma missing_mono : forall U V V', incl V V' -> missing U V' <= missing U V.
Proof.
  intros U V V' H. unfold missing. induction U as [|u U IH]; simpl; [lia|].
  destruct (mem_spec u V) as [Hu|Hu], (mem_spec u V') as [Hu'|Hu']; simpl; try lia.
  exfalso. apply Hu'. apply H. exact Hu.
Qed.

Lemma missing_add_lt : forall U V V' x, incl V V' -> In x U -> ~ In x V -> In x V' -> missing U V' < missing U V.
Proof.
  intros U V V' x H HU HV HV'. unfold missing. induction U as [|u U IH]; simpl; [destruct HU|].
  assert (Hm := missing_mono U V V' H). unfold missing in Hm.
  destruct HU as [->|HU].
  - destruct (mem_spec x V) as [Hu|Hu]; [contradiction|]. destruct (mem_spec x V') as [Hu'|Hu']; [|contradiction].
    simpl. lia.
  - specialize (IH HU).
    destruct (mem_spec u V) as [Hu|Hu], (mem_spec u V') as [Hu'|Hu']; simpl; try lia.
    exfalso. apply Hu'. apply H. exact Hu.
Qed.
