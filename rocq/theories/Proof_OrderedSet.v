(** The linked-list implementation refines the list specification. *)
From Verif Require Import Lib LibFacts Model_OrderedSet Spec_OrderedSet.

Fixpoint chained {T} (R : T -> T -> Prop) (l : list T) : Prop :=
  match l with
  | x :: ((y :: _) as l') => R x y /\ chained R l'
  | _ => True
  end.

Lemma chained_cons2 : forall T (R : T -> T -> Prop) x y l,
  chained R (x :: y :: l) <-> R x y /\ chained R (y :: l).
Proof. intros. reflexivity. Qed.

Lemma chained_split : forall T (R : T -> T -> Prop) l1 x l2,
  chained R (l1 ++ x :: l2) <-> chained R (l1 ++ [x]) /\ chained R (x :: l2).
Proof.
  intros T R l1 x l2. induction l1 as [|a l1 IH].
  - simpl. destruct l2; tauto.
  - destruct l1 as [|b l1]; cbn [app] in *.
    + rewrite !chained_cons2. simpl. tauto.
    + rewrite !chained_cons2, IH. tauto.
Qed.

Lemma chained_frame : forall T (R R' : T -> T -> Prop) l,
  (forall x y, In x (removelast l) -> In y (tl l) -> R x y -> R' x y) ->
  chained R l -> chained R' l.
Proof.
  intros T R R' l. induction l as [|x l IH]; [intros; exact I|]. destruct l as [|y l]; [intros; exact I|].
  intros H. rewrite !chained_cons2. intros [H1 H2]. split.
  - apply H; [left; reflexivity|left; reflexivity|exact H1].
  - apply IH; [|exact H2]. intros u v Hu Hv. apply H; [right; exact Hu|].
    right. simpl in Hv. exact Hv.
Qed.

Lemma removelast_snoc : forall T (l : list T) x, removelast (l ++ [x]) = l.
Proof. intros T l x. rewrite removelast_app by discriminate. simpl. apply app_nil_r. Qed.

Section Refinement.
  Variable A : Type.
  Variable eq_dec : forall x y : A, {x = y} + {x <> y}.
  Notation oset := (oset A).
  Notation cell := (cell A).

  Lemma next_set_prev : forall (h : nat -> cell) a v b, c_next (set_prev A h a v b) = c_next (h b).
  Proof. intros h a v b. unfold set_prev, write. destruct (Nat.eqb_spec b a) as [->|]; reflexivity. Qed.
  Lemma next_set_next : forall (h : nat -> cell) a v b, c_next (set_next A h a v b) = if Nat.eqb b a then v else c_next (h b).
  Proof. intros h a v b. unfold set_next, write. destruct (Nat.eqb_spec b a) as [->|]; reflexivity. Qed.
  Lemma prev_set_prev : forall (h : nat -> cell) a v b, c_prev (set_prev A h a v b) = if Nat.eqb b a then v else c_prev (h b).
  Proof. intros h a v b. unfold set_prev, write. destruct (Nat.eqb_spec b a) as [->|]; reflexivity. Qed.
  Lemma prev_set_next : forall (h : nat -> cell) a v b, c_prev (set_next A h a v b) = c_prev (h b).
  Proof. intros h a v b. unfold set_next, write. destruct (Nat.eqb_spec b a) as [->|]; reflexivity. Qed.
  Lemma key_set_prev : forall (h : nat -> cell) a v b, c_key (set_prev A h a v b) = c_key (h b).
  Proof. intros h a v b. unfold set_prev, write. destruct (Nat.eqb_spec b a) as [->|]; reflexivity. Qed.
  Lemma key_set_next : forall (h : nat -> cell) a v b, c_key (set_next A h a v b) = c_key (h b).
  Proof. intros h a v b. unfold set_next, write. destruct (Nat.eqb_spec b a) as [->|]; reflexivity. Qed.
  Lemma write_other : forall (h : nat -> cell) a c b, b <> a -> write A h a c b = h b.
  Proof. intros h a c b H. unfold write. destruct (Nat.eqb_spec b a); [contradiction|reflexivity]. Qed.
  Lemma write_same : forall (h : nat -> cell) a c, write A h a c a = c.
  Proof. intros h a c. unfold write. rewrite Nat.eqb_refl. reflexivity. Qed.
  Lemma eqb_ne : forall a b, a <> b -> Nat.eqb a b = false.
  Proof. intros a b H. apply Nat.eqb_neq. exact H. Qed.
  Hint Rewrite next_set_prev next_set_next prev_set_prev prev_set_next key_set_prev key_set_next : cells.

  Definition nexts (h : nat -> cell) := chained (fun x y => c_next (h x) = y).
  Definition prevs (h : nat -> cell) := chained (fun x y => c_prev (h y) = x).

  Record rep (s : oset) (l : list A) (addrs : list nat) : Prop := {
    r_nodup : NoDup l;
    r_addr : NoDup (0 :: addrs);
    r_fresh : Forall (fun a => a < o_fresh s) (0 :: addrs);
    r_next : nexts (o_heap s) (0 :: addrs ++ [0]);
    r_prev : prevs (o_heap s) (0 :: addrs ++ [0]);
    r_keys : map (fun a => c_key (o_heap s a)) addrs = map Some l;
    r_map : forall k a, lookup A eq_dec k (o_map s) = Some a <-> In (k, a) (combine l addrs);
    r_len : length (o_map s) = length l;
    r_mapnd : NoDup (map fst (o_map s))
  }.

  Lemma rep_length : forall s l addrs, rep s l addrs -> length addrs = length l.
  Proof. intros s l addrs H. apply r_keys in H. rewrite <- (map_length (fun a => c_key (o_heap s a))), H. apply map_length. Qed.

  Lemma lookup_In : forall k a m, lookup A eq_dec k m = Some a -> In (k, a) m.
  Proof.
    intros k a m; induction m as [|[k' a'] m IH]; simpl; [discriminate|].
    destruct (eq_dec k k') as [->|]; intros H; [left; congruence|right; apply IH; exact H].
  Qed.

  Lemma lookup_notin : forall k m, lookup A eq_dec k m = None <-> ~ In k (map fst m).
  Proof.
    intros k m; induction m as [|[k' a'] m IH]; simpl; [tauto|].
    destruct (eq_dec k k') as [->|Hn]; [split; [discriminate|intros H; exfalso; apply H; left; reflexivity]|].
    rewrite IH. split; [intros H [C|C]; [congruence|contradiction]|intros H C; apply H; right; exact C].
  Qed.

  Lemma combine_fst_In : forall (l : list A) (addrs : list nat) k, length addrs = length l -> In k l -> exists a, In (k, a) (combine l addrs).
  Proof.
    intros l; induction l as [|x l IH]; intros [|a addrs] k Hl Hk; simpl in *; try contradiction; try discriminate.
    destruct Hk as [->|Hk]; [exists a; left; reflexivity|]. destruct (IH addrs k) as [b Hb]; [lia|exact Hk|]. exists b. right. exact Hb.
  Qed.

  Lemma contains_spec : forall s l addrs k, rep s l addrs -> contains A eq_dec s k = s_has A eq_dec l k.
  Proof.
    intros s l addrs k H. unfold contains, s_has. destruct (in_dec eq_dec k l) as [Hi|Hi].
    - destruct (combine_fst_In l addrs k (rep_length _ _ _ H) Hi) as [a Ha]. apply (r_map _ _ _ H) in Ha. rewrite Ha. reflexivity.
    - destruct (lookup A eq_dec k (o_map s)) as [a|] eqn:E; [|reflexivity]. exfalso. apply (r_map _ _ _ H) in E.
      apply in_combine_l in E. contradiction.
  Qed.

  Lemma empty_rep : rep (empty A) [] [].
  Proof.
    constructor.
    - constructor.
    - constructor; [intros []|constructor].
    - repeat constructor.
    - repeat split.
    - repeat split.
    - reflexivity.
    - intros k a. split; [discriminate|intros []].
    - reflexivity.
    - constructor.
  Qed.

  Lemma combine_snoc : forall (l : list A) (addrs : list nat) k a, length addrs = length l ->
    combine (l ++ [k]) (addrs ++ [a]) = combine l addrs ++ [(k, a)].
  Proof.
    intros l; induction l as [|x l IH]; intros [|b addrs] k a H; simpl in *; try discriminate; [reflexivity|].
    f_equal. apply IH. lia.
  Qed.

  Lemma snoc_cases : forall T (l : list T), l = [] \/ exists p x, l = p ++ [x].
  Proof.
    intros T l. destruct l as [|a l] using rev_ind; [left; reflexivity|right; exists l, a; reflexivity].
  Qed.

  Lemma prev_end : forall h addrs, prevs h (0 :: addrs ++ [0]) -> exists p, 0 :: addrs = p ++ [c_prev (h 0)].
  Proof.
    intros h addrs H. destruct (snoc_cases _ (0 :: addrs)) as [C|[p [x E]]]; [discriminate|].
    exists p. rewrite E. change (0 :: addrs ++ [0]) with ((0 :: addrs) ++ [0]) in H. rewrite E in H.
    rewrite <- app_assoc in H. apply chained_split in H. destruct H as [_ [H _]]. cbn in H. rewrite H. reflexivity.
  Qed.

  Lemma NoDup_snoc_not : forall T (p : list T) x, NoDup (p ++ [x]) -> ~ In x p.
  Proof. intros T p x H C. apply NoDup_remove_2 in H. rewrite app_nil_r in H. contradiction. Qed.

  Lemma add_rep : forall s l addrs k, rep s l addrs -> exists addrs', rep (add A eq_dec s k) (s_add A eq_dec l k) addrs'.
  Proof.
    intros s l addrs k H. assert (Hc := contains_spec s l addrs k H). unfold contains in Hc. unfold add, s_add. rewrite <- Hc.
    destruct (lookup A eq_dec k (o_map s)) as [a|] eqn:El; [exists addrs; exact H|].
    set (new := o_fresh s). set (curr := c_prev (o_heap s sentinel)).
    destruct (prev_end _ _ (r_prev _ _ _ H)) as [p Ep]. unfold sentinel in curr. fold curr in Ep.
    set (h3 := set_prev A (set_next A (write A (o_heap s) new (mk_cell (Some k) curr sentinel)) curr new) sentinel new).
    assert (Hf := r_fresh _ _ _ H). rewrite Forall_forall in Hf.
    assert (Hcurr : In curr (0 :: addrs)) by (rewrite Ep; apply in_or_app; right; left; reflexivity).
    assert (Hcn : curr <> new) by (specialize (Hf curr Hcurr); unfold new; lia).
    assert (H0n : 0 <> new) by (specialize (Hf 0 (or_introl eq_refl)); unfold new; lia).
    assert (Hold : forall a, In a (0 :: addrs) -> a <> new) by (intros a Ha; specialize (Hf a Ha); unfold new; lia).
    assert (Hnd := r_addr _ _ _ H).
    assert (Hnp : ~ In curr p) by (rewrite Ep in Hnd; apply NoDup_snoc_not; exact Hnd).
    assert (Hnext : forall a, a <> curr -> a <> new -> c_next (h3 a) = c_next (o_heap s a)).
    { intros a H1 H2. unfold h3. autorewrite with cells. rewrite (eqb_ne _ _ H1), (write_other _ _ _ _ H2). reflexivity. }
    assert (Hprev : forall a, a <> 0 -> a <> new -> c_prev (h3 a) = c_prev (o_heap s a)).
    { intros a H1 H2. unfold h3. autorewrite with cells. unfold sentinel. rewrite (eqb_ne _ _ H1), (write_other _ _ _ _ H2). reflexivity. }
    assert (Hkey : forall a, a <> new -> c_key (h3 a) = c_key (o_heap s a)).
    { intros a H2. unfold h3. autorewrite with cells. rewrite (write_other _ _ _ _ H2). reflexivity. }
    assert (Hnewk : c_key (h3 new) = Some k /\ c_next (h3 new) = 0 /\ c_prev (h3 new) = curr).
    { unfold h3. autorewrite with cells. unfold sentinel. rewrite (eqb_ne new 0), (eqb_ne new curr), write_same by congruence.
      repeat split. }
    assert (Hcurrn : c_next (h3 curr) = new).
    { unfold h3. autorewrite with cells. rewrite Nat.eqb_refl. reflexivity. }
    assert (H0p : c_prev (h3 0) = new).
    { unfold h3. autorewrite with cells. unfold sentinel. rewrite Nat.eqb_refl. reflexivity. }
    exists (addrs ++ [new]). constructor; cbn [o_heap o_fresh o_map]; fold h3.
    - apply NoDup_snoc; [apply (r_nodup _ _ _ H)|]. unfold s_has in Hc. destruct (in_dec eq_dec k l); [discriminate|assumption].
    - change (0 :: addrs ++ [new]) with ((0 :: addrs) ++ [new]). apply NoDup_snoc; [exact Hnd|]. intros C. exact (Hold _ C eq_refl).
    - change (0 :: addrs ++ [new]) with ((0 :: addrs) ++ [new]). apply Forall_forall. intros a Ha. apply in_app_or in Ha.
      destruct Ha as [Ha|[<-|[]]]; [specialize (Hf a Ha); fold new in Hf; lia|lia].
    - change (0 :: (addrs ++ [new]) ++ [0]) with (((0 :: addrs) ++ [new]) ++ [0]). rewrite Ep, <- !app_assoc. cbn [app].
      apply chained_split. split; [|split; [exact Hcurrn|split; [apply Hnewk|exact I]]].
      assert (Hn := r_next _ _ _ H). change (0 :: addrs ++ [0]) with ((0 :: addrs) ++ [0]) in Hn. rewrite Ep, <- app_assoc in Hn.
      apply chained_split in Hn. destruct Hn as [Hn _]. revert Hn. apply chained_frame.
      intros x y Hx Hy. rewrite removelast_snoc in Hx. rewrite Hnext; [intros E; exact E| |].
      + intros ->. contradiction.
      + apply Hold. rewrite Ep. apply in_or_app. left. exact Hx.
    - change (0 :: (addrs ++ [new]) ++ [0]) with (((0 :: addrs) ++ [new]) ++ [0]). rewrite Ep, <- !app_assoc. cbn [app].
      apply chained_split. split; [|split; [apply Hnewk|split; [exact H0p|exact I]]].
      assert (Hn := r_prev _ _ _ H). change (0 :: addrs ++ [0]) with ((0 :: addrs) ++ [0]) in Hn. rewrite Ep, <- app_assoc in Hn.
      apply chained_split in Hn. destruct Hn as [Hn _]. revert Hn. apply chained_frame.
      intros x y Hx Hy. rewrite <- Ep in Hy. cbn [tl] in Hy. rewrite Hprev; [intros E; exact E| |].
      + intros ->. inversion Hnd; contradiction.
      + apply Hold. right. exact Hy.
    - rewrite !map_app. cbn [map]. rewrite (proj1 Hnewk). f_equal. rewrite <- (r_keys _ _ _ H). apply map_ext_in.
      intros a Ha. apply Hkey. apply Hold. right. exact Ha.
    - intros k' a'. rewrite combine_snoc by (apply (rep_length _ _ _ H)). rewrite in_app_iff, <- (r_map _ _ _ H). cbn [lookup In].
      destruct (eq_dec k' k) as [->|Hn].
      + rewrite El. split; [intros E; right; left; congruence|]. intros [E|[E|[]]]; [discriminate|congruence].
      + split; [intros E; left; exact E|]. intros [E|[E|[]]]; [exact E|congruence].
    - cbn [length]. rewrite app_length, (r_len _ _ _ H). simpl. lia.
    - cbn [map fst]. constructor; [|apply (r_mapnd _ _ _ H)]. apply lookup_notin. exact El.
  Qed.

  (** Removing the element at a known position. *)
  Lemma combine_app2 : forall (l1 l2 : list A) (a1 a2 : list nat), length a1 = length l1 ->
    combine (l1 ++ l2) (a1 ++ a2) = combine l1 a1 ++ combine l2 a2.
  Proof.
    intros l1; induction l1 as [|x l1 IH]; intros l2 [|b a1] a2 H; simpl in *; try discriminate; [reflexivity|].
    f_equal. apply IH. lia.
  Qed.

  Lemma in_combine_split : forall (l : list A) (addrs : list nat) k a, In (k, a) (combine l addrs) ->
    length addrs = length l ->
    exists l1 l2 a1 a2, l = l1 ++ k :: l2 /\ addrs = a1 ++ a :: a2 /\ length a1 = length l1.
  Proof.
    intros l; induction l as [|x l IH]; intros [|b addrs] k a Hin Hl; simpl in *; try contradiction; try discriminate.
    destruct Hin as [E|Hin].
    - inversion E; subst. exists [], l, [], addrs. repeat split.
    - destruct (IH addrs k a Hin) as [l1 [l2 [a1 [a2 [E1 [E2 E3]]]]]]; [lia|].
      exists (x :: l1), l2, (b :: a1), a2. subst. repeat split. simpl. lia.
  Qed.

  Lemma s_discard_split : forall l1 k l2, NoDup (l1 ++ k :: l2) -> s_discard A eq_dec (l1 ++ k :: l2) k = l1 ++ l2.
  Proof.
    intros l1 k l2 Hnd. unfold s_discard. rewrite filter_app. cbn [filter]. destruct (eq_dec k k) as [_|C]; [|congruence].
    assert (Hne : forall l, ~ In k l -> filter (fun x => if eq_dec k x then false else true) l = l).
    { intros l. induction l as [|x l IH]; intros Hi; [reflexivity|]. cbn [filter]. destruct (eq_dec k x) as [->|].
      - exfalso; apply Hi; left; reflexivity.
      - f_equal. apply IH. intros C; apply Hi; right; exact C. }
    apply NoDup_remove_2 in Hnd. rewrite !Hne; [reflexivity| |]; intros C; apply Hnd; apply in_or_app; [right|left]; exact C.
  Qed.

  Lemma s_discard_id : forall l k, ~ In k l -> s_discard A eq_dec l k = l.
  Proof.
    intros l k. unfold s_discard. induction l as [|x l IH]; intros Hi; [reflexivity|]. cbn [filter]. destruct (eq_dec k x) as [->|].
    - exfalso; apply Hi; left; reflexivity.
    - f_equal. apply IH. intros C; apply Hi; right; exact C.
  Qed.

  Lemma lookup_remove : forall k k' m, lookup A eq_dec k' (remove_key A eq_dec k m) = if eq_dec k k' then None else lookup A eq_dec k' m.
  Proof.
    intros k k' m. induction m as [|[q a] m IH]; cbn [remove_key filter lookup fst]; [destruct (eq_dec k k'); reflexivity|].
    fold (remove_key A eq_dec k m). destruct (eq_dec k q) as [->|Hn]; cbn [fst].
    - destruct (eq_dec k' q) as [->|Hn']; [destruct (eq_dec q q); [exact IH|congruence]|].
      exact IH.
    - cbn [lookup]. rewrite IH. destruct (eq_dec k' q) as [->|]; [destruct (eq_dec k q); [congruence|reflexivity]|reflexivity].
  Qed.

  Lemma remove_key_length : forall k m, NoDup (map fst m) -> In k (map fst m) -> S (length (remove_key A eq_dec k m)) = length m.
  Proof.
    intros k m; induction m as [|[q a] m IH]; simpl; [intros _ []|]. intros Hnd Hin. inversion Hnd; subst.
    destruct (eq_dec k q) as [->|Hn].
    - f_equal. clear IH Hin Hnd. induction m as [|[q' a'] m IH]; [reflexivity|]. simpl in *.
      destruct (eq_dec q q') as [->|]; [exfalso; apply H1; left; reflexivity|]. simpl. f_equal. apply IH; [tauto|].
      inversion H2; assumption.
    - simpl. f_equal. apply IH; [assumption|]. destruct Hin as [Hin|Hin]; [congruence|exact Hin].
  Qed.

  Lemma remove_key_nd : forall k m, NoDup (map fst m) -> NoDup (map fst (remove_key A eq_dec k m)).
  Proof.
    intros k m; induction m as [|[q a] m IH]; simpl; intros H; [constructor|]. inversion H; subst.
    destruct (eq_dec k q); [apply IH; assumption|]. simpl. constructor; [|apply IH; assumption].
    intros C. apply in_map_iff in C. destruct C as [[q' a'] [E C]]. apply filter_In in C. simpl in E. subst q'.
    apply H2. apply in_map_iff. exists (q, a'). split; [reflexivity|apply C].
  Qed.

  Lemma discard_rep : forall s l addrs k, rep s l addrs -> exists addrs', rep (discard A eq_dec s k) (s_discard A eq_dec l k) addrs'.
  Proof.
    intros s l addrs k H. assert (Hlen := rep_length _ _ _ H). unfold discard.
    destruct (lookup A eq_dec k (o_map s)) as [a|] eqn:El.
    - assert (Ein := El). apply (r_map _ _ _ H) in Ein.
      destruct (in_combine_split l addrs k a Ein Hlen) as [l1 [l2 [a1 [a2 [El1 [Ea Hl1]]]]]].
      assert (Hnd := r_nodup _ _ _ H). rewrite El1 in Hnd. rewrite El1, (s_discard_split l1 k l2 Hnd).
      (* ring = p ++ x :: a :: y :: q *)
      destruct (snoc_cases _ (0 :: a1)) as [C|[p [x Ex]]]; [discriminate|].
      assert (Hyq : exists y q, a2 ++ [0] = y :: q) by (destruct a2 as [|y q]; [exists 0, []|exists y, (q ++ [0])]; reflexivity).
      destruct Hyq as [y [q Eyq]].
      assert (Ering : 0 :: addrs ++ [0] = p ++ x :: a :: y :: q).
      { rewrite Ea, <- app_assoc. cbn [app]. rewrite Eyq. change (0 :: a1 ++ a :: y :: q) with ((0 :: a1) ++ a :: y :: q).
        rewrite Ex, <- app_assoc. reflexivity. }
      assert (Ering' : 0 :: (a1 ++ a2) ++ [0] = p ++ x :: y :: q).
      { rewrite <- app_assoc, Eyq. change (0 :: a1 ++ y :: q) with ((0 :: a1) ++ y :: q). rewrite Ex, <- app_assoc. reflexivity. }
      assert (Hn := r_next _ _ _ H). assert (Hp := r_prev _ _ _ H). unfold nexts in Hn. unfold prevs in Hp. rewrite Ering in Hn, Hp.
      apply chained_split in Hn. destruct Hn as [Hn1 Hn2]. rewrite !chained_cons2 in Hn2. destruct Hn2 as [Hxa [Hay Hn2]].
      apply chained_split in Hp. destruct Hp as [Hp1 Hp2]. rewrite !chained_cons2 in Hp2. destruct Hp2 as [Hax [Hya Hp2]].
      rewrite Hax, Hay.
      set (h2 := set_prev A (set_next A (o_heap s) x y) y x).
      assert (Hnext : forall b, b <> x -> c_next (h2 b) = c_next (o_heap s b)).
      { intros b Hb. unfold h2. autorewrite with cells. rewrite (eqb_ne _ _ Hb). reflexivity. }
      assert (Hnextx : c_next (h2 x) = y).
      { unfold h2. autorewrite with cells. rewrite Nat.eqb_refl. reflexivity. }
      assert (Hprev : forall b, b <> y -> c_prev (h2 b) = c_prev (o_heap s b)).
      { intros b Hb. unfold h2. autorewrite with cells. rewrite (eqb_ne _ _ Hb). reflexivity. }
      assert (Hprevy : c_prev (h2 y) = x).
      { unfold h2. autorewrite with cells. rewrite Nat.eqb_refl. reflexivity. }
      assert (Hkey : forall b, c_key (h2 b) = c_key (o_heap s b)).
      { intros b. unfold h2. autorewrite with cells. reflexivity. }
      assert (Hand := r_addr _ _ _ H).
      assert (Hrl : NoDup (p ++ x :: a :: removelast (y :: q))).
      { assert (E : removelast (0 :: addrs ++ [0]) = 0 :: addrs) by (change (0 :: addrs ++ [0]) with ((0 :: addrs) ++ [0]); apply removelast_snoc).
        rewrite Ering in E. rewrite removelast_app in E by discriminate. cbn [removelast] in E.
        rewrite <- E in Hand. exact Hand. }
      assert (Htl : NoDup (tl (p ++ [x]) ++ a :: y :: q)).
      { assert (E : tl (p ++ x :: a :: y :: q) = tl (p ++ [x]) ++ a :: y :: q) by (destruct p; cbn [app tl]; [reflexivity|rewrite <- app_assoc; reflexivity]).
        rewrite <- E, <- Ering. cbn [tl]. apply NoDup_snoc; [inversion Hand; assumption|inversion Hand; assumption]. }
      exists (a1 ++ a2). constructor; cbn [o_heap o_fresh o_map]; fold h2.
      + apply NoDup_remove_1 in Hnd. exact Hnd.
      + rewrite Ea in Hand. change (0 :: a1 ++ a :: a2) with ((0 :: a1) ++ a :: a2) in Hand. apply NoDup_remove_1 in Hand. exact Hand.
      + assert (Hf := r_fresh _ _ _ H). rewrite Forall_forall in *. intros b Hb. apply Hf. rewrite Ea. destruct Hb as [Hb|Hb]; [left; exact Hb|right].
        apply in_app_or in Hb. apply in_or_app. destruct Hb; [left|right; right]; assumption.
      + rewrite Ering'. apply chained_split. split.
        * revert Hn1. apply chained_frame. intros u v Hu Hv. rewrite removelast_snoc in Hu. rewrite Hnext; [intros E; exact E|].
          intros ->. apply NoDup_remove_2 in Hrl. apply Hrl. apply in_or_app. left. exact Hu.
        * rewrite chained_cons2. split; [exact Hnextx|]. revert Hn2. apply chained_frame. intros u v Hu Hv. rewrite Hnext; [intros E; exact E|].
          intros ->. apply NoDup_remove_2 in Hrl. apply Hrl. apply in_or_app. right. right. exact Hu.
      + rewrite Ering'. apply chained_split. split.
        * revert Hp1. apply chained_frame. intros u v Hu Hv. rewrite Hprev; [intros E; exact E|].
          intros ->. apply NoDup_app_inv in Htl. destruct Htl as [_ [_ Htl]]. apply (Htl y Hv). right. left. reflexivity.
        * rewrite chained_cons2. split; [exact Hprevy|]. revert Hp2. apply chained_frame. intros u v Hu Hv. rewrite Hprev; [intros E; exact E|].
          intros ->. apply NoDup_app_inv in Htl. destruct Htl as [_ [Htl _]]. inversion Htl as [|? ? _ Htl']; subst. inversion Htl' as [|? ? Hny _]; subst. contradiction.
      + assert (Hk := r_keys _ _ _ H). rewrite El1, Ea, !map_app in Hk. cbn [map] in Hk.
        assert (Hk1 : map (fun a => c_key (o_heap s a)) a1 = map Some l1 /\ map (fun a => c_key (o_heap s a)) a2 = map Some l2).
        { assert (HL : length (map (fun a => c_key (o_heap s a)) a1) = length (map (@Some A) l1)) by (rewrite !map_length; exact Hl1).
          revert HL Hk. generalize (map (fun a => c_key (o_heap s a)) a1) (map (@Some A) l1). clear.
          intros l0; induction l0 as [|e l0 IH0]; intros [|e' l3] HL Hk; simpl in *; try discriminate.
          - injection Hk as _ Hk. split; [reflexivity|exact Hk].
          - inversion Hk. destruct (IH0 l3) as [E1 E2]; [lia|assumption|]. split; [congruence|exact E2]. }
        rewrite !map_app. rewrite <- (proj1 Hk1), <- (proj2 Hk1). f_equal; apply map_ext; intros b; apply Hkey.
      + intros k' a'. rewrite lookup_remove. rewrite combine_app2 by exact Hl1.
        assert (Hm := r_map _ _ _ H k' a'). rewrite El1, Ea, combine_app2 in Hm by exact Hl1. cbn [combine] in Hm.
        destruct (eq_dec k k') as [<-|Hne].
        * split; [discriminate|]. intros C. exfalso. apply NoDup_remove_2 in Hnd. apply Hnd.
          apply in_app_or in C. apply in_or_app. destruct C as [C|C]; apply in_combine_l in C; [left|right]; exact C.
        * rewrite Hm, !in_app_iff. cbn [In]. split; [intros [C|[C|C]]; [left; exact C|congruence|right; exact C]|].
          intros [C|C]; [left; exact C|right; right; exact C].
      + assert (E := remove_key_length k (o_map s) (r_mapnd _ _ _ H)).
        assert (Hk : In k (map fst (o_map s))) by (apply lookup_In in El; apply (in_map fst) in El; exact El).
        specialize (E Hk). rewrite (r_len _ _ _ H) in E. rewrite El1 in E. rewrite app_length in E. cbn [length] in E.
        rewrite app_length. lia.
      + apply remove_key_nd. apply (r_mapnd _ _ _ H).
    - exists addrs. rewrite s_discard_id; [exact H|].
      intros C. destruct (combine_fst_In l addrs k Hlen C) as [a Ha]. apply (r_map _ _ _ H) in Ha. congruence.
  Qed.

  Lemma walk_next : forall h addrs x fuel, nexts h (x :: addrs ++ [0]) -> Forall (fun a => a <> 0) addrs -> length addrs < fuel ->
    walk A c_next h fuel (c_next (h x)) = Some (map (fun a => c_key (h a)) addrs).
  Proof.
    intros h addrs; induction addrs as [|a addrs IH]; intros x fuel Hn Hz Hf; (destruct fuel as [|fuel]; [cbn in Hf; lia|]); cbn [walk].
    - cbn in Hn. destruct Hn as [Hn _]. rewrite Hn. reflexivity.
    - cbn [app] in Hn. destruct Hn as [Hn Hn']. rewrite Hn. inversion Hz; subst. unfold sentinel. destruct (Nat.eqb_spec (c_next (h x)) 0); [contradiction|].
      cbn [map]. rewrite (IH (c_next (h x)) fuel Hn' H2); [reflexivity|cbn in Hf; lia].
  Qed.

  Lemma walk_prev : forall h addrs x fuel, prevs h (0 :: addrs ++ [x]) -> Forall (fun a => a <> 0) addrs -> length addrs < fuel ->
    walk A c_prev h fuel (c_prev (h x)) = Some (map (fun a => c_key (h a)) (rev addrs)).
  Proof.
    intros h addrs; induction addrs as [|a addrs IH] using rev_ind; intros x fuel Hn Hz Hf; (destruct fuel as [|fuel]; [cbn in Hf; lia|]); cbn [walk].
    - cbn in Hn. destruct Hn as [Hn _]. rewrite Hn. reflexivity.
    - rewrite <- app_assoc in Hn. cbn [app] in Hn. change (0 :: addrs ++ [a; x]) with ((0 :: addrs) ++ a :: [x]) in Hn.
      apply chained_split in Hn. destruct Hn as [Hn [Hx _]]. rewrite Hx.
      apply Forall_app in Hz. destruct Hz as [Hz1 Hz2]. inversion Hz2; subst. unfold sentinel.
      destruct (Nat.eqb_spec (c_prev (h x)) 0); [contradiction|].
      rewrite rev_app_distr. cbn [rev app map]. rewrite app_length in Hf. cbn in Hf.
      rewrite (IH (c_prev (h x)) fuel); [reflexivity| |exact Hz1|lia]. cbn [app] in Hn. exact Hn.
  Qed.

  Lemma addrs_nonzero : forall addrs, NoDup (0 :: addrs) -> Forall (fun a => a <> 0) addrs.
  Proof. intros addrs H. apply Forall_forall. intros a Ha ->. inversion H; contradiction. Qed.

  Lemma iter_rep : forall s l addrs, rep s l addrs -> iter A s = Some (map Some l).
  Proof.
    intros s l addrs H. unfold iter, len, sentinel. rewrite (walk_next _ addrs).
    - rewrite (r_keys _ _ _ H). reflexivity.
    - apply (r_next _ _ _ H).
    - apply addrs_nonzero. apply (r_addr _ _ _ H).
    - rewrite (r_len _ _ _ H), (rep_length _ _ _ H). lia.
  Qed.

  Lemma reversed_rep : forall s l addrs, rep s l addrs -> reversed A s = Some (map Some (rev l)).
  Proof.
    intros s l addrs H. unfold reversed, len, sentinel. rewrite (walk_prev _ addrs).
    - rewrite map_rev, (r_keys _ _ _ H), map_rev. reflexivity.
    - apply (r_prev _ _ _ H).
    - apply addrs_nonzero. apply (r_addr _ _ _ H).
    - rewrite (r_len _ _ _ H), (rep_length _ _ _ H). lia.
  Qed.

  Lemma removelast_discard : forall l x, NoDup (l ++ [x]) -> s_discard A eq_dec (l ++ [x]) x = l.
  Proof. intros l x H. rewrite (s_discard_split l x [] H). apply app_nil_r. Qed.

  Lemma pop_rep : forall s l addrs b, rep s l addrs ->
    let (s', r) := pop A eq_dec s b in
    let (l', r') := s_step A eq_dec l (Pop b) in
    (match r with None => OKeyError | Some k => OKey k end) = r' /\ exists addrs', rep s' l' addrs'.
  Proof.
    intros s l addrs b H. unfold pop, len. rewrite (r_len _ _ _ H). cbn [s_step].
    destruct l as [|x l]; cbn [length Nat.eqb].
    - split; [reflexivity|]. exists addrs. exact H.
    - assert (Hk := r_keys _ _ _ H). assert (Hl := rep_length _ _ _ H). destruct b.
      + destruct (snoc_cases _ (x :: l)) as [C|[l0 [z Ez]]]; [discriminate|].
        destruct (snoc_cases _ addrs) as [C|[a0 [az Eaz]]]; [subst addrs; discriminate|].
        assert (Ep : c_prev (o_heap s 0) = az).
        { destruct (prev_end _ _ (r_prev _ _ _ H)) as [p Ep]. rewrite Eaz in Ep. change (0 :: a0 ++ [az]) with ((0 :: a0) ++ [az]) in Ep.
          apply app_inj_tail in Ep. destruct Ep as [_ Ep]. symmetry. exact Ep. }
        unfold sentinel. rewrite Ep. rewrite Ez in Hk |- *. rewrite Eaz, !map_app in Hk. cbn [map] in Hk. apply app_inj_tail in Hk.
        destruct Hk as [_ Hk]. rewrite Hk. rewrite last_last, removelast_snoc. split; [reflexivity|].
        destruct (discard_rep s (x :: l) addrs z H) as [addrs' H']. exists addrs'. rewrite Ez in H'.
        rewrite removelast_discard in H'; [exact H'|]. rewrite <- Ez. apply (r_nodup _ _ _ H).
      + destruct addrs as [|a0 addrs]; [discriminate|]. assert (Hn := r_next _ _ _ H). cbn [app] in Hn. destruct Hn as [Hn _].
        unfold sentinel. rewrite Hn. cbn [map] in Hk. inversion Hk as [[Hk1 Hk2]]. rewrite Hk1. split; [reflexivity|].
        destruct (discard_rep s (x :: l) (a0 :: addrs) x H) as [addrs' H']. exists addrs'.
        assert (E := s_discard_split [] x l (r_nodup _ _ _ H)). cbn [app] in E. rewrite E in H'. exact H'.
  Qed.

  Lemma update_rep : forall ks s l addrs, rep s l addrs ->
    exists addrs', rep (update A eq_dec s ks) (fold_left (s_add A eq_dec) ks l) addrs'.
  Proof.
    induction ks as [|k ks IH]; intros s l addrs H; unfold update; cbn [fold_left]; [exists addrs; exact H|].
    rewrite (contains_spec s l addrs k H). destruct (s_has A eq_dec l k) eqn:E.
    - replace (s_add A eq_dec l k) with l by (unfold s_add; rewrite E; reflexivity). apply (IH s l addrs H).
    - destruct (add_rep s l addrs k H) as [addrs' H']. apply (IH _ _ _ H').
  Qed.

  Lemma run_rep : forall ops s l addrs, rep s l addrs -> run A eq_dec s ops = s_run A eq_dec l ops.
  Proof.
    induction ops as [|o ops IH]; intros s l addrs H; cbn [run s_run]; [reflexivity|].
    assert (Hstep : let (s', r) := step A eq_dec s o in let (l', r') := s_step A eq_dec l o in r = r' /\ exists addrs', rep s' l' addrs').
    { destruct o as [k|k|b|ks|k| | |]; cbn [step].
      - cbn [s_step]. split; [reflexivity|]. apply (add_rep s l addrs k H).
      - cbn [s_step]. split; [reflexivity|]. apply (discard_rep s l addrs k H).
      - assert (Hp := pop_rep s l addrs b H). destruct (pop A eq_dec s b) as [s' r]. exact Hp.
      - cbn [s_step]. split; [reflexivity|]. apply (update_rep ks s l addrs H).
      - cbn [s_step]. split; [rewrite (contains_spec s l addrs k H); reflexivity|exists addrs; exact H].
      - cbn [s_step]. split; [unfold len; rewrite (r_len _ _ _ H); reflexivity|exists addrs; exact H].
      - cbn [s_step]. split; [rewrite (iter_rep s l addrs H); reflexivity|exists addrs; exact H].
      - cbn [s_step]. split; [rewrite (reversed_rep s l addrs H); reflexivity|exists addrs; exact H]. }
    destruct (step A eq_dec s o) as [s' r]. destruct (s_step A eq_dec l o) as [l' r']. destruct Hstep as [-> [addrs' H']].
    f_equal. apply (IH s' l' addrs' H').
  Qed.

  Lemma run_refines : forall ops, run A eq_dec (empty A) ops = s_run A eq_dec [] ops.
  Proof. intros ops. apply (run_rep ops _ _ [] empty_rep). Qed.
End Refinement.
