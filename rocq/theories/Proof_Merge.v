(** Proofs about MergeLists and MergeDicts. *)
From Verif Require Import LibFacts Str StrFacts Model_Path Model_Value Model_Merge Spec_Merge.
Local Open Scope string_scope.

(** ** Unfolding [merge] into loops *)

Definition dict_loop (c : ctx) (fk : list string) : dict -> dict -> result dict :=
  fix go (es : list (string * value)) (td : dict) {struct es} : result dict :=
    match es with
    | [] => Val td
    | (k, v) :: es' => rbind (merge_entry c fk k v (merge c v) td) (go es')
    end.
Definition list_loop (c : ctx) (is_paths append : bool) : list value -> list_state -> result list_state :=
  fix go (items : list value) (st : list_state) {struct items} : result list_state :=
    match items with
    | [] => Val st
    | item :: items' =>
      rbind (copy_item c is_paths (merge c item) item) (fun ci => go items' (add_item append st ci))
    end.

Lemma merge_dict_eq : forall c fd ip ap td,
  merge c (VDict fd) ip ap (VDict td) = rbind (dict_loop c (map fst fd) fd td) (fun td' => Val (VDict td')).
Proof. reflexivity. Qed.
Lemma merge_list_eq : forall c fl ip ap tl,
  merge c (VList fl) ip ap (VList tl) =
  rbind (list_loop c ip ap fl (tl, filter is_hashable tl, 0)) (fun st => Val (VList (fst (fst st)))).
Proof. reflexivity. Qed.
Lemma dict_loop_cons : forall c fk k v es td,
  dict_loop c fk ((k, v) :: es) td = rbind (merge_entry c fk k v (merge c v) td) (dict_loop c fk es).
Proof. reflexivity. Qed.
Lemma list_loop_cons : forall c ip ap item items st,
  list_loop c ip ap (item :: items) st =
  rbind (copy_item c ip (merge c item) item) (fun ci => list_loop c ip ap items (add_item ap st ci)).
Proof. reflexivity. Qed.
Global Opaque merge.

Lemma merge_dicts_eq : forall c to fro, merge_dicts c to fro = dict_loop c (map fst fro) fro to.
Proof. intros. unfold merge_dicts. rewrite merge_dict_eq. destruct (dict_loop _ _ _ _); reflexivity. Qed.
Lemma merge_lists_eq : forall c ip ap to fro,
  merge_lists c ip ap to fro = rbind (list_loop c ip ap fro (to, filter is_hashable to, 0)) (fun st => Val (fst (fst st))).
Proof. intros. unfold merge_lists. rewrite merge_list_eq. destruct (list_loop _ _ _ _ _); reflexivity. Qed.

Lemma merge_as_dicts : forall c d ip ap td w,
  merge c (VDict d) ip ap (VDict td) = Val w <-> exists d', merge_dicts c td d = Val d' /\ w = VDict d'.
Proof.
  intros. rewrite merge_dict_eq, merge_dicts_eq. destruct (dict_loop _ _ _ _) as [x|e]; cbn [rbind].
  - split; [intros H; inversion H; eauto | intros (d' & H & ->); congruence].
  - split; [discriminate | intros (d' & H & _); discriminate].
Qed.
Lemma merge_as_lists : forall c l ip ap tl w,
  merge c (VList l) ip ap (VList tl) = Val w <-> exists l', merge_lists c ip ap tl l = Val l' /\ w = VList l'.
Proof.
  intros. rewrite merge_list_eq, merge_lists_eq. destruct (list_loop _ _ _ _ _) as [x|e]; cbn [rbind].
  - split; [intros H; inversion H; eauto | intros (d' & H & ->); congruence].
  - split; [discriminate | intros (d' & H & _); discriminate].
Qed.

(** ** Lists *)

Lemma dash_spec : forall s, negb (starts_dash s) = match s with String "-" _ => false | _ => true end.
Proof.
  intros [|a s]; [reflexivity|]. cbn [starts_dash].
  destruct (Ascii.eqb_spec a "-") as [->|n]; [reflexivity|].
  destruct a as [[] [] [] [] [] [] [] []]; try reflexivity; exfalso; apply n; reflexivity.
Qed.

Lemma copy_item_spec : forall c ip item ci, copy_item c ip (merge c item) item = Val ci <->
  copy_of c ip item ci /\ (ip = true -> c_to_file c <> c_fro_file c -> forall z, item <> VInt z).
Proof.
  intros c ip item [x b]. destruct item as [s|z|l|d|cl]; cbn [copy_item copy_of].
  - rewrite dash_spec. unfold move_path. split.
    + intros H; inversion H; split; [reflexivity|intros; discriminate].
    + intros [-> _]. reflexivity.
  - unfold move_int. destruct ip; cbn [rbind].
    + destruct (String.eqb_spec (c_to_file c) (c_fro_file c)) as [e|n]; cbn [rbind].
      * split; [intros H; inversion H; split; [reflexivity|intros; congruence] | intros [-> _]; reflexivity].
      * split; [discriminate|]. intros [_ H]. exfalso. exact (H eq_refl n z eq_refl).
    + split; [intros H; inversion H; split; [reflexivity|intros; discriminate] | intros [-> _]; reflexivity].
  - destruct (merge c (VList l) false true (VList [])) as [w|e] eqn:E; cbn [rbind].
    + apply merge_as_lists in E. destruct E as (l' & E & ->). split.
      * intros H; inversion H; split; [eauto|intros; discriminate].
      * intros [(l2 & E2 & H) _]. congruence.
    + split; [discriminate|]. intros [(l2 & E2 & H) _]. exfalso.
      assert (merge c (VList l) false true (VList []) = Val (VList l2)) by (apply merge_as_lists; eauto). congruence.
  - destruct (merge c (VDict d) false true (VDict [])) as [w|e] eqn:E; cbn [rbind].
    + apply merge_as_dicts in E. destruct E as (l' & E & ->). split.
      * intros H; inversion H; split; [eauto|intros; discriminate].
      * intros [(l2 & E2 & H) _]. congruence.
    + split; [discriminate|]. intros [(l2 & E2 & H) _]. exfalso.
      assert (merge c (VDict d) false true (VDict []) = Val (VDict l2)) by (apply merge_as_dicts; eauto). congruence.
  - split; [discriminate|intros [[] _]].
Qed.

Lemma list_loop_spec : forall c ip ap items st st', list_loop c ip ap items st = Val st' <->
  exists copies, Forall2 (fun item ci => copy_item c ip (merge c item) item = Val ci) items copies /\
    st' = fold_left (add_item ap) copies st.
Proof.
  intros c ip ap items. induction items as [|item items IH]; intros st st'.
  - cbn. split; [intros H; inversion H; exists []; split; [constructor|reflexivity]|].
    intros (copies & H & ->). inversion H. reflexivity.
  - rewrite list_loop_cons. destruct (copy_item c ip (merge c item) item) as [ci|e] eqn:E; cbn [rbind].
    + rewrite IH. split.
      * intros (copies & H & ->). exists (ci :: copies). split; [constructor; assumption|reflexivity].
      * intros (copies & H & ->). inversion H as [|a b l l' H1 H2]; subst. rewrite E in H1. inversion H1; subst.
        exists l'. split; [assumption|reflexivity].
    + split; [discriminate|]. intros (copies & H & _). inversion H as [|a b l l' H1 H2]; subst. congruence.
Qed.

Lemma Forall2_impl : forall A B (P Q : A -> B -> Prop) l l', (forall a b, P a b -> Q a b) -> Forall2 P l l' -> Forall2 Q l l'.
Proof. intros A B P Q l l' H F. induction F; constructor; auto. Qed.

(** Once-only copies are scalars. *)
Definition scalar (v : value) : Prop := match v with VStr _ | VInt _ => True | _ => False end.
Lemma copy_of_scalar : forall c ip item x, copy_of c ip item (x, true) -> scalar x.
Proof.
  intros c ip [s|z|l|d|cl] x H; cbn in H.
  - inversion H. exact I.
  - inversion H. exact I.
  - destruct H as (? & _ & H). inversion H.
  - destruct H as (? & _ & H). inversion H.
  - destruct H.
Qed.

Lemma scalar_eqb_spec : forall a b, scalar a -> reflect (a = b) (scalar_eqb a b).
Proof.
  intros [s|z|l|d|cl] [s'|z'|l'|d'|cl'] H; try destruct H; cbn [scalar_eqb]; try (constructor; discriminate).
  - destruct (String.eqb_spec s s'); constructor; congruence.
  - destruct (Z.eqb_spec z z'); constructor; congruence.
Qed.
Lemma in_values_spec : forall x s, scalar x -> reflect (In x s) (in_values x s).
Proof.
  intros x s Hx. unfold in_values. destruct (existsb (scalar_eqb x) s) eqn:E; constructor.
  - apply existsb_exists in E. destruct E as (y & Hy & e). destruct (scalar_eqb_spec x y Hx); [subst; assumption|discriminate].
  - intros Hin. assert (existsb (scalar_eqb x) s = true); [|congruence].
    apply existsb_exists. exists x. split; [assumption|]. destruct (scalar_eqb_spec x x Hx); congruence.
Qed.
Lemma scalar_hashable : forall x, scalar x -> is_hashable x = true.
Proof. intros [s|z|l|d|cl] H; try destruct H; reflexivity. Qed.

Definition good_copies (copies : list (value * bool)) : Prop := forall x, In (x, true) copies -> scalar x.
Lemma good_cons : forall ci copies, good_copies (ci :: copies) -> (snd ci = true -> scalar (fst ci)) /\ good_copies copies.
Proof. intros [x b] copies H. split; [cbn; intros ->; apply H; left; reflexivity|intros y Hy; apply H; right; exact Hy]. Qed.

Lemma copies_good : forall c ip fro copies, Forall2 (copy_of c ip) fro copies -> good_copies copies.
Proof.
  intros c ip fro copies F. induction F as [|item [x b] fro copies H F IH]; intros y Hy; [destruct Hy|].
  destruct Hy as [e|Hy]; [inversion e; subst; eapply copy_of_scalar; eassumption | auto].
Qed.

(** The set of hashables is exact on scalars while appending. *)
Lemma new_items_ext : forall e e' l r, (forall x, In x e <-> In x e') -> new_items e l r -> new_items e' l r.
Proof.
  intros e e' l r H N. revert e' H. induction N as [e|e x rest l Hin N IH|e x rest l Hin N IH|e x rest l N IH]; intros e' H.
  - constructor.
  - apply new_drop; [apply H; assumption|]. apply IH. intros y. cbn. rewrite H. tauto.
  - apply new_keep; [rewrite <- H; assumption|]. apply IH. intros y. cbn. rewrite H. tauto.
  - apply new_many. apply IH. intros y. cbn. rewrite H. tauto.
Qed.
Lemma append_loop : forall copies to s n, good_copies copies ->
  (forall x, scalar x -> (In x s <-> In x to)) ->
  exists added s' n', fold_left (add_item true) copies (to, s, n) = ((to ++ added)%list, s', n') /\ new_items to copies added.
Proof.
  induction copies as [|[x b] copies IH]; intros to s n G Hs.
  - exists [], s, n. rewrite app_nil_r. split; [reflexivity|constructor].
  - apply good_cons in G. destruct G as [Gx G]. cbn [fst snd] in Gx. cbn [fold_left add_item].
    assert (K : forall s2, s2 = (if is_hashable x then x :: s else s) ->
      forall y, scalar y -> (In y s2 <-> In y (to ++ [x])%list)).
    { intros s2 -> y Hy. rewrite in_app_iff. cbn [In]. destruct (is_hashable x) eqn:Ex.
      - cbn [In]. rewrite (Hs y Hy). tauto.
      - rewrite (Hs y Hy). split; [tauto|]. intros [H|[<-|[]]]; [assumption|]. apply scalar_hashable in Hy. congruence. }
    destruct b; cbn [negb orb].
    + specialize (Gx eq_refl). rewrite (scalar_hashable x Gx).
      destruct (in_values_spec x s Gx) as [Hin|Hn]; cbn [negb].
      * destruct (IH to s n G Hs) as (added & s' & n' & E & N). exists added, s', n'. split; [exact E|].
        apply new_drop; [apply (Hs x Gx); exact Hin|].
        eapply new_items_ext; [|exact N]. intros y. cbn. apply (Hs x Gx) in Hin.
        split; [tauto|intros [<-|]; assumption].
      * destruct (IH (to ++ [x])%list (x :: s) n G) as (added & s' & n' & E & N).
        { apply K. rewrite (scalar_hashable x Gx). reflexivity. }
        exists (x :: added), s', n'. rewrite <- app_assoc in E. split; [exact E|].
        apply new_keep; [rewrite <- (Hs x Gx); exact Hn|].
        eapply new_items_ext; [|exact N]. intros y. rewrite in_app_iff. cbn. tauto.
    + destruct (IH (to ++ [x])%list (if is_hashable x then x :: s else s) n G (K _ eq_refl)) as (added & s' & n' & E & N).
      exists (x :: added), s', n'. rewrite <- app_assoc in E. split; [exact E|].
      apply new_many. eapply new_items_ext; [|exact N]. intros y. rewrite in_app_iff. cbn. tauto.
Qed.

Lemma hashables_exact : forall to x, scalar x -> (In x (filter is_hashable to) <-> In x to).
Proof. intros to x H. rewrite filter_In. apply scalar_hashable in H. tauto. Qed.

Lemma copy_items_of : forall c ip fro copies,
  Forall2 (fun item ci => copy_item c ip (merge c item) item = Val ci) fro copies -> Forall2 (copy_of c ip) fro copies.
Proof. intros c ip fro copies. apply Forall2_impl. intros a b H. apply copy_item_spec in H. tauto. Qed.

Theorem merge_append : forall c ip to fro r, merge_lists c ip true to fro = Val r ->
  exists copies added, Forall2 (copy_of c ip) fro copies /\ new_items to copies added /\ r = (to ++ added)%list.
Proof.
  intros c ip to fro r. rewrite merge_lists_eq. intros H.
  destruct (list_loop c ip true fro (to, filter is_hashable to, 0)) as [st|e] eqn:E; [|discriminate].
  cbn in H. inversion H; subst r. apply list_loop_spec in E. destruct E as (copies & F & ->).
  apply copy_items_of in F.
  destruct (append_loop copies to (filter is_hashable to) 0 (copies_good _ _ _ _ F) (hashables_exact to)) as (added & s' & n' & E & N).
  exists copies, added. split; [exact F|]. split; [exact N|]. rewrite E. reflexivity.
Qed.

(** [new_items] is a function. *)
Lemma new_items_det : forall e l r1 r2, new_items e l r1 -> new_items e l r2 -> r1 = r2.
Proof.
  intros e l r1 r2 N. revert r2. induction N as [e|e x rest l Hin N IH|e x rest l Hin N IH|e x rest l N IH]; intros r2 N2;
    inversion N2; subst; try reflexivity; try contradiction; auto; f_equal; auto.
Qed.

(** Prepending. *)
Lemma insert_nth_app : forall l r x, insert_nth (length l) x (l ++ r)%list = (l ++ x :: r)%list.
Proof. induction l as [|y l IH]; intros r x; [destruct r; reflexivity|cbn; rewrite IH; reflexivity]. Qed.

Lemma filter_ne_id : forall x l, scalar x -> ~ In x l -> filter (fun y => negb (scalar_eqb x y)) l = l.
Proof.
  intros x l Hx. induction l as [|y l IH]; intros Hn; [reflexivity|]. cbn [filter].
  destruct (scalar_eqb_spec x y Hx) as [<-|n]; [exfalso; apply Hn; left; reflexivity|]. cbn [negb].
  rewrite IH; [reflexivity|]. intros H. apply Hn. right. exact H.
Qed.

Lemma without_filter : forall x p l l', scalar x -> without p (filter (fun y => negb (scalar_eqb x y)) l) l' ->
  without (fun y => y = x \/ p y) l l'.
Proof.
  intros x p l. induction l as [|y l IH]; intros l' Hx W.
  - inversion W. constructor.
  - cbn [filter] in W. destruct (scalar_eqb_spec x y Hx) as [<-|n]; cbn [negb] in W.
    + apply without_drop; [left; reflexivity|auto].
    + inversion W as [|z m m' Hz Hw|z m m' Hz Hw]; subst.
      * apply without_drop; [right; assumption|auto].
      * apply without_keep; [intros [->|]; [apply n; reflexivity|contradiction]|auto].
Qed.
Lemma without_ext : forall p q l l', (forall x, p x <-> q x) -> without p l l' -> without q l l'.
Proof.
  intros p q l l' H W. induction W; [constructor|apply without_drop; [apply H|]; assumption|apply without_keep; [rewrite <- H|]; assumption].
Qed.
Lemma without_none : forall p l, (forall x, ~ p x) -> without p l l.
Proof. intros p l H. induction l; [constructor|apply without_keep; auto]. Qed.

Lemma prepend_loop : forall copies done to s, good_copies copies ->
  (forall l x r, copies = (l ++ (x, true) :: r)%list -> ~ In x (done ++ map fst l)%list) ->
  exists rest s' n', fold_left (add_item false) copies ((done ++ to)%list, s, length done) =
                     (((done ++ map fst copies) ++ rest)%list, s', n') /\
    without (fun x => In (x, true) copies) to rest.
Proof.
  induction copies as [|[x b] copies IH]; intros done to s G Hn.
  - exists to, s, (length done). cbn. rewrite app_nil_r. split; [reflexivity|]. apply without_none. intros y [].
  - apply good_cons in G. destruct G as [Gx G]. cbn [fst snd] in Gx. cbn [fold_left add_item].
    assert (HN : forall l y r, copies = (l ++ (y, true) :: r)%list -> ~ In y ((done ++ [x]) ++ map fst l)%list).
    { intros l y r E Hin. apply (Hn ((x, b) :: l) y r); [rewrite E; reflexivity|].
      cbn [map fst]. rewrite <- app_assoc in Hin. exact Hin. }
    set (to' := if b then filter (fun y => negb (scalar_eqb x y)) to else to).
    assert (E1 : (if b then filter (fun y => negb (scalar_eqb x y)) (done ++ to)%list else (done ++ to)%list) = (done ++ to')%list).
    { unfold to'. destruct b; [|reflexivity]. rewrite filter_app. f_equal.
      apply filter_ne_id; [auto|]. intros H. apply (Hn [] x copies eq_refl). cbn [map]. rewrite app_nil_r. exact H. }
    rewrite E1, insert_nth_app.
    destruct (IH (done ++ [x])%list to' (if is_hashable x then x :: s else s) G HN) as (rest & s' & n' & E & W).
    exists rest, s', n'. rewrite <- app_assoc in E. cbn [app] in E.
    rewrite app_length in E. cbn [length] in E. rewrite Nat.add_1_r in E. split.
    + cbn [map fst]. rewrite E. rewrite <- !app_assoc. reflexivity.
    + unfold to' in W. destruct b.
      * apply (without_filter x _ to rest (Gx eq_refl)) in W. eapply without_ext; [|exact W].
        intros y. cbn. split; [intros [->|H]; auto|intros [e|H]; [left; congruence|auto]].
      * eapply without_ext; [|exact W]. intros y. cbn. split; [auto|intros [e|H]; [congruence|auto]].
Qed.

Theorem merge_prepend : forall c ip to fro r, merge_lists c ip false to fro = Val r ->
  exists copies, Forall2 (copy_of c ip) fro copies /\
    (no_repeats copies -> exists rest, without (fun x => In (x, true) copies) to rest /\ r = (map fst copies ++ rest)%list).
Proof.
  intros c ip to fro r. rewrite merge_lists_eq. intros H.
  destruct (list_loop c ip false fro (to, filter is_hashable to, 0)) as [st|e] eqn:E; [|discriminate].
  cbn in H. inversion H; subst r. apply list_loop_spec in E. destruct E as (copies & F & ->).
  apply copy_items_of in F. exists copies. split; [exact F|]. intros Hn.
  destruct (prepend_loop copies [] to (filter is_hashable to) (copies_good _ _ _ _ F)) as (rest & s' & n' & E & W).
  - intros l x r E. cbn [app]. apply (Hn l x r E).
  - exists rest. split; [exact W|]. cbn [app length] in E. rewrite E. reflexivity.
Qed.

(** Membership after a prepend, without any restriction. *)
Lemma insert_nth_In : forall n x l y, In y (insert_nth n x l) <-> y = x \/ In y l.
Proof.
  assert (B : forall (x y : value) l, In y (x :: l) <-> y = x \/ In y l).
  { intros x y l. cbn. split; intros [H|H]; auto. }
  induction n as [|n IH]; intros x [|z l] y; cbn [insert_nth]; try apply B.
  cbn [In]. rewrite IH. cbn [In]. tauto.
Qed.
Lemma prepend_members : forall copies to s n y, good_copies copies ->
  (In y (fst (fst (fold_left (add_item false) copies (to, s, n)))) <-> In y (map fst copies) \/ In y to).
Proof.
  induction copies as [|[x b] copies IH]; intros to s n y G; [cbn; tauto|].
  apply good_cons in G. destruct G as [Gx G]. cbn [fst snd] in Gx. cbn [fold_left add_item]. rewrite IH by exact G.
  rewrite insert_nth_In. cbn [map fst In]. assert (S : y = x <-> x = y) by (split; auto). destruct b.
  - rewrite filter_In. destruct (scalar_eqb_spec x y (Gx eq_refl)) as [e|n0]; cbn [negb].
    + split; [intros _; left; left; exact e|intros _; right; left; apply S; exact e].
    + assert (T : true = true <-> True) by (split; auto). rewrite T. tauto.
  - tauto.
Qed.
Theorem merge_members : forall c ip ap to fro r, merge_lists c ip ap to fro = Val r ->
  exists copies, Forall2 (copy_of c ip) fro copies /\ forall y, In y r <-> In y to \/ In y (map fst copies).
Proof.
  intros c ip [|] to fro r H.
  - apply merge_append in H. destruct H as (copies & added & F & N & ->). exists copies. split; [exact F|].
    intros y. rewrite in_app_iff. clear F. revert y. induction N as [e|e x rest l Hin N IH|e x rest l Hin N IH|e x rest l N IH]; intros y.
    + cbn. tauto.
    + specialize (IH y). cbn [map fst In] in *. assert (x = y -> In y e) by (intros <-; exact Hin). tauto.
    + specialize (IH y). cbn [map fst In] in *. tauto.
    + specialize (IH y). cbn [map fst In] in *. tauto.
  - rewrite merge_lists_eq in H.
    destruct (list_loop c ip false fro (to, filter is_hashable to, 0)) as [st|e] eqn:E; [|discriminate].
    cbn in H. inversion H; subst r. apply list_loop_spec in E. destruct E as (copies & F & ->).
    apply copy_items_of in F. exists copies. split; [exact F|]. intros y.
    rewrite prepend_members; [tauto|]. eapply copies_good; exact F.
Qed.

(** Copies are determined by the item. *)
Lemma copy_of_det : forall c ip item a b, copy_of c ip item a -> copy_of c ip item b -> a = b.
Proof.
  intros c ip [s|z|l|d|cl] a b; cbn; intros Ha Hb; try congruence.
  - destruct Ha as (l1 & E1 & ->), Hb as (l2 & E2 & ->). congruence.
  - destruct Ha as (l1 & E1 & ->), Hb as (l2 & E2 & ->). congruence.
  - destruct Ha.
Qed.
Lemma copies_det : forall c ip fro a b, Forall2 (copy_of c ip) fro a -> Forall2 (copy_of c ip) fro b -> a = b.
Proof.
  intros c ip fro a b F. revert b. induction F as [|item x fro a H F IH]; intros b F2; inversion F2; subst; [reflexivity|].
  f_equal; [eapply copy_of_det; eassumption|auto].
Qed.

(** Appending again changes nothing (once-only items). *)
Lemma new_items_all_in : forall e l, (forall x b, In (x, b) l -> b = true /\ In x e) -> new_items e l [].
Proof.
  intros e l. revert e. induction l as [|[x b] l IH]; intros e H; [constructor|].
  destruct (H x b (or_introl eq_refl)) as [-> Hx]. apply new_drop; [exact Hx|]. apply IH.
  intros y b' Hy. destruct (H y b' (or_intror Hy)) as [-> Hy']. split; [reflexivity|right; exact Hy'].
Qed.
Theorem merge_append_twice : forall c ip to fro r, 
  (forall item, In item fro -> match item with VStr s => match s with String "-" _ => False | _ => True end | VInt _ => True | _ => False end) ->
  merge_lists c ip true to fro = Val r -> merge_lists c ip true r fro = Val r.
Proof.
  intros c ip to fro r HS H.
  destruct (merge_members _ _ _ _ _ _ H) as (copies & F & M).
  assert (HT : forall x b, In (x, b) copies -> b = true /\ In x r).
  { intros x b Hin. split; [|apply M; right; change x with (fst (x, b)); apply in_map; exact Hin].
    clear M H. induction F as [|item ci fro copies Hc F IH]; [destruct Hin|].
    destruct Hin as [->|Hin]; [|apply IH; auto; intros; apply HS; right; assumption].
    specialize (HS item (or_introl eq_refl)). destruct item as [s|z|l|d|cl]; cbn in Hc; try contradiction; inversion Hc; [|reflexivity].
    destruct s as [|a s]; [reflexivity|].
    destruct a as [[] [] [] [] [] [] [] []]; try reflexivity; destruct HS. }
  rewrite merge_lists_eq in H |- *.
  destruct (list_loop c ip true fro (to, filter is_hashable to, 0)) as [st|e] eqn:E; [|discriminate].
  apply list_loop_spec in E. destruct E as (copies' & F' & _).
  destruct (list_loop c ip true fro (r, filter is_hashable r, 0)) as [st2|e2] eqn:E2.
  - apply list_loop_spec in E2. destruct E2 as (c2 & F2 & ->). cbn [rbind].
    assert (c2 = copies) by (eapply copies_det; [apply copy_items_of; exact F2|exact F]). subst c2.
    destruct (append_loop copies r (filter is_hashable r) 0 (copies_good _ _ _ _ F) (hashables_exact r)) as (added & s' & n' & E & N).
    rewrite E. cbn. assert (added = []) as ->; [|rewrite app_nil_r; reflexivity].
    eapply new_items_det; [exact N|]. apply new_items_all_in. exact HT.
  - exfalso. assert (L : list_loop c ip true fro (r, filter is_hashable r, 0) = Val (fold_left (add_item true) copies' (r, filter is_hashable r, 0))).
    { apply list_loop_spec. eauto. }
    congruence.
Qed.

(** Consequences of [new_items] in plain terms. *)
Lemma new_items_facts : forall e l r, new_items e l r ->
  sublist r (map fst l) /\
  (forall x, In x (map fst l) -> In x e \/ In x r) /\
  (forall x, In (x, false) l -> In x r).
Proof.
  intros e l r N. induction N as [e|e x rest l Hin N (S & A & B)|e x rest l Hin N (S & A & B)|e x rest l N (S & A & B)];
    (split; [|split]).
  - constructor.
  - intros x [].
  - intros x [].
  - cbn [map fst]. apply sub_drop. exact S.
  - intros y [<-|Hy]; [left; exact Hin|]. destruct (A y Hy) as [[<-|H]|H]; auto.
  - intros y [e0|Hy]; [discriminate|auto].
  - cbn [map fst]. apply sub_keep. exact S.
  - intros y [<-|Hy]; [right; left; reflexivity|]. destruct (A y Hy) as [[<-|H]|H]; [right; left; reflexivity|auto|right; right; exact H].
  - intros y [e0|Hy]; [discriminate|right; auto].
  - cbn [map fst]. apply sub_keep. exact S.
  - intros y [<-|Hy]; [right; left; reflexivity|]. destruct (A y Hy) as [[<-|H]|H]; [right; left; reflexivity|auto|right; right; exact H].
  - intros y [e0|Hy]; [inversion e0; left; reflexivity|right; auto].
Qed.
