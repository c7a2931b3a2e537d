(** The recursion of the list filters. *)
From Verif Require Import LibFacts StrFacts Model_Value Model_Filter Spec_Merge Spec_Filter Proof_Merge2 Proof_Merge3 Proof_Filter.
Local Open Scope string_scope.

Lemma depth_pos : forall v, 1 <= depth v.
Proof. intros [s|z|l|d|c]; cbn [depth]; lia. Qed.
Lemma depth_list_le : forall l n, depth (VList l) <= S n <-> Forall (fun x => depth x <= n) l.
Proof.
  intros l n. cbn [depth]. induction l as [|x l IH]; [split; [constructor|lia]|]. split.
  - intros H. constructor; [lia|]. apply IH. lia.
  - intros H. inversion H as [|? ? H1 H2]; subst. apply IH in H2. lia.
Qed.
Lemma depth_dict_le : forall d n, depth (VDict d) <= S n <-> Forall (fun e => depth (snd e) <= n) d.
Proof.
  intros d n. cbn [depth]. induction d as [|[k x] d IH]; [split; [constructor|lia]|]. split.
  - intros H. constructor; [cbn; lia|]. apply IH. lia.
  - intros H. inversion H as [|? ? H1 H2]; subst. cbn in H1. apply IH in H2. lia.
Qed.

Lemma splits_In : forall A (p : A -> Prop) l yes no x, splits p l yes no -> (In x l <-> In x yes \/ In x no).
Proof. intros A p l yes no x S. induction S as [|y l yes no Hy S IH|y l yes no Hy S IH]; cbn; [tauto| |]; rewrite IH; tauto. Qed.

Lemma set_key_Forall : forall B (P : string * B -> Prop) k v d, P (k, v) -> Forall P d -> Forall P (set_key k v d).
Proof.
  intros B P k v d Hk. induction d as [|[k' v'] d IH]; intros F; cbn [set_key]; [repeat constructor; exact Hk|].
  inversion F; subst. destruct (String.eqb k k'); constructor; auto.
Qed.
Lemma del_key_Forall : forall B (P : string * B -> Prop) k d, Forall P d -> Forall P (del_key k d).
Proof. intros B P k d F. unfold del_key. rewrite Forall_forall in *. intros x Hx. apply filter_In in Hx. apply F. tauto. Qed.

Section R.
  Variable eqv : value -> value -> bool.
  Variable compiles : string -> bool.
  Variable search : string -> string -> bool.
  Notation filter_list := (Model_Filter.filter_list eqv compiles search).
  Notation filter_dict := (Model_Filter.filter_dict eqv compiles search).
  Notation filter_value := (Model_Filter.filter_value eqv compiles search).

  Definition no_nofuel {A} (r : result A) : Prop := r <> Exn NoFuel.
  Lemma nn_bind : forall A B (r : result A) (f : A -> result B), no_nofuel r -> (forall a, r = Val a -> no_nofuel (f a)) -> no_nofuel (rbind r f).
  Proof. intros A B [a|e] f H1 H2; cbn; [apply H2; reflexivity|]. intros E. inversion E; subst. apply H1. reflexivity. Qed.
  Lemma nn_fold : forall A B (f : A -> B -> result A) l a, (forall a b, no_nofuel (f a b)) -> no_nofuel (rfold f l a).
  Proof. intros A B f l. induction l as [|b l IH]; intros a H; [discriminate|]. cbn. apply nn_bind; auto. Qed.

  Lemma apply_regex_nn : forall av p items acts, no_nofuel (apply_regex search av p items acts).
  Proof.
    induction items as [|x items IH]; intros acts; [discriminate|]. destruct acts as [|a acts]; [discriminate|]. cbn [apply_regex].
    apply nn_bind; [destruct (Z.eqb a av); [discriminate|destruct x; discriminate]|]. intros a' _. apply nn_bind; [apply IH|discriminate].
  Qed.
  Lemma regex_action_nn : forall v, no_nofuel (regex_action compiles v).
  Proof.
    intros v. unfold regex_action. apply nn_bind.
    - unfold unpack_pair. destruct v as [| |l|d|]; try discriminate.
      + destruct l as [|a [|b [|]]]; discriminate.
      + destruct d as [|[a x] [|[b y] [|]]]; discriminate.
    - intros [[a| | | |] [p| | | |]] _; try discriminate. destruct (compiles p); [|discriminate].
      destruct (String.eqb a "exclude"); [discriminate|]. destruct (String.eqb a "include"); discriminate.
  Qed.
  Lemma filter_list_nn : forall d b, no_nofuel (filter_list d b).
  Proof.
    intros d b. unfold Model_Filter.filter_list. destruct (assoc b d) as [[| |l| |]|]; try discriminate.
    apply nn_bind; [destruct (assoc (b ++ "!") d) as [[| |ex| |]|]; discriminate|]. intros st1 _.
    apply nn_bind.
    - destruct (assoc (b ++ "/") (snd st1)) as [[| |rx| |]|]; try discriminate. apply nn_bind; [|discriminate].
      apply nn_fold. intros acts item. apply nn_bind; [apply regex_action_nn|]. intros ap _. apply apply_regex_nn.
    - intros st2 _. destruct (has_key _ _); [discriminate|]. destruct (split_loop _ _ _ _). discriminate.
  Qed.
  Lemma filter_dict_nn : forall d, no_nofuel (filter_dict d).
  Proof.
    intros d. unfold Model_Filter.filter_dict. apply nn_bind.
    - apply nn_fold. intros [lists dels] [k v]. unfold collect. destruct (last_char k) as [op|]; [|discriminate].
      destruct (filter_char op); [|discriminate]. destruct v; try discriminate. destruct (assoc (drop_last k) d) as [[]|]; discriminate.
    - intros st _. apply nn_fold. apply filter_list_nn.
  Qed.

  Lemma filter_list_depth : forall n d b d', filter_list d b = Val d' ->
    Forall (fun e => depth (snd e) <= n) d -> Forall (fun e => depth (snd e) <= n) d'.
  Proof.
    intros n d b d' H F. unfold Model_Filter.filter_list in H.
    destruct (assoc b d) as [v|] eqn:EB; [|discriminate]. destruct v as [| |l| |]; try discriminate.
    assert (Hl : depth (VList l) <= n). { apply assoc_In in EB. rewrite Forall_forall in F. exact (F _ EB). }
    apply rbind_Val in H. destruct H as ([acts1 d1] & H1 & H). apply rbind_Val in H. destruct H as ([acts2 d2] & H2 & H). cbn [fst snd] in *.
    assert (F1 : Forall (fun e => depth (snd e) <= n) d1).
    { destruct (assoc (b ++ "!") d) as [[| |ex| |]|]; try discriminate; inversion H1; subst; [apply del_key_Forall|]; exact F. }
    assert (F2 : Forall (fun e => depth (snd e) <= n) d2).
    { destruct (assoc (b ++ "/") d1) as [[| |rx| |]|]; try discriminate.
      - apply rbind_Val in H2. destruct H2 as (a2 & _ & H2). inversion H2; subst. apply del_key_Forall. exact F1.
      - inversion H2; subst. exact F1. }
    destruct (has_key _ _); [discriminate|].
    assert (SUB : forall m acts l ex k e, split_loop m acts l ex = (k, e) -> forall x, In x k \/ In x e -> In x l \/ In x ex).
    { clear. induction m as [|m IH]; intros acts l ex k e H x Hx; cbn [split_loop] in H; [inversion H; subst; exact Hx|].
      destruct (Z.eqb _ 0).
      - destruct (nth_error l m) as [y|] eqn:En; [|inversion H; subst; exact Hx].
        specialize (IH _ _ _ _ _ H x Hx). apply nth_error_In in En.
        assert (D : forall i l, In x (delete_nth i l) -> In x l).
        { clear. induction i as [|i IH]; intros [|y l] H; cbn in *; auto. destruct H; auto. }
        destruct IH as [IH|[<-|IH]]; [left; eapply D; exact IH|left; exact En|right; exact IH].
      - eapply IH; eassumption. }
    destruct (split_loop (length acts2) acts2 l []) as [kept excl] eqn:ES.
    assert (KL : forall l2, (forall x, In x l2 -> In x l) -> depth (VList l2) <= n).
    { intros l2 Hs. destruct n as [|n]; [pose proof (depth_pos (VList l)); lia|]. apply depth_list_le. apply depth_list_le in Hl.
      rewrite Forall_forall in *. intros x Hx. apply Hl. auto. }
    assert (K1 : depth (VList kept) <= n). { apply KL. intros x Hx. destruct (SUB _ _ _ _ _ _ ES x (or_introl Hx)) as [|[]]; assumption. }
    assert (K2 : depth (VList excl) <= n). { apply KL. intros x Hx. destruct (SUB _ _ _ _ _ _ ES x (or_intror Hx)) as [|[]]; assumption. }
    inversion H. destruct excl; [apply set_key_Forall; assumption|]. apply set_key_Forall; [assumption|]. apply set_key_Forall; assumption.
  Qed.
  Lemma filter_dict_depth : forall n d d', filter_dict d = Val d' ->
    Forall (fun e => depth (snd e) <= n) d -> Forall (fun e => depth (snd e) <= n) d'.
  Proof.
    intros n d d' H F. unfold Model_Filter.filter_dict in H. apply rbind_Val in H. destruct H as ([lists dels] & _ & H). cbn [fst snd] in H.
    assert (F1 : Forall (fun e => depth (snd e) <= n) (fold_left (fun d k => del_key k d) dels d)).
    { clear H. revert d F. induction dels as [|k dels IH]; intros d F; [exact F|]. cbn. apply IH. apply del_key_Forall. exact F. }
    revert F1 H. generalize (fold_left (fun d k => del_key k d) dels d). induction lists as [|b lists IH]; intros d0 F0 H; cbn [rfold] in H.
    - inversion H; subst. exact F0.
    - apply rbind_Val in H. destruct H as (d1 & H1 & H). apply (IH d1); [eapply filter_list_depth; eassumption|exact H].
  Qed.

  Lemma rmap_nn : forall A B (f : A -> result B) l, (forall a, In a l -> no_nofuel (f a)) -> no_nofuel (rmap f l).
  Proof.
    intros A B f l. induction l as [|a l IH]; intros H; [discriminate|]. cbn. apply nn_bind; [apply H; left; reflexivity|].
    intros y _. apply nn_bind; [apply IH; intros; apply H; right; assumption|discriminate].
  Qed.
  Theorem enough_fuel : forall n v, depth v <= n -> no_nofuel (filter_value n v).
  Proof.
    induction n as [|n IH]; intros v Hd; [pose proof (depth_pos v); lia|]. cbn [Model_Filter.filter_value]. destruct v as [s|z|l|d|c]; try discriminate.
    - apply depth_list_le in Hd. rewrite Forall_forall in Hd. apply nn_bind; [|discriminate]. apply rmap_nn. intros a Ha. apply IH. apply Hd. exact Ha.
    - apply depth_dict_le in Hd. apply nn_bind; [apply filter_dict_nn|]. intros d1 H1. pose proof (filter_dict_depth _ _ _ H1 Hd) as F.
      rewrite Forall_forall in F. apply nn_bind; [|discriminate]. apply rmap_nn. intros e He. apply nn_bind; [|discriminate]. apply IH. apply F. exact He.
  Qed.

  Lemma rmap_ext_nn : forall A B (f g : A -> result B) l, (forall a, no_nofuel (f a) -> g a = f a) -> no_nofuel (rmap f l) -> rmap g l = rmap f l.
  Proof.
    intros A B f g l H. induction l as [|a l IH]; intros N; [reflexivity|]. cbn in *. 
    assert (Na : no_nofuel (f a)). { intros E. apply N. rewrite E. reflexivity. }
    rewrite (H a Na). destruct (f a) as [y|e]; [|reflexivity]. cbn in *. rewrite IH; [reflexivity|]. intros E. apply N. rewrite E. reflexivity.
  Qed.
  Lemma fuel_step : forall n v, no_nofuel (filter_value n v) -> filter_value (S n) v = filter_value n v.
  Proof.
    induction n as [|n IH]; intros v N; [exfalso; apply N; reflexivity|].
    assert (U : forall k v, filter_value (S k) v = match v with
      | VList l => rbind (rmap (filter_value k) l) (fun r => Val (VList r))
      | VDict d => rbind (filter_dict d) (fun d1 => rbind (rmap (fun e => rbind (filter_value k (snd e)) (fun w => Val (fst e, w))) d1) (fun r => Val (VDict r)))
      | _ => Val v end) by (intros k0 v0; destruct v0; reflexivity).
    rewrite (U (S n)), (U n). rewrite (U n) in N. destruct v as [s|z|l|d|c]; try reflexivity.
    - rewrite (rmap_ext_nn _ _ (filter_value n) (filter_value (S n))); [reflexivity| |].
      + intros a Ha. apply IH. exact Ha.
      + intros E. apply N. rewrite E. reflexivity.
    - destruct (filter_dict d) as [d1|e]; [|reflexivity]. cbn [rbind] in *.
      rewrite (rmap_ext_nn _ _ (fun e => rbind (filter_value n (snd e)) (fun w => Val (fst e, w))) (fun e => rbind (filter_value (S n) (snd e)) (fun w => Val (fst e, w)))); [reflexivity| |].
      + intros a Ha. rewrite IH; [reflexivity|]. intros E. apply Ha. rewrite E. reflexivity.
      + intros E. apply N. rewrite E. reflexivity.
  Qed.
  Lemma fuel_any : forall n v, depth v <= n -> filter_value n v = filter_value (depth v) v.
  Proof.
    intros n v H. assert (G : forall k, filter_value (k + depth v) v = filter_value (depth v) v).
    { induction k as [|k IH]; [reflexivity|]. cbn [plus]. rewrite fuel_step; [exact IH|]. rewrite IH. apply enough_fuel. apply le_n. }
    replace n with ((n - depth v) + depth v) by lia. apply G.
  Qed.

  (** The meaning of the whole pass, without fuel. *)
  Definition filters_to (v w : value) : Prop := filter_value (depth v) v = Val w.

  Lemma rmap_Val : forall A B (f : A -> result B) l r, rmap f l = Val r <-> Forall2 (fun a b => f a = Val b) l r.
  Proof.
    intros A B f l. induction l as [|a l IH]; intros r; cbn.
    - split; [intros H; inversion H; constructor|intros F; inversion F; reflexivity].
    - split.
      + intros H. apply rbind_Val in H. destruct H as (y & H1 & H). apply rbind_Val in H. destruct H as (ys & H2 & H). inversion H; subst.
        constructor; [exact H1|apply IH; exact H2].
      + intros F. inversion F as [|? y ? ys H1 H2]; subst. rewrite H1. cbn. apply IH in H2. rewrite H2. reflexivity.
  Qed.

  Theorem filters_to_dict : forall d w, filters_to (VDict d) w <-> exists d1 d2, filter_dict d = Val d1 /\ w = VDict d2 /\
    Forall2 (fun e1 e2 => fst e1 = fst e2 /\ filters_to (snd e1) (snd e2)) d1 d2.
  Proof.
    intros d w. unfold filters_to. pose proof (depth_pos (VDict d)) as P. destruct (depth (VDict d)) as [|n] eqn:ED; [lia|].
    cbn [Model_Filter.filter_value].
    assert (FD : forall d1, filter_dict d = Val d1 -> Forall (fun e => depth (snd e) <= n) d1).
    { intros d1 H1. eapply filter_dict_depth; [exact H1|]. apply depth_dict_le. lia. }
    assert (Q : forall d1 : dict, Forall (fun e => depth (snd e) <= n) d1 -> forall d2 : dict,
      rmap (fun e => rbind (filter_value n (snd e)) (fun w => Val (fst e, w))) d1 = Val d2 <->
      Forall2 (fun e1 e2 => fst e1 = fst e2 /\ filter_value (depth (snd e1)) (snd e1) = Val (snd e2)) d1 d2).
    { induction d1 as [|[k1 v1] d1 IHd]; intros F d2.
      - cbn. split; [intros H; inversion H; constructor|intros H; inversion H; reflexivity].
      - inversion F as [|? ? F1 F2]; subst. cbn [snd] in F1. rewrite rmap_Val. split; intros G; inversion G as [|? e2 ? d2' G1 G2]; subst.
        + apply rbind_Val in G1. destruct G1 as (x & G1 & E). inversion E; subst. cbn [fst snd] in *. constructor.
          * cbn [fst snd]. split; [reflexivity|]. rewrite <- (fuel_any n) by exact F1. exact G1.
          * apply IHd; [exact F2|]. apply rmap_Val. exact G2.
        + cbn [fst snd] in G1. destruct G1 as [E G1]. destruct e2 as [k2 v2]. cbn [fst snd] in *. subst. constructor.
          * cbn [fst snd]. rewrite (fuel_any n) by exact F1. rewrite G1. reflexivity.
          * apply rmap_Val. apply IHd; assumption. }
    split.
    - intros H. apply rbind_Val in H. destruct H as (d1 & H1 & H). apply rbind_Val in H. destruct H as (d2 & H2 & H). inversion H; subst.
      exists d1, d2. split; [exact H1|]. split; [reflexivity|]. apply Q; auto.
    - intros (d1 & d2 & H1 & -> & F). rewrite H1. cbn [rbind]. apply Q in F; [|auto]. rewrite F. reflexivity.
  Qed.
  Theorem filters_to_list : forall l w, filters_to (VList l) w <-> exists l2, w = VList l2 /\ Forall2 filters_to l l2.
  Proof.
    intros l w. unfold filters_to. pose proof (depth_pos (VList l)) as P. destruct (depth (VList l)) as [|n] eqn:ED; [lia|].
    cbn [Model_Filter.filter_value].
    assert (F : Forall (fun x => depth x <= n) l) by (apply depth_list_le; lia).
    assert (Q : forall l2, rmap (filter_value n) l = Val l2 <-> Forall2 (fun v w => filter_value (depth v) v = Val w) l l2).
    { clear ED P. induction F as [|x l F1 F2 IHl]; intros l2.
      - cbn. split; [intros H; inversion H; constructor|intros H; inversion H; reflexivity].
      - rewrite rmap_Val. split; intros G; inversion G as [|? y ? l2' G1 G2]; subst; constructor.
        + rewrite <- (fuel_any n) by exact F1. exact G1.
        + apply IHl. apply rmap_Val. exact G2.
        + rewrite (fuel_any n) by exact F1. exact G1.
        + apply rmap_Val. apply IHl. exact G2. }
    split.
    - intros H. apply rbind_Val in H. destruct H as (l2 & H2 & H). inversion H; subst. exists l2. split; [reflexivity|]. apply Q. exact H2.
    - intros (l2 & -> & H). apply Q in H. rewrite H. reflexivity.
  Qed.
  Lemma filters_to_scalar : forall v w, match v with VList _ | VDict _ => False | _ => True end -> (filters_to v w <-> w = v).
  Proof.
    intros [s|z|l|d|c] w H; try destruct H; unfold filters_to; cbn; (split; [intros E; inversion E; reflexivity|intros ->; reflexivity]).
  Qed.

  Theorem filtered_free : forall n v w, depth v <= n -> filters_to v w -> filter_free w.
  Proof.
    induction n as [|n IH]; intros v w Hd H; [pose proof (depth_pos v); lia|]. destruct v as [s|z|l|d|c].
    - apply filters_to_scalar in H; [subst; constructor|exact I].
    - apply filters_to_scalar in H; [subst; constructor|exact I].
    - apply filters_to_list in H. destruct H as (l2 & -> & F). constructor. apply depth_list_le in Hd.
      induction F as [|x y l l2 H F IHF]; [constructor|]. inversion Hd; subst. constructor; [eapply IH; eassumption|auto].
    - apply filters_to_dict in H. destruct H as (d1 & d2 & H1 & -> & F). constructor. apply depth_dict_le in Hd.
      pose proof (filter_dict_depth _ _ _ H1 Hd) as F1.
      assert (NK : forall k, In k (map fst d1) -> ~ is_filter_key k).
      { intros k Hk Fk. apply (filter_dict_no_keys _ _ _ _ _ _ H1) in Fk. apply assoc_None in Fk. contradiction. }
      clear H1. induction F as [|e1 e2 d1 d2 [E H] F IHF]; [constructor|]. inversion F1; subst. constructor.
      + rewrite <- E. split; [apply NK; left; reflexivity|eapply IH; eassumption].
      + apply IHF; [assumption|]. intros k Hk. apply NK. right. exact Hk.
    - apply filters_to_scalar in H; [subst; constructor|exact I].
  Qed.

  Lemma Forall2_assoc : forall (R : value -> value -> Prop) d1 d2,
    Forall2 (fun e1 e2 => fst e1 = fst e2 /\ R (snd e1) (snd e2)) d1 d2 -> forall k,
    match assoc k d1 with
    | Some v => exists w, assoc k d2 = Some w /\ R v w
    | None => assoc k d2 = None
    end.
  Proof.
    intros R d1 d2 F k. induction F as [|[k1 v1] [k2 v2] d1 d2 [E H] F IH]; [reflexivity|]. cbn in E, H. subst. cbn [assoc].
    destruct (String.eqb k k2); [exists v2; auto|exact IH].
  Qed.

  Lemma strings_unchanged : forall l w, Forall (fun x => exists s, x = VStr s) l -> filters_to (VList l) w -> w = VList l.
  Proof.
    intros l w F H. apply filters_to_list in H. destruct H as (l2 & -> & F2). f_equal.
    induction F2 as [|x y l l2 H F2 IH]; [reflexivity|]. inversion F as [|? ? (s & ->) F']; subst.
    apply filters_to_scalar in H; [|exact I]. subst. f_equal. apply IH. exact F'.
  Qed.

  (** End to end, for lists of strings. *)
  Theorem process_strings : forall d w b l, plain_filters d -> process_list_filters eqv compiles search d = Val (VDict w) ->
    assoc b d = Some (VList l) -> Forall (fun x => exists s, x = VStr s) l ->
    In (b ++ "!") (map fst d) \/ In (b ++ "/") (map fst d) ->
    exists ex filters kept excl,
      exclusions (assoc (b ++ "!") d) ex /\ filter_pairs (assoc (b ++ "/") d) filters /\
      splits (fun x => excluded search (exists e, In e ex /\ eqv e x = true) filters x) l excl kept /\
      assoc b w = Some (VList kept) /\ assoc (b ++ "_excluded") d = None /\
      assoc (b ++ "_excluded") w = match excl with [] => None | _ => Some (VList excl) end.
  Proof.
    intros d w b l HP H Hb FS Hf. apply filters_to_dict in H. destruct H as (d1 & d2 & H1 & E & F). inversion E; subst d2. clear E.
    destruct (filter_dict_lists eqv compiles search d d1 b HP H1 Hf) as (l' & kept & excl & E1 & (ex & filters & Hex & Hfp & S) & X & E2 & E3).
    { destruct (in_dec string_dec b (map fst d)) as [i|i]; [exact i|]. apply assoc_None in i. congruence. }
    rewrite Hb in E1. inversion E1; subst l'.
    exists ex, filters, kept, excl. split; [exact Hex|]. split; [exact Hfp|]. split; [exact S|].
    assert (SK : Forall (fun x => exists s, x = VStr s) kept /\ Forall (fun x => exists s, x = VStr s) excl).
    { rewrite !Forall_forall. rewrite Forall_forall in FS. split; intros x Hx; apply FS; apply (splits_In _ _ _ _ _ x S); auto. }
    destruct SK as [SK SE]. pose proof (Forall2_assoc _ _ _ F) as A. split; [|split; [exact X|]].
    - specialize (A b). rewrite E2 in A. destruct A as (v & Ev & Hv). apply strings_unchanged in Hv; [congruence|exact SK].
    - specialize (A (b ++ "_excluded")). rewrite E3 in A. unfold excluded_value in A. destruct excl as [|x excl]; [exact A|].
      destruct A as (v & Ev & Hv). apply strings_unchanged in Hv; [congruence|exact SE].
  Qed.
End R.

Lemma splits_meaning : forall A (p : A -> Prop) l yes no, splits p l yes no ->
  Permutation l (yes ++ no)%list /\ sublist yes l /\ sublist no l /\ Forall p yes /\ Forall (fun x => ~ p x) no.
Proof.
  intros A p l yes no S. induction S as [|x l yes no Hx S (P & S1 & S2 & F1 & F2)|x l yes no Hx S (P & S1 & S2 & F1 & F2)].
  - repeat split; constructor.
  - split; [cbn; apply perm_skip; exact P|]. repeat split; try (constructor; assumption). exact F2.
  - split; [apply Permutation_cons_app; exact P|]. repeat split; try (constructor; assumption). exact F1.
Qed.
Lemma process_free : forall eqv compiles search d w, process_list_filters eqv compiles search d = Val w -> filter_free w.
Proof. intros eqv compiles search d w H. eapply filtered_free; [apply le_n|exact H]. Qed.
Lemma process_terminates : forall eqv compiles search d, process_list_filters eqv compiles search d <> Exn NoFuel.
Proof. intros eqv compiles search d. apply enough_fuel. apply le_n. Qed.
Lemma last_match_decides : forall search filters before p after a item, filters = (before ++ (a, p) :: after)%list ->
  (forall x, In x filters -> fst x = "exclude" \/ fst x = "include") ->
  matches search p item -> (forall x q, In (x, q) after -> ~ matches search q item) ->
  forall named, excluded search named filters item <-> a = "exclude".
Proof.
  intros search filters before p after a item -> HA HM HN named. split.
  - intros [(b2 & p2 & a2 & E & M2 & N2)|[_ H]].
    + assert (G : forall b1, (b1 ++ (a, p) :: after)%list = (b2 ++ ("exclude", p2) :: a2)%list -> a = "exclude" \/ In ("exclude", p2) after).
      { clear - N2 HM. revert N2. induction b2 as [|x b2 IH]; intros N2 b1 E.
        - destruct b1 as [|y b1]; inversion E; subst; [left; reflexivity|]. left. apply (N2 a p); [|exact HM]. apply in_or_app. right. left. reflexivity.
        - destruct b1 as [|y b1]; inversion E; subst.
          + right. apply in_or_app. right. left. reflexivity.
          + apply (IH N2 b1). assumption. }
      destruct (G _ E) as [|Hin]; [assumption|]. destruct (HN _ _ Hin M2).
    + apply (H a p); [|exact HM]. apply in_or_app. right. left. reflexivity.
  - intros ->. left. exists before, p, after. split; [reflexivity|]. split; [exact HM|]. intros x q Hin M. destruct (HN _ _ Hin M).
Qed.
Lemma no_match_decides : forall search filters item, (forall x q, In (x, q) filters -> ~ matches search q item) ->
  forall named, excluded search named filters item <-> named.
Proof.
  intros search filters item HN named. split.
  - intros [(b2 & p2 & a2 & -> & M2 & _)|[H _]]; [|exact H]. exfalso. apply (HN "exclude" p2); [|exact M2]. apply in_or_app. right. left. reflexivity.
  - intros H. right. split; [exact H|]. intros a q Hin M. destruct (HN _ _ Hin M).
Qed.
Lemma filtered_filter : exists d, (forall k v, In (k, v) d -> exists l, v = VList l) /\
  process_list_filters scalar_eqb (fun _ => true) String.prefix d = Exn (KeyError "sources!").
Proof.
  exists [("sources", VList [VStr "a"]); ("sources!", VList [VStr "a"]); ("sources!/", VList [])]. split; [|reflexivity].
  intros k v [E|[E|[E|[]]]]; inversion E; eauto.
Qed.
