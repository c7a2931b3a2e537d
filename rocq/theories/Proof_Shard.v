(** Proofs about sharding. *)
From Coq Require Import ZArith DecimalString DecimalNat DecimalFacts Decimal.
From Verif Require Import Lib LibFacts Str StrFacts Model_Value Proof_Merge2 Model_Shard Spec_Shard.
Local Open Scope string_scope.

(** ** Names *)
Lemma nat_str_inj : forall m n, nat_str m = nat_str n -> m = n.
Proof.
  unfold nat_str. intros m n H.
  assert (N : forall k, Nat.to_uint k <> Nil).
  { intros k E. destruct k; [discriminate E|]. pose proof (Unsigned.of_to (S k)) as X. rewrite E in X. discriminate X. }
  pose proof (NilZero.usu (Nat.to_uint m) (N m)) as E1. rewrite H, (NilZero.usu _ (N n)) in E1. injection E1 as E1. rewrite <- (Unsigned.of_to m), <- (Unsigned.of_to n), E1. reflexivity.
Qed.
Lemma uint_no_char : forall c, ~ In c ["0"; "1"; "2"; "3"; "4"; "5"; "6"; "7"; "8"; "9"]%char -> forall u, has_char c (NilEmpty.string_of_uint u) = false.
Proof.
  intros c N.
  induction u; cbn [NilEmpty.string_of_uint has_char]; try reflexivity; rewrite IHu;
    match goal with |- (if Ascii.eqb ?a c then _ else _) = _ => destruct (Ascii.eqb_spec a c) as [E|_] end; try reflexivity; exfalso; apply N; subst c; cbn; tauto.
Qed.
Lemma nat_str_no_underscore : forall n, has_char "_" (nat_str n) = false.
Proof.
  intros n. unfold nat_str, NilZero.string_of_uint. destruct (Nat.to_uint n); try reflexivity; apply uint_no_char; intros H; cbn in H; repeat destruct H as [H|H]; try discriminate H; contradiction.
Qed.
Lemma nat_str_no_hash : forall n, has_char hash (nat_str n) = false.
Proof.
  intros n. unfold nat_str, NilZero.string_of_uint. destruct (Nat.to_uint n); try reflexivity; apply uint_no_char; intros H; cbn in H; repeat destruct H as [H|H]; try discriminate H; contradiction.
Qed.
Lemma cut_last : forall c a b a' b', has_char c b = false -> has_char c b' = false -> a ++ String c b = a' ++ String c b' -> a = a' /\ b = b'.
Proof.
  intros c a b a' b' H H' E. assert (X : rsplit1 c (a ++ String c b) = Some (a, b)) by (apply rsplit1_Some; auto).
  assert (Y : rsplit1 c (a' ++ String c b') = Some (a', b')) by (apply rsplit1_Some; auto). rewrite E, Y in X. injection X as -> ->. auto.
Qed.
Theorem shard_name_inj : forall t u i j, shard_name t i = shard_name u j -> t = u /\ i = j.
Proof.
  assert (B : forall h h' i j, h ++ "_" ++ nat_str i = h' ++ "_" ++ nat_str j -> h = h' /\ i = j).
  { intros h h' i j E. destruct (cut_last "_" h (nat_str i) h' (nat_str j)) as [E1 E2]; [apply nat_str_no_underscore|apply nat_str_no_underscore|exact E|]. split; [exact E1|apply nat_str_inj; exact E2]. }
  assert (N : forall h i, has_char hash h = false -> has_char hash (h ++ "_" ++ nat_str i) = false).
  { intros h i H. rewrite !has_char_app, H, nat_str_no_hash. reflexivity. }
  assert (Y : forall a b, has_char hash (a ++ String hash b) = true).
  { intros a b. rewrite has_char_app. cbn [has_char]. rewrite Ascii.eqb_refl, orb_true_r. reflexivity. }
  intros t u i j. unfold shard_name, suffix_name. destruct (rsplit1 hash t) as [[h tl]|] eqn:E1, (rsplit1 hash u) as [[h' tl']|] eqn:E2; intros E.
  - apply rsplit1_Some in E1. apply rsplit1_Some in E2. destruct E1 as [-> E1], E2 as [-> E2]. destruct (cut_last _ _ _ _ _ E1 E2 E) as [X ->]. destruct (B _ _ _ _ X) as [-> ->]. auto.
  - apply rsplit1_None in E2. pose proof (N u j E2) as X. rewrite <- E, Y in X. discriminate.
  - apply rsplit1_None in E1. pose proof (N t i E1) as X. rewrite E, Y in X. discriminate.
  - apply B. exact E.
Qed.

(** ** Positions *)
Lemma range3_length_bound : forall i len n k, n <> 0 -> k < (len - i + (n - 1)) / n <-> i + k * n < len.
Proof.
  intros i len n k Hn. split; intros H.
  - assert (X : n * S k <= len - i + (n - 1)).
    { etransitivity; [apply Nat.mul_le_mono_l; exact H|]. apply Nat.mul_div_le. exact Hn. }
    rewrite Nat.mul_succ_r, (Nat.mul_comm n k) in X. lia.
  - apply Nat.div_le_lower_bound; [exact Hn|]. rewrite Nat.mul_succ_r, (Nat.mul_comm n k). lia.
Qed.
Lemma nth_error_seq : forall s len k, nth_error (seq s len) k = if Nat.ltb k len then Some (s + k) else None.
Proof.
  intros s len. revert s. induction len as [|len IH]; intros s k; [destruct k; reflexivity|]. destruct k as [|k]; cbn [seq nth_error]; [rewrite Nat.add_0_r; reflexivity|]. rewrite IH.
  destruct (Nat.ltb_spec k len), (Nat.ltb_spec (S k) (S len)); try lia; [f_equal; lia|reflexivity].
Qed.
Lemma strided : forall (l : list string) i n j, n <> 0 ->
  nth_error (map (fun pos => nth pos l "") (range3 i (length l) n)) j = nth_error l (i + j * n).
Proof.
  intros l i n j Hn. unfold range3. rewrite map_map, nth_error_map, nth_error_seq. destruct (Nat.ltb_spec j ((length l - i + (n - 1)) / n)) as [H|H].
  - cbn [option_map Nat.add]. apply range3_length_bound in H; [|exact Hn]. symmetry. apply nth_error_nth'. exact H.
  - cbn [option_map]. symmetry. apply nth_error_None. destruct (Nat.lt_ge_cases (i + j * n) (length l)) as [X|X]; [|exact X]. apply range3_length_bound in X; [lia|exact Hn].
Qed.

(** The pieces together hold every source exactly once. *)
Lemma perm_classes : forall B (f : B -> nat) n l, (forall x, In x l -> f x < n) -> Permutation (flat_map (fun i => filter (fun x => Nat.eqb (f x) i) l) (seq 0 n)) l.
Proof.
  intros B f n. induction l as [|x l IH]; intros H.
  - replace (flat_map _ (seq 0 n)) with (@nil B); [constructor|]. clear. induction (seq 0 n); [reflexivity|assumption].
  - assert (X : forall s, Permutation (flat_map (fun i => filter (fun y => Nat.eqb (f y) i) (x :: l)) s) (repeat x (length (filter (Nat.eqb (f x)) s)) ++ flat_map (fun i => filter (fun y => Nat.eqb (f y) i) l) s)).
    { clear. induction s as [|i s IHs]; [constructor|]. cbn [flat_map filter]. destruct (Nat.eqb_spec (f x) i) as [E|E]; cbn [length repeat app].
      - constructor. rewrite Permutation_app_comm. rewrite IHs. rewrite <- app_assoc. apply Permutation_app_head. apply Permutation_app_comm.
      - rewrite IHs. rewrite !app_assoc. apply Permutation_app_tail. apply Permutation_app_comm. }
    rewrite X. replace (length (filter (Nat.eqb (f x)) (seq 0 n))) with 1; [cbn; constructor; apply IH; intros y Hy; apply H; right; exact Hy|].
    assert (Hx : f x < n) by (apply H; left; reflexivity). clear - Hx. revert Hx. generalize (f x) as k. intros k Hk.
    assert (G : forall s m, length (filter (Nat.eqb k) (seq s m)) = if Nat.leb s k && Nat.ltb k (s + m) then 1 else 0).
    { intros s m. revert s. induction m as [|m IHm]; intros s; [cbn [seq filter length]; destruct (Nat.leb_spec s k), (Nat.ltb_spec k (s + 0)); try lia; reflexivity|]. cbn [seq filter].
      destruct (Nat.eqb_spec k s) as [->|E]; cbn [length]; rewrite IHm.
      - destruct (Nat.leb_spec (S s) s), (Nat.leb_spec s s), (Nat.ltb_spec s (s + S m)); try lia; reflexivity.
      - destruct (Nat.leb_spec (S s) k), (Nat.leb_spec s k), (Nat.ltb_spec k (S s + m)), (Nat.ltb_spec k (s + S m)); try lia; reflexivity. }
    rewrite G. destruct (Nat.leb_spec 0 k), (Nat.ltb_spec k (0 + n)); try lia; reflexivity.
Qed.
Lemma range3_filter : forall i len n, i < n -> range3 i len n = filter (fun p => Nat.eqb (p mod n) i) (seq 0 len).
Proof.
  intros i len n Hi. assert (Hn : n <> 0) by lia. induction len as [|len IH].
  - unfold range3. rewrite Nat.sub_0_l, Nat.div_small by lia. reflexivity.
  - rewrite seq_S, filter_app, <- IH. cbn [filter Nat.add]. unfold range3.
    assert (D : forall k, len = i + k * n -> (len - i + (n - 1)) / n = k /\ (S len - i + (n - 1)) / n = S k).
    { intros k ->. split; [symmetry; apply Nat.div_unique with (r := n - 1); lia|symmetry; apply Nat.div_unique with (r := 0); lia]. }
    destruct (Nat.eqb_spec (len mod n) i) as [E|E].
    + destruct (D (len / n)) as [D1 D2]; [rewrite (Nat.div_mod len n Hn) at 1; lia|]. rewrite D1, D2, seq_S, map_app. cbn [map]. f_equal. f_equal. rewrite (Nat.div_mod len n Hn) at 2. lia.
    + rewrite app_nil_r. f_equal. f_equal.
      assert (X : forall k, k < (S len - i + (n - 1)) / n <-> k < (len - i + (n - 1)) / n).
      { intros k. rewrite !range3_length_bound by exact Hn. split; intros H; [|lia]. destruct (Nat.eq_dec (i + k * n) len) as [Y|Y]; [|lia].
        exfalso. apply E. rewrite <- Y. rewrite Nat.mod_add by exact Hn. apply Nat.mod_small. exact Hi. }
      destruct (Nat.lt_trichotomy ((S len - i + (n - 1)) / n) ((len - i + (n - 1)) / n)) as [H|[H|H]]; [apply X in H; lia|exact H|apply X in H; lia].
Qed.
Theorem strides_perm : forall (l : list string) n, n <> 0 ->
  Permutation (flat_map (fun i => map (fun pos => nth pos l "") (range3 i (length l) n)) (seq 0 n)) l.
Proof.
  intros l n Hn. assert (E : flat_map (fun i => map (fun pos => nth pos l "") (range3 i (length l) n)) (seq 0 n) =
    map (fun pos => nth pos l "") (flat_map (fun i => filter (fun p => Nat.eqb (p mod n) i) (seq 0 (length l))) (seq 0 n))).
  { assert (G : forall s, (forall i, In i s -> i < n) -> flat_map (fun i => map (fun pos => nth pos l "") (range3 i (length l) n)) s =
      map (fun pos => nth pos l "") (flat_map (fun i => filter (fun p => Nat.eqb (p mod n) i) (seq 0 (length l))) s)).
    { induction s as [|i s IH]; intros H; [reflexivity|]. cbn [flat_map]. rewrite map_app, IH by (intros; apply H; right; assumption). rewrite range3_filter by (apply H; left; reflexivity). reflexivity. }
    apply G. intros i Hi. apply in_seq in Hi. lia. }
  rewrite E. rewrite (perm_classes nat (fun p => p mod n)) by (intros; apply Nat.mod_upper_bound; exact Hn).
  clear. induction l as [|x l IH]; [constructor|]. cbn [length seq map nth]. constructor. rewrite <- seq_shift, map_map. exact IH.
Qed.

(** ** Dictionaries *)
Lemma fold_flat_map : forall X Y Z (f : Z -> Y -> Z) (g : X -> list Y) l acc, fold_left (fun a x => fold_left f (g x) a) l acc = fold_left f (flat_map g l) acc.
Proof. induction l as [|x l IH]; intros acc; [reflexivity|]. cbn [fold_left flat_map]. rewrite fold_left_app. apply IH. Qed.
Lemma fold_set_new : forall B (es : list (string * B)) acc, NoDup (map fst (acc ++ es)%list) -> fold_left (fun a e => set_key (fst e) (snd e) a) es acc = (acc ++ es)%list.
Proof.
  intros B. induction es as [|[k v] es IH]; intros acc H; [rewrite app_nil_r; reflexivity|]. cbn [fold_left fst snd].
  assert (E : set_key k v acc = (acc ++ [(k, v)])%list).
  { clear IH. assert (N : ~ In k (map fst acc)). { rewrite map_app in H. cbn in H. apply NoDup_remove_2 in H. intros X. apply H. apply in_or_app. left. exact X. }
    clear H. induction acc as [|[k' v'] acc IHa]; [reflexivity|]. cbn. destruct (String.eqb_spec k k') as [->|E]; [exfalso; apply N; left; reflexivity|]. rewrite IHa; [reflexivity|]. intros X. apply N. right. exact X. }
  rewrite E, IH by (rewrite <- app_assoc; exact H). rewrite <- app_assoc. reflexivity.
Qed.

Section Shard.
Context {A : Type}.
Implicit Type ds : list (string * target A).

Lemma assoc_shards : forall t ds acc, NoDup (map fst ds) ->
  assoc t (fold_left (fun acc '(t, d) => if Z.eqb (t_shards d) 0 then acc else set_key t (t_shards d) acc) ds acc) =
  match assoc t ds with Some d => if Z.eqb (t_shards d) 0 then assoc t acc else Some (t_shards d) | None => assoc t acc end.
Proof.
  intros t. induction ds as [|[u d] ds IH]; intros acc H; [reflexivity|]. cbn [fold_left assoc]. inversion H as [|? ? N H']; subst. rewrite IH by exact H'. destruct (String.eqb_spec t u) as [->|E].
  - replace (assoc u ds) with (@None (target A)) by (symmetry; apply assoc_None; exact N). destruct (Z.eqb _ 0); [reflexivity|]. apply assoc_set_same.
  - destruct (Z.eqb (t_shards d) 0); [reflexivity|]. rewrite assoc_set_other by congruence. reflexivity.
Qed.
Lemma shards_whole : forall ds t, NoDup (map fst ds) -> assoc t (targets_to_shard ds) = None -> whole ds t.
Proof.
  intros ds t H E d HI. unfold targets_to_shard in E. rewrite assoc_shards in E by exact H. rewrite (In_assoc _ _ _ _ H HI) in E. destruct (Z.eqb_spec (t_shards d) 0); [assumption|discriminate].
Qed.
Lemma shards_pieces : forall ds t n, NoDup (map fst ds) -> counts_ok ds -> assoc t (targets_to_shard ds) = Some n -> pieces ds t (Z.to_nat n) /\ n = Z.of_nat (Z.to_nat n).
Proof.
  intros ds t n H HC E. unfold targets_to_shard in E. rewrite assoc_shards in E by exact H. destruct (assoc t ds) as [d|] eqn:F; [|discriminate]. destruct (Z.eqb_spec (t_shards d) 0) as [|X]; [discriminate|].
  injection E as <-. apply assoc_In in F. pose proof (HC _ _ F). split; [|lia]. exists d. repeat split; [exact F|lia|lia].
Qed.
Lemma pieces_shards : forall ds t n, NoDup (map fst ds) -> pieces ds t n -> assoc t (targets_to_shard ds) = Some (Z.of_nat n).
Proof.
  intros ds t n H (d & HI & E & N). unfold targets_to_shard. rewrite assoc_shards by exact H. rewrite (In_assoc _ _ _ _ H HI). destruct (Z.eqb_spec (t_shards d) 0); [lia|]. congruence.
Qed.

Definition expand (shards : list (string * Z)) (t : string) : list string :=
  match assoc t shards with Some n => map (shard_name t) (range n) | None => [t] end.
Lemma shard_list_eq : forall shards l, shard_list shards l = flat_map (expand shards) l.
Proof.
  intros shards l. unfold shard_list. assert (G : forall l acc, fold_left (fun acc t => match assoc t shards with Some n => (acc ++ map (shard_name t) (range n))%list | None => (acc ++ [t])%list end) l acc =
    (acc ++ flat_map (expand shards) l)%list).
  { induction l0 as [|t l0 IH]; intros acc; [rewrite app_nil_r; reflexivity|]. cbn [fold_left flat_map]. rewrite IH. unfold expand at 2. destruct (assoc t shards); rewrite <- app_assoc; reflexivity. }
  apply G.
Qed.
Theorem shard_list_replaced : forall ds l, NoDup (map fst ds) -> counts_ok ds -> replaced ds l (shard_list (targets_to_shard ds) l).
Proof.
  intros ds l H HC. rewrite shard_list_eq. induction l as [|t l IH]; [constructor|]. cbn [flat_map]. unfold expand. destruct (assoc t (targets_to_shard ds)) as [n|] eqn:E.
  - destruct (shards_pieces _ _ _ H HC E) as [HP _]. apply replaced_cut; assumption.
  - apply replaced_whole; [|exact IH]. apply shards_whole; assumption.
Qed.

Definition entries (shards : list (string * Z)) (e : string * target A) : list (string * target A) :=
  match assoc (fst e) shards with
  | Some n => map (fun i => (shard_name (fst e) i, shard_target (snd e) n i)) (range n)
  | None => [e]
  end.
Lemma entries_keys : forall shards e, map fst (entries shards e) = expand shards (fst e).
Proof. intros shards [t d]. unfold entries, expand. cbn [fst]. destruct (assoc t shards); [rewrite map_map; reflexivity|reflexivity]. Qed.
Lemma shard_dicts_eq : forall shards ds, NoDup (map fst (flat_map (entries shards) ds)) -> shard_dicts shards ds = flat_map (entries shards) ds.
Proof.
  intros shards ds H. unfold shard_dicts. rewrite <- (app_nil_l (flat_map (entries shards) ds)). rewrite <- fold_set_new by exact H. rewrite <- fold_flat_map.
  assert (G : forall l acc, fold_left (fun acc '(t, d) => match assoc t shards with Some n => fold_left (fun acc i => set_key (shard_name t i) (shard_target d n i) acc) (range n) acc | None => set_key t d acc end) l acc =
    fold_left (fun a x => fold_left (fun a0 e => set_key (fst e) (snd e) a0) (entries shards x) a) l acc).
  { induction l as [|[t d] l IH]; intros acc; [reflexivity|]. cbn [fold_left]. rewrite IH. f_equal. unfold entries. cbn [fst snd]. destruct (assoc t shards) as [n|]; [|reflexivity].
    generalize (range n) as r. intros r. revert acc. induction r as [|i r IHr]; intros acc; [reflexivity|]. cbn [fold_left map fst snd]. apply IHr. }
  apply G.
Qed.
Lemma map_fst_flat_map : forall shards ds, map fst (flat_map (entries shards) ds) = flat_map (expand shards) (map fst ds).
Proof. intros shards. induction ds as [|e ds IH]; [reflexivity|]. cbn [flat_map map]. rewrite map_app, IH, entries_keys. reflexivity. Qed.
Lemma expand_In : forall ds t k, NoDup (map fst ds) -> counts_ok ds -> In k (expand (targets_to_shard ds) t) ->
  (whole ds t /\ k = t) \/ exists n i, pieces ds t n /\ i < n /\ k = shard_name t i.
Proof.
  intros ds t k H HC HI. unfold expand in HI. destruct (assoc t (targets_to_shard ds)) as [n|] eqn:E.
  - destruct (shards_pieces _ _ _ H HC E) as [HP _]. right. apply in_map_iff in HI. destruct HI as (i & <- & Hi). unfold range in Hi. apply in_seq in Hi. exists (Z.to_nat n), i. repeat split; [exact HP|lia].
  - left. destruct HI as [->|[]]. split; [apply shards_whole; assumption|reflexivity].
Qed.
Lemma keys_NoDup : forall ds, NoDup (map fst ds) -> counts_ok ds -> no_clash ds -> NoDup (flat_map (expand (targets_to_shard ds)) (map fst ds)).
Proof.
  intros ds H HC HN. assert (G : forall l, incl l (map fst ds) -> NoDup l -> NoDup (flat_map (expand (targets_to_shard ds)) l)); [|apply G; [apply incl_refl|exact H]].
  induction l as [|t l IH]; intros HI HD; [constructor|]. inversion HD as [|? ? N HD']; subst. cbn [flat_map]. apply NoDup_app_intro.
  - unfold expand. destruct (assoc t _); [|repeat constructor; intros []]. unfold range. apply FinFun.Injective_map_NoDup; [|apply seq_NoDup]. intros i j E. apply shard_name_inj in E. tauto.
  - apply IH; [|exact HD']. intros x Hx. apply HI. right. exact Hx.
  - intros k H1 H2. apply in_flat_map in H2. destruct H2 as (u & Hu & H2). apply (expand_In ds t k H HC) in H1. apply (expand_In ds u k H HC) in H2.
    assert (Ht : In t (map fst ds)) by (apply HI; left; reflexivity). assert (Hu' : In u (map fst ds)) by (apply HI; right; exact Hu).
    destruct H1 as [[W1 ->]|(n & i & P1 & I1 & ->)], H2 as [[W2 E]|(m & j & P2 & I2 & E)].
    + subst u. contradiction.
    + exact (HN u m j t P2 I2 Ht W1 E).
    + exact (HN t n i u P1 I1 Hu' W2 (eq_sym E)).
    + apply shard_name_inj in E. destruct E as [E _]. subst u. contradiction.
Qed.

Definition redirect (shards : list (string * Z)) (d : target A) : target A :=
  mk_target (t_name d) (t_sources d) (shard_list shards (t_deps d)) (shard_list shards (t_deps_original d)) (t_shards d) (t_rest d).
Lemma shard_deps_assoc : forall shards ds k, NoDup (map fst ds) -> assoc k (shard_deps shards ds) = option_map (redirect shards) (assoc k ds).
Proof.
  intros shards ds k H. unfold shard_deps.
  assert (G : forall ks acc, NoDup ks -> assoc k (fold_left (fun acc t => match assoc t acc with None => acc | Some d => set_key t (redirect shards d) acc end) ks acc) =
    if mem k ks then option_map (redirect shards) (assoc k acc) else assoc k acc).
  { induction ks as [|t ks IH]; intros acc HD; [reflexivity|]. inversion HD as [|? ? N HD']; subst. cbn [fold_left]. rewrite IH by exact HD'. cbn [mem existsb]. fold (mem k ks). destruct (String.eqb_spec k t) as [->|E]; cbn [orb].
    - rewrite (proj2 (mem_false t ks) N). destruct (assoc t acc) as [d|] eqn:F; [rewrite assoc_set_same; reflexivity|rewrite F; reflexivity].
    - destruct (assoc t acc) as [d|]; [|reflexivity]. rewrite assoc_set_other by congruence. reflexivity. }
  rewrite G by (apply sort_NoDup; exact H). destruct (mem_spec k (sort (map fst ds))) as [HI|HI]; [reflexivity|]. rewrite sort_In in HI. apply assoc_None in HI. rewrite HI. reflexivity.
Qed.
Lemma shard_deps_keys : forall shards ds, map fst (shard_deps shards ds) = map fst ds.
Proof.
  intros shards ds. unfold shard_deps. generalize (sort (map fst ds)). intros ks. revert ds. induction ks as [|t ks IH]; intros ds; [reflexivity|]. cbn [fold_left]. rewrite IH. destruct (assoc t ds) as [d|] eqn:E; [|reflexivity].
  clear - E. set (v := mk_target _ _ _ _ _ _). clearbody v. induction ds as [|[u d'] ds IH]; [discriminate|]. cbn [assoc set_key] in *. destruct (String.eqb_spec t u) as [->|N]; [reflexivity|]. cbn [map]. rewrite IH by exact E. reflexivity.
Qed.

Theorem shard_keys : forall tl ds, NoDup (map fst ds) -> counts_ok ds -> no_clash ds ->
  replaced ds (map fst ds) (map fst (snd (shard_targets tl ds))) /\ NoDup (map fst (snd (shard_targets tl ds))).
Proof.
  intros tl ds H HC HN. unfold shard_targets. cbn [snd]. rewrite shard_deps_keys. pose proof (keys_NoDup ds H HC HN) as HK.
  rewrite shard_dicts_eq by (rewrite map_fst_flat_map; exact HK). rewrite map_fst_flat_map. split; [|exact HK]. rewrite <- shard_list_eq. apply shard_list_replaced; assumption.
Qed.
Theorem shard_whole : forall tl ds t d, NoDup (map fst ds) -> counts_ok ds -> no_clash ds -> In (t, d) ds -> t_shards d = 0%Z ->
  exists d', assoc t (snd (shard_targets tl ds)) = Some d' /\ t_name d' = t_name d /\ t_sources d' = t_sources d /\
    replaced ds (t_deps d) (t_deps d') /\ replaced ds (t_deps_original d) (t_deps_original d') /\ t_rest d' = t_rest d.
Proof.
  intros tl ds t d H HC HN HI E. pose proof (keys_NoDup ds H HC HN) as HK. unfold shard_targets. cbn [snd]. rewrite <- map_fst_flat_map in HK. rewrite shard_dicts_eq by exact HK. rewrite shard_deps_assoc by exact HK.
  assert (X : assoc t (targets_to_shard ds) = None). { unfold targets_to_shard. rewrite assoc_shards by exact H. rewrite (In_assoc _ _ _ _ H HI), E. reflexivity. }
  rewrite (In_assoc _ t d) by (exact HK || (apply in_flat_map; exists (t, d); split; [exact HI|unfold entries; cbn [fst]; rewrite X; left; reflexivity])).
  cbn [option_map]. eexists. split; [reflexivity|]. cbn [redirect t_name t_sources t_deps t_deps_original t_rest]. repeat split; try reflexivity; apply shard_list_replaced; assumption.
Qed.
Theorem shard_pieces : forall tl ds t d n i, NoDup (map fst ds) -> counts_ok ds -> no_clash ds -> In (t, d) ds -> t_shards d = Z.of_nat n -> i < n ->
  exists p, assoc (shard_name t i) (snd (shard_targets tl ds)) = Some p /\ piece_of ds d n i p /\
    t_sources p = map (fun pos => nth pos (t_sources d) "") (range3 i (length (t_sources d)) n).
Proof.
  intros tl ds t d n i H HC HN HI E Hi. pose proof (keys_NoDup ds H HC HN) as HK. unfold shard_targets. cbn [snd]. rewrite <- map_fst_flat_map in HK. rewrite shard_dicts_eq by exact HK. rewrite shard_deps_assoc by exact HK.
  assert (X : assoc t (targets_to_shard ds) = Some (Z.of_nat n)) by (apply pieces_shards; [exact H|exists d; repeat split; [exact HI|exact E|lia]]).
  rewrite (In_assoc _ (shard_name t i) (shard_target d (Z.of_nat n) i)); [|exact HK|].
  - cbn [option_map]. eexists. split; [reflexivity|]. unfold piece_of. cbn [redirect shard_target t_name t_sources t_deps t_deps_original t_rest]. rewrite Nat2Z.id.
    repeat split; try reflexivity; try (apply shard_list_replaced; assumption). intros j. apply strided. lia.
  - apply in_flat_map. exists (t, d). split; [exact HI|]. unfold entries. cbn [fst snd]. rewrite X. apply in_map_iff. exists i. split; [reflexivity|]. unfold range. rewrite Nat2Z.id. apply in_seq. lia.
Qed.
Definition piece_sources (result : list (string * target A)) (t : string) (i : nat) : list string :=
  match assoc (shard_name t i) result with Some p => t_sources p | None => [] end.
Theorem shard_sources_perm : forall tl ds t d n, NoDup (map fst ds) -> counts_ok ds -> no_clash ds -> In (t, d) ds -> t_shards d = Z.of_nat n -> n <> 0 ->
  Permutation (flat_map (piece_sources (snd (shard_targets tl ds)) t) (seq 0 n)) (t_sources d).
Proof.
  intros tl ds t d n H HC HN HI E Hn. rewrite <- (strides_perm (t_sources d) n Hn).
  assert (G : forall s, (forall i, In i s -> i < n) -> flat_map (piece_sources (snd (shard_targets tl ds)) t) s = flat_map (fun i => map (fun pos => nth pos (t_sources d) "") (range3 i (length (t_sources d)) n)) s).
  { induction s as [|i s IH]; intros Hs; [reflexivity|]. cbn [flat_map]. rewrite IH by (intros; apply Hs; right; assumption). f_equal. unfold piece_sources.
    destruct (shard_pieces tl ds t d n i H HC HN HI E (Hs i (or_introl eq_refl))) as (p & -> & _ & Hp). exact Hp. }
  rewrite G by (intros i Hi; apply in_seq in Hi; lia). apply Permutation_refl.
Qed.
End Shard.

(** A piece can overwrite, or be overwritten by, another target. *)
Lemma clash : exists ds : list (string * target unit), NoDup (map fst ds) /\ counts_ok ds /\
  snd (shard_targets (map fst ds) ds) = [("a_0", mk_target "other" ["c"] [] [] 0%Z tt); ("a_1", mk_target "a_1" ["y"] [] [] 2%Z tt)].
Proof.
  exists [("a", mk_target "a" ["x"; "y"] [] [] 2%Z tt); ("a_0", mk_target "other" ["c"] [] [] 0%Z tt)]. split; [repeat constructor; cbn; intuition discriminate|]. split; [|reflexivity].
  intros t d H. cbn in H. destruct H as [H|[H|[]]]; injection H as <- <-; cbn; lia.
Qed.
