(** Proofs about MergeDicts. *)
From Verif Require Import LibFacts Str StrFacts Model_Path Model_Value Model_Merge Spec_Merge Proof_Merge.
Local Open Scope string_scope.

(** ** Last characters *)

Lemma last_char_snoc : forall p a, last_char (p ++ String a "") = Some a.
Proof.
  induction p as [|b p IH]; intros a; [reflexivity|]. cbn [append last_char]. specialize (IH a).
  destruct (p ++ String a "") eqn:E; [destruct p; discriminate|exact IH].
Qed.
Lemma drop_last_snoc : forall p a, drop_last (p ++ String a "") = p.
Proof.
  induction p as [|b p IH]; intros a; [reflexivity|]. cbn [append drop_last]. specialize (IH a).
  destruct (p ++ String a "") eqn:E; [destruct p; discriminate|]. rewrite IH. reflexivity.
Qed.
Lemma last_char_Some : forall s a, last_char s = Some a -> s = drop_last s ++ String a "".
Proof.
  induction s as [|b s IH]; intros a H; [discriminate|]. destruct s as [|d s].
  - cbn in H. inversion H. reflexivity.
  - cbn [last_char drop_last append] in *. f_equal. apply IH. exact H.
Qed.
Lemma last_char_None : forall s, last_char s = None -> s = "".
Proof. induction s as [|b s IH]; intros H; [reflexivity|]. destruct s; [discriminate|]. cbn [last_char] in H. apply IH in H. discriminate. Qed.
Lemma snoc_inj : forall p q a b, p ++ String a "" = q ++ String b "" -> p = q /\ a = b.
Proof.
  intros p q a b E. split.
  - rewrite <- (drop_last_snoc p a), <- (drop_last_snoc q b), E. reflexivity.
  - assert (Some a = Some b) by (rewrite <- (last_char_snoc p a), <- (last_char_snoc q b), E; reflexivity). congruence.
Qed.
Lemma not_ends : forall s a, last_char s <> Some a -> ~ ends_with s (String a "").
Proof. intros s a H (p & ->). apply H. apply last_char_snoc. Qed.

Lemma list_policy_spec : forall k p b, list_policy k = Some (p, b) ->
  match p with
  | Replace => k = b ++ "="
  | Prepend => k = b ++ "+"
  | SetIfAbsent => k = b ++ "?"
  | Append => k = b /\ k <> "" /\ ~ ends_with k "=" /\ ~ ends_with k "+" /\ ~ ends_with k "?"
  end.
Proof.
  intros k p b. unfold list_policy. destruct (last_char k) as [a|] eqn:E; [|discriminate].
  pose proof (last_char_Some k a E) as Hk.
  destruct (Ascii.eqb_spec a "=") as [->|n1]; [intros H; inversion H; subst; exact Hk|].
  destruct (Ascii.eqb_spec a "+") as [->|n2]; [intros H; inversion H; subst; exact Hk|].
  destruct (Ascii.eqb_spec a "?") as [->|n3]; [intros H; inversion H; subst; exact Hk|].
  intros H; inversion H; subst. split; [reflexivity|]. split; [intros ->; discriminate|].
  split; [|split]; apply not_ends; congruence.
Qed.
Lemma list_policy_suffix : forall b,
  list_policy (b ++ "=") = Some (Replace, b) /\ list_policy (b ++ "+") = Some (Prepend, b) /\
  list_policy (b ++ "?") = Some (SetIfAbsent, b).
Proof. intros b. unfold list_policy. rewrite !last_char_snoc, !drop_last_snoc. repeat split. Qed.
Lemma list_policy_plain : forall k, k <> "" -> ~ ends_with k "=" -> ~ ends_with k "+" -> ~ ends_with k "?" ->
  list_policy k = Some (Append, k).
Proof.
  intros k H0 H1 H2 H3. unfold list_policy. destruct (last_char k) as [a|] eqn:E.
  - pose proof (last_char_Some k a E) as Hk.
    destruct (Ascii.eqb_spec a "=") as [->|n1]; [exfalso; apply H1; eexists; exact Hk|].
    destruct (Ascii.eqb_spec a "+") as [->|n2]; [exfalso; apply H2; eexists; exact Hk|].
    destruct (Ascii.eqb_spec a "?") as [->|n3]; [exfalso; apply H3; eexists; exact Hk|]. reflexivity.
  - exfalso. apply H0. apply last_char_None. exact E.
Qed.

Lemma affects_list_policy : forall k l b, affects k (VList l) b ->
  (exists p, list_policy k = Some (p, b)) \/ k = "" /\ b = "".
Proof.
  intros k l b. cbn [affects]. destruct (list_policy_suffix b) as (E1 & E2 & E3).
  intros [->|[->|[->|(-> & H1 & H2 & H3)]]]; eauto.
  destruct (string_dec b "") as [->|n]; [right; split; reflexivity|]. left. eexists. apply list_policy_plain; assumption.
Qed.
Lemma list_policy_affects : forall k l p b, list_policy k = Some (p, b) -> affects k (VList l) b.
Proof. intros k l p b H. apply list_policy_spec in H. cbn [affects]. destruct p; tauto. Qed.
Lemma affects_unique : forall k v b b', affects k v b -> affects k v b' -> b = b'.
Proof.
  intros k v b b' H H'. destruct v as [s|z|l|d|cl]; try (cbn in *; congruence).
  apply affects_list_policy in H. apply affects_list_policy in H'.
  destruct H as [(p & H)|(-> & ->)], H' as [(p' & H')|(E1 & E2)]; subst; try congruence; discriminate.
Qed.

(** ** set_key *)
Lemma assoc_set_same : forall B k (v : B) d, assoc k (set_key k v d) = Some v.
Proof.
  induction d as [|[k' v'] d IH]; cbn [set_key assoc]; [rewrite String.eqb_refl; reflexivity|].
  destruct (String.eqb k k') eqn:E; cbn [assoc]; [rewrite String.eqb_refl; reflexivity|rewrite E; exact IH].
Qed.
Lemma assoc_set_other : forall B k b (v : B) d, k <> b -> assoc b (set_key k v d) = assoc b d.
Proof.
  intros B k b v d n. induction d as [|[k' v'] d IH]; cbn [set_key assoc].
  - destruct (String.eqb_spec b k); [congruence|reflexivity].
  - destruct (String.eqb_spec k k') as [<-|n']; cbn [assoc].
    + destruct (String.eqb_spec b k); [congruence|reflexivity].
    + rewrite IH. reflexivity.
Qed.
Lemma set_key_keys : forall B k (v : B) d,
  map fst (set_key k v d) = (map fst d ++ (if mem k (map fst d) then [] else [k]))%list.
Proof.
  intros B k v d. induction d as [|[k' v'] d IH]; [reflexivity|]. cbn [set_key map fst].
  change (mem k (k' :: map fst d)) with (String.eqb k k' || mem k (map fst d)).
  destruct (String.eqb_spec k k') as [<-|n]; cbn [map fst orb]; [rewrite app_nil_r; reflexivity|rewrite IH; reflexivity].
Qed.
Lemma set_key_twice : forall B k (v w : B) d, set_key k w (set_key k v d) = set_key k w d.
Proof.
  intros B k v w d. induction d as [|[k' v'] d IH]; cbn [set_key]; [rewrite String.eqb_refl; reflexivity|].
  destruct (String.eqb k k') eqn:E; cbn [set_key]; [rewrite String.eqb_refl; reflexivity|rewrite E, IH; reflexivity].
Qed.

(** ** One entry *)

Inductive entry_result (c : ctx) (k : string) (v : value) (to to' : dict) : Prop :=
| er_set b new : affects k v b -> effect c b k v (assoc b to) new -> to' = set_key b new to -> entry_result c k v to to'
| er_keep b new : affects k v b -> effect c b k v (assoc b to) new -> assoc b to = Some new -> to' = to -> entry_result c k v to to'.

Lemma move_int_Val : forall c z w, move_int c z = Val w -> w = VInt z.
Proof. intros c z w. unfold move_int. destruct (String.eqb _ _); intros H; inversion H; reflexivity. Qed.

Lemma merge_entry_result : forall c fk k v to to', merge_entry c fk k v (merge c v) to = Val to' -> entry_result c k v to to'.
Proof.
  intros c fk k v to to' H. unfold merge_entry in H.
  destruct (match assoc k to with Some old => bad_merge v old | None => false end) eqn:EB; [discriminate|].
  destruct v as [s|z|l|d|cl].
  - inversion H. eapply er_set; [reflexivity| |reflexivity]. unfold effect, move_path. reflexivity.
  - destruct (if is_path_section (c_path_sections c) k then move_int c z else Val (VInt z)) as [w|e] eqn:E; [|discriminate].
    inversion H. eapply er_set; [reflexivity| |reflexivity]. cbn [effect].
    destruct (is_path_section (c_path_sections c) k); [eapply move_int_Val; exact E|congruence].
  - destruct (list_policy k) as [[p base]|] eqn:EP; [|discriminate].
    pose proof (list_policy_affects k l p base EP) as HA. apply list_policy_spec in EP. cbv zeta in H.
    destruct (find (fun i => mem i fk) (incompatible_keys p base)) as [i|]; [discriminate|].
    destruct p.
    + rewrite assoc_set_same in H.
      destruct (merge c (VList l) (is_path_section (c_path_sections c) base) true (VList [])) as [w|e] eqn:E; [|discriminate].
      cbn [rbind] in H. inversion H. rewrite set_key_twice. apply merge_as_lists in E. destruct E as (l' & E & ->).
      eapply er_set; [exact HA| |reflexivity]. cbn [effect]. left. eauto.
    + destruct (assoc base to) as [old|] eqn:EO.
      * destruct old as [| |l0| |]; try discriminate.
        destruct (merge c (VList l) (is_path_section (c_path_sections c) base) false (VList l0)) as [w|e] eqn:E; [|discriminate].
        cbn [rbind] in H. inversion H. apply merge_as_lists in E. destruct E as (l' & E & ->).
        eapply er_set; [exact HA| |reflexivity]. rewrite EO. cbn [effect]. right. left. split; [exact EP|].
        exists l0, l'. split; [left; reflexivity|]. split; [exact E|reflexivity].
      * destruct (merge c (VList l) (is_path_section (c_path_sections c) base) false (VList [])) as [w|e] eqn:E; [|discriminate].
        cbn [rbind] in H. inversion H. apply merge_as_lists in E. destruct E as (l' & E & ->).
        eapply er_set; [exact HA| |reflexivity]. rewrite EO. cbn [effect]. right. left. split; [exact EP|].
        exists [], l'. split; [right; split; reflexivity|]. split; [exact E|reflexivity].
    + destruct (assoc base to) as [old|] eqn:EO.
      * inversion H; subst to'. eapply er_keep; [exact HA| |exact EO|reflexivity]. rewrite EO. cbn [effect]. right. right. left.
        split; [exact EP|]. left. reflexivity.
      * destruct (merge c (VList l) (is_path_section (c_path_sections c) base) true (VList [])) as [w|e] eqn:E; [|discriminate].
        cbn [rbind] in H. inversion H. apply merge_as_lists in E. destruct E as (l' & E & ->).
        eapply er_set; [exact HA| |reflexivity]. rewrite EO. cbn [effect]. right. right. left. split; [exact EP|].
        right. split; [reflexivity|]. exists l'. split; [exact E|reflexivity].
    + destruct (assoc base to) as [old|] eqn:EO.
      * destruct old as [| |l0| |]; try discriminate.
        destruct (merge c (VList l) (is_path_section (c_path_sections c) base) true (VList l0)) as [w|e] eqn:E; [|discriminate].
        cbn [rbind] in H. inversion H. apply merge_as_lists in E. destruct E as (l' & E & ->).
        eapply er_set; [exact HA| |reflexivity]. rewrite EO. cbn [effect]. right. right. right. split; [apply EP|].
        exists l0, l'. split; [left; reflexivity|]. split; [exact E|reflexivity].
      * destruct (merge c (VList l) (is_path_section (c_path_sections c) base) true (VList [])) as [w|e] eqn:E; [|discriminate].
        cbn [rbind] in H. inversion H. apply merge_as_lists in E. destruct E as (l' & E & ->).
        eapply er_set; [exact HA| |reflexivity]. rewrite EO. cbn [effect]. right. right. right. split; [apply EP|].
        exists [], l'. split; [right; split; reflexivity|]. split; [exact E|reflexivity].
  - cbv zeta in H. destruct (assoc k to) as [old|] eqn:EO.
    + destruct old as [| | |d0|]; try discriminate.
      destruct (merge c (VDict d) false true (VDict d0)) as [w|e] eqn:E; [|discriminate].
      cbn [rbind] in H. inversion H. apply merge_as_dicts in E. destruct E as (d' & E & ->).
      eapply er_set; [reflexivity| |reflexivity]. rewrite EO. cbn [effect].
      exists d0, d'. split; [left; reflexivity|]. split; [exact E|reflexivity].
    + destruct (merge c (VDict d) false true (VDict [])) as [w|e] eqn:E; [|discriminate].
      cbn [rbind] in H. inversion H. apply merge_as_dicts in E. destruct E as (d' & E & ->).
      eapply er_set; [reflexivity| |reflexivity]. rewrite EO. cbn [effect].
      exists [], d'. split; [right; split; reflexivity|]. split; [exact E|reflexivity].
  - discriminate.
Qed.

Lemma entry_key : forall c k v to to' b, entry_result c k v to to' ->
  (affects k v b /\ exists new, effect c b k v (assoc b to) new /\ assoc b to' = Some new) \/
  (~ affects k v b /\ assoc b to' = assoc b to).
Proof.
  intros c k v to to' b [b0 new HA HE ->|b0 new HA HE HO ->].
  - destruct (string_dec b0 b) as [<-|n].
    + left. split; [exact HA|]. exists new. split; [exact HE|apply assoc_set_same].
    + right. split; [intros H; apply n; eapply affects_unique; eassumption|]. apply assoc_set_other. exact n.
  - destruct (string_dec b0 b) as [<-|n].
    + left. split; [exact HA|]. exists new. split; [exact HE|exact HO].
    + right. split; [intros H; apply n; eapply affects_unique; eassumption|]. reflexivity.
Qed.

Lemma entry_keys : forall c k v to to', entry_result c k v to to' -> exists extra,
  map fst to' = (map fst to ++ extra)%list /\ (forall b, In b extra -> affects k v b) /\ (NoDup (map fst to) -> NoDup (map fst to')).
Proof.
  intros c k v to to' [b0 new HA HE ->|b0 new HA HE HO ->].
  - rewrite set_key_keys. eexists. split; [reflexivity|]. split.
    + intros b. destruct (mem b0 (map fst to)); [intros []|intros [<-|[]]; exact HA].
    + intros ND. destruct (mem_spec b0 (map fst to)); [rewrite app_nil_r; exact ND|apply NoDup_snoc; assumption].
  - exists []. rewrite app_nil_r. split; [reflexivity|]. split; [intros b []|auto].
Qed.

(** ** The loop *)
Lemma loop_effects : forall c fk es to to', dict_loop c fk es to = Val to' ->
  forall b, effects c b es (assoc b to) (assoc b to').
Proof.
  intros c fk es. induction es as [|[k v] es IH]; intros to to' H b.
  - cbn in H. inversion H. constructor.
  - rewrite dict_loop_cons in H. destruct (merge_entry c fk k v (merge c v) to) as [t1|e] eqn:E; [|discriminate].
    cbn [rbind] in H. apply merge_entry_result in E. specialize (IH t1 to' H b).
    destruct (entry_key _ _ _ _ _ b E) as [(HA & new & HE & E1)|(HN & E1)].
    + rewrite E1 in IH. eapply effects_hit; eassumption.
    + rewrite E1 in IH. apply effects_skip; assumption.
Qed.
Theorem merge_dicts_effects : forall c to fro to', merge_dicts c to fro = Val to' ->
  forall b, effects c b fro (assoc b to) (assoc b to').
Proof. intros c to fro to' H. rewrite merge_dicts_eq in H. eapply loop_effects; exact H. Qed.

Theorem merge_dicts_keys : forall c to fro to', merge_dicts c to fro = Val to' ->
  exists extra, map fst to' = (map fst to ++ extra)%list /\
    (forall b, In b extra -> exists k v, In (k, v) fro /\ affects k v b) /\
    (NoDup (map fst to) -> NoDup (map fst to')).
Proof.
  intros c to fro to' H. rewrite merge_dicts_eq in H. revert H. generalize (map fst fro). intros fk. revert to to'.
  induction fro as [|[k v] es IH]; intros to to' H.
  - cbn in H. inversion H. exists []. rewrite app_nil_r. split; [reflexivity|]. split; [intros b []|auto].
  - rewrite dict_loop_cons in H. destruct (merge_entry c fk k v (merge c v) to) as [t1|e] eqn:E; [|discriminate].
    cbn [rbind] in H. apply merge_entry_result in E. destruct (entry_keys _ _ _ _ _ E) as (e1 & E1 & A1 & N1).
    destruct (IH t1 to' H) as (e2 & E2 & A2 & N2). exists (e1 ++ e2)%list. rewrite E2, E1, app_assoc. split; [reflexivity|]. split.
    + intros b Hb. apply in_app_iff in Hb. destruct Hb as [Hb|Hb].
      * exists k, v. split; [left; reflexivity|auto].
      * destruct (A2 b Hb) as (k' & v' & Hin & HA). exists k', v'. split; [right; exact Hin|exact HA].
    + intros ND. rewrite <- app_assoc, app_assoc, <- E1, <- E2. auto.
Qed.

(** The only entry concerning a key. *)
Lemma effects_none : forall c b fro o o', effects c b fro o o' -> (forall k v, In (k, v) fro -> ~ affects k v b) -> o' = o.
Proof.
  intros c b fro o o' E. induction E as [o|k v rest o o' HN E IH|k v rest o new o' HA HE E IH]; intros H; [reflexivity| |].
  - apply IH. intros. apply H. right. assumption.
  - exfalso. apply (H k v); [left; reflexivity|exact HA].
Qed.
Theorem merge_only_entry : forall c to fro to' b k v, merge_dicts c to fro = Val to' ->
  NoDup (map fst fro) -> In (k, v) fro -> affects k v b ->
  (forall k' v', In (k', v') fro -> affects k' v' b -> k' = k) ->
  exists new, assoc b to' = Some new /\ effect c b k v (assoc b to) new.
Proof.
  intros c to fro to' b k v H ND Hin HA HO. pose proof (merge_dicts_effects _ _ _ _ H b) as E. clear H.
  revert E. generalize (assoc b to) as o. generalize (assoc b to') as o'. intros o' o E.
  revert ND Hin HO. induction E as [o|k1 v1 rest o o' HN E IH|k1 v1 rest o new o' HA1 HE E IH]; intros ND Hin HO.
  - destruct Hin.
  - cbn [map fst] in ND. inversion ND; subst. apply IH; [assumption| |].
    + destruct Hin as [e|Hin]; [inversion e; subst; contradiction|exact Hin].
    + intros. eapply HO; [right; eassumption|assumption].
  - cbn [map fst] in ND. inversion ND as [|? ? Hnot ND']; subst.
    assert (k1 = k) by (apply (HO k1 v1); [left; reflexivity|exact HA1]). subst k1.
    assert (v1 = v). { destruct Hin as [e|Hin]; [congruence|]. exfalso. apply Hnot. change k with (fst (k, v)). apply in_map. exact Hin. }
    subst v1. exists new. split; [|exact HE]. eapply effects_none; [exact E|]. intros k' v' Hin' HA'.
    apply Hnot. rewrite <- (HO k' v' (or_intror Hin') HA'). change k' with (fst (k', v')). apply in_map. exact Hin'.
Qed.
Theorem merge_untouched : forall c to fro to' b, merge_dicts c to fro = Val to' ->
  (forall k v, In (k, v) fro -> ~ affects k v b) -> assoc b to' = assoc b to.
Proof. intros c to fro to' b H HN. eapply effects_none; [apply merge_dicts_effects; exact H|exact HN]. Qed.

(** ** Failures *)
Lemma loop_app : forall c fk l1 l2 to, dict_loop c fk (l1 ++ l2)%list to = rbind (dict_loop c fk l1 to) (dict_loop c fk l2).
Proof.
  intros c fk l1. induction l1 as [|[k v] l1 IH]; intros l2 to; [reflexivity|].
  cbn [app]. rewrite !dict_loop_cons. destruct (merge_entry c fk k v (merge c v) to); cbn [rbind]; [apply IH|reflexivity].
Qed.
Lemma loop_split : forall c fk l1 k v l2 to to', dict_loop c fk (l1 ++ (k, v) :: l2)%list to = Val to' ->
  exists t1 t2, dict_loop c fk l1 to = Val t1 /\ merge_entry c fk k v (merge c v) t1 = Val t2.
Proof.
  intros c fk l1 k v l2 to to' H. rewrite loop_app in H. destruct (dict_loop c fk l1 to) as [t1|e]; [|discriminate].
  cbn [rbind] in H. rewrite dict_loop_cons in H. destruct (merge_entry c fk k v (merge c v) t1) as [t2|e] eqn:E; [|discriminate].
  eauto.
Qed.

Lemma incompatible_in : forall c fk k l p b to to' i, merge_entry c fk k (VList l) (merge c (VList l)) to = Val to' ->
  list_policy k = Some (p, b) -> In i (incompatible_keys p b) -> ~ In i fk.
Proof.
  intros c fk k l p b to to' i H EP Hi Hin. unfold merge_entry in H. rewrite EP in H. cbv zeta in H.
  destruct (match assoc k to with Some old => bad_merge (VList l) old | None => false end); [discriminate|].
  destruct (find (fun i => mem i fk) (incompatible_keys p b)) as [j|] eqn:E; [discriminate|].
  eapply find_none in E; [|exact Hi]. cbn in E. apply mem_false in E. contradiction.
Qed.

Theorem merge_contradictory : forall c to fro b s1 s2 l, contradictory s1 s2 ->
  In (b ++ s1, VList l) fro -> In (b ++ s2) (map fst fro) -> forall to', merge_dicts c to fro <> Val to'.
Proof.
  intros c to fro b s1 s2 l HC H1 H2 to' H. rewrite merge_dicts_eq in H.
  apply in_split in H1. destruct H1 as (l1 & l2 & E). rewrite E in H at 2.
  apply loop_split in H. destruct H as (t1 & t2 & _ & H).
  destruct (list_policy_suffix b) as (P1 & P2 & P3). unfold contradictory in HC.
  cbn [In] in HC.
  destruct HC as [e|[e|[e|[e|[e|[]]]]]]; inversion e; subst s1 s2; rewrite ?append_nil_r in H2;
    (eapply incompatible_in in H; [exact (H H2)|eassumption|cbn; tauto]).
Qed.

Lemma entry_kind : forall c fk k v to to' b o, merge_entry c fk k v (merge c v) to = Val to' -> assoc b to = Some o ->
  (exists o', assoc b to' = Some o' /\ kind_of o' = kind_of o) \/ (k = b ++ "=" /\ kind_of v = KList).
Proof.
  intros c fk k v to to' b o H HO. pose proof (merge_entry_result _ _ _ _ _ _ H) as R.
  destruct (entry_key _ _ _ _ _ b R) as [(HA & new & HE & E1)|(HN & E1)].
  - rewrite HO in HE. destruct v as [s|z|l|d|cl]; cbn [affects effect] in *.
    + subst b new. left. exists (VStr (if is_path_section (c_path_sections c) k then
         make_path_relative (c_realpath c) (c_to_file c) (c_fro_file c) s else s)). split; [exact E1|].
      unfold merge_entry in H. rewrite HO in H. destruct o; try discriminate; reflexivity.
    + subst b new. left. exists (VInt z). split; [exact E1|].
      unfold merge_entry in H. rewrite HO in H. destruct o; try discriminate; reflexivity.
    + destruct HE as [(-> & _)|[(-> & l0 & l' & [Hl|(Hl & _)] & _ & ->)|[(-> & [He|(He & _)])|(-> & l0 & l' & [Hl|(Hl & _)] & _ & ->)]]].
      * right. split; reflexivity.
      * left. exists (VList l'). split; [exact E1|]. inversion Hl. reflexivity.
      * discriminate.
      * left. exists new. split; [exact E1|]. congruence.
      * discriminate.
      * left. exists (VList l'). split; [exact E1|]. inversion Hl. reflexivity.
      * discriminate.
    + destruct HE as (d0 & d' & [Hd|(Hd & _)] & _ & ->); [|discriminate]. left. exists (VDict d'). split; [exact E1|].
      inversion Hd. reflexivity.
    + destruct HE.
  - left. exists o. split; [congruence|reflexivity].
Qed.

Lemma loop_kind : forall c fk es to to' b o, dict_loop c fk es to = Val to' -> assoc b to = Some o ->
  (exists o', assoc b to' = Some o' /\ kind_of o' = kind_of o) \/ (exists l, In (b ++ "=", VList l) es).
Proof.
  intros c fk es. induction es as [|[k v] es IH]; intros to to' b o H HO.
  - cbn in H. inversion H; subst. left. eauto.
  - rewrite dict_loop_cons in H. destruct (merge_entry c fk k v (merge c v) to) as [t1|e] eqn:E; [|discriminate].
    cbn [rbind] in H. destruct (entry_kind _ _ _ _ _ _ _ _ E HO) as [(o1 & H1 & K1)|(-> & K)].
    + destruct (IH t1 to' b o1 H H1) as [(o2 & H2 & K2)|(l & Hl)].
      * left. exists o2. split; [exact H2|congruence].
      * right. exists l. right. exact Hl.
    + right. destruct v as [| |l| |]; try discriminate. exists l. left. reflexivity.
Qed.
Theorem merge_kinds : forall c to fro to' b o, merge_dicts c to fro = Val to' -> assoc b to = Some o ->
  (forall l, ~ In (b ++ "=", VList l) fro) -> exists o', assoc b to' = Some o' /\ kind_of o' = kind_of o.
Proof.
  intros c to fro to' b o H HO HN. rewrite merge_dicts_eq in H. destruct (loop_kind _ _ _ _ _ _ _ H HO) as [HK|(l & Hl)]; [exact HK|].
  exfalso. exact (HN l Hl).
Qed.

(** Existing keys never disappear. *)
Theorem merge_mismatch : forall c to fro b v o, In (b, v) fro -> assoc b to = Some o -> kind_of v <> kind_of o ->
  forall to', merge_dicts c to fro <> Val to'.
Proof.
  intros c to fro b v o Hin HO HK to' H.
  assert (HE : forall l, ~ In (b ++ "=", VList l) fro).
  { intros l Hl. apply (merge_contradictory c to fro b "=" "" l) with (to' := to'); [left; reflexivity|exact Hl| |exact H].
    rewrite append_nil_r. change b with (fst (b, v)). apply in_map. exact Hin. }
  rewrite merge_dicts_eq in H. apply in_split in Hin. destruct Hin as (l1 & l2 & E). rewrite E in H at 2.
  apply loop_split in H. destruct H as (t1 & t2 & L & M).
  destruct (loop_kind _ _ _ _ _ _ _ L HO) as [(o1 & H1 & K1)|(l & Hl)].
  - unfold merge_entry in M. rewrite H1 in M.
    assert (B : bad_merge v o1 = true) by (destruct v, o1, o; cbn in *; congruence). rewrite B in M. discriminate.
  - apply (HE l). rewrite E. apply in_app_iff. left. exact Hl.
Qed.
Theorem merge_other : forall c to fro k cl to', In (k, VOther cl) fro -> merge_dicts c to fro <> Val to'.
Proof.
  intros c to fro k cl to' Hin H. rewrite merge_dicts_eq in H. apply in_split in Hin. destruct Hin as (l1 & l2 & E). rewrite E in H at 2.
  apply loop_split in H. destruct H as (t1 & t2 & _ & M). unfold merge_entry in M.
  destruct (match assoc k t1 with Some old => bad_merge (VOther cl) old | None => false end); discriminate.
Qed.
Theorem merge_list_other : forall c ip ap to fro cl r, In (VOther cl) fro -> merge_lists c ip ap to fro <> Val r.
Proof.
  intros c ip ap to fro cl r Hin H. apply merge_members in H. destruct H as (copies & F & _).
  induction F as [|item ci fro copies Hc F IH]; [destruct Hin|]. destruct Hin as [->|Hin]; [destruct Hc|auto].
Qed.
