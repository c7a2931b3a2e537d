(** Copies, successful merges, path sections. *)
From Verif Require Import LibFacts Str StrFacts Model_Path Model_Value Model_Merge Spec_Merge Proof_Merge Proof_Merge2.
Local Open Scope string_scope.

Section ValueInd.
  Variable P : value -> Prop.
  Hypothesis HS : forall s, P (VStr s).
  Hypothesis HI : forall z, P (VInt z).
  Hypothesis HL : forall l, Forall P l -> P (VList l).
  Hypothesis HD : forall d, Forall (fun e => P (snd e)) d -> P (VDict d).
  Hypothesis HO : forall c, P (VOther c).
  Fixpoint value_nested_ind (v : value) : P v :=
    match v with
    | VStr s => HS s
    | VInt z => HI z
    | VList l => HL l ((fix go (l : list value) : Forall P l :=
        match l with [] => Forall_nil _ | x :: l' => Forall_cons _ (value_nested_ind x) (go l') end) l)
    | VDict d => HD d ((fix go (d : list (string * value)) : Forall (fun e => P (snd e)) d :=
        match d with [] => Forall_nil _ | x :: d' => Forall_cons x (value_nested_ind (snd x)) (go d') end) d)
    | VOther c => HO c
    end.
End ValueInd.

Definition once (v : value) : bool :=
  match v with VStr s => negb (starts_dash s) | VInt _ => true | _ => false end.
Lemma once_spec : forall v, once v = true <-> once_only v.
Proof.
  intros [s|z|l|d|cl]; cbn [once once_only]; try (split; [discriminate|intros []]); [|tauto].
  destruct s as [|a s]; cbn [starts_dash negb].
  - split; [intros _ (s' & H); discriminate|reflexivity].
  - destruct (Ascii.eqb_spec a "-") as [->|n]; cbn [negb].
    + split; [discriminate|]. intros H. exfalso. apply H. exists s. reflexivity.
    + split; [intros _ (s' & H); inversion H; congruence|reflexivity].
Qed.

Lemma new_items_id : forall l e,
  (forall l1 x l2, l = (l1 ++ x :: l2)%list -> once x = true -> ~ In x e /\ ~ In x l1) ->
  new_items e (map (fun x => (x, once x)) l) l.
Proof.
  induction l as [|x l IH]; intros e H; [constructor|]. cbn [map].
  assert (N : new_items (x :: e) (map (fun x => (x, once x)) l) l).
  { apply IH. intros l1 y l2 E Hy. destruct (H (x :: l1) y l2) as [H1 H2]; [rewrite E; reflexivity|exact Hy|].
    split; [intros [<-|Hin]; [apply H2; left; reflexivity|contradiction]|intros Hin; apply H2; right; exact Hin]. }
  destruct (once x) eqn:E; [|apply new_many; exact N].
  apply new_keep; [|exact N]. apply (H [] x l eq_refl E).
Qed.

Lemma same_file_move : forall c s, c_to_file c = c_fro_file c -> move_path c s = s.
Proof. intros c s H. unfold move_path, make_path_relative. rewrite H, String.eqb_refl. reflexivity. Qed.

Lemma set_key_new : forall B k (v : B) d, ~ In k (map fst d) -> set_key k v d = (d ++ [(k, v)])%list.
Proof.
  intros B k v d. induction d as [|[k' v'] d IH]; intros H; [reflexivity|]. cbn [set_key map fst] in *.
  destruct (String.eqb_spec k k') as [->|n]; [exfalso; apply H; left; reflexivity|]. cbn [app]. rewrite IH; [reflexivity|].
  intros Hin. apply H. right. exact Hin.
Qed.

Lemma copy_exact : forall c, c_to_file c = c_fro_file c -> forall v, copies_exactly v ->
  match v with
  | VList l => forall ip, merge c (VList l) ip true (VList []) = Val (VList l)
  | VDict d => merge c (VDict d) false true (VDict []) = Val (VDict d)
  | _ => True
  end.
Proof.
  intros c HF v. induction v as [s|z|l IH|d IH|cl] using value_nested_ind; intros HC; try exact I.
  - intros ip. inversion HC as [| |l0 Hall Hrep|]; subst.
    assert (F : Forall2 (fun item ci => copy_item c ip (merge c item) item = Val ci) l (map (fun x => (x, once x)) l)).
    { clear HC Hrep. induction l as [|x l IHl]; [constructor|]. inversion IH as [|? ? Px Pl]; inversion Hall as [|? ? Cx Cl]; subst.
      constructor; [|apply IHl; assumption]. specialize (Px Cx).
      destruct x as [s|z|l1|d1|cl]; cbn [copy_item once].
      - destruct ip; [rewrite same_file_move by exact HF|]; reflexivity.
      - unfold move_int. rewrite HF, String.eqb_refl. destruct ip; reflexivity.
      - rewrite Px. reflexivity.
      - rewrite Px. reflexivity.
      - inversion Cx. }
    apply merge_as_lists. exists l. split; [|reflexivity]. rewrite merge_lists_eq.
    assert (E : list_loop c ip true l ([], filter is_hashable [], 0) =
                Val (fold_left (add_item true) (map (fun x => (x, once x)) l) ([], filter is_hashable [], 0))).
    { apply list_loop_spec. eauto. }
    rewrite E. cbn [rbind].
    destruct (append_loop (map (fun x => (x, once x)) l) [] (filter is_hashable []) 0) as (added & s' & n' & E' & N).
    + eapply copies_good. apply copy_items_of. exact F.
    + intros x _. cbn. tauto.
    + rewrite E'. cbn. f_equal. eapply new_items_det; [exact N|]. apply new_items_id.
      intros l1 x l2 El Hx. split; [intros []|]. eapply Hrep; [exact El|apply once_spec; exact Hx].
  - inversion HC as [| | |d0 Hall ND HK]; subst.
    apply merge_as_dicts. exists d. split; [|reflexivity]. rewrite merge_dicts_eq.
    assert (G : forall es done, d = (done ++ es)%list -> dict_loop c (map fst d) es done = Val d).
    { induction es as [|[k v] es IHes]; intros done E; [rewrite app_nil_r in E; rewrite E; reflexivity|].
      rewrite dict_loop_cons.
      assert (Hin : In (k, v) d) by (rewrite E; apply in_app_iff; right; left; reflexivity).
      assert (Hnot : ~ In k (map fst done)).
      { rewrite E, map_app in ND. cbn [map fst] in ND. apply NoDup_remove_2 in ND. intros H. apply ND. apply in_app_iff. left. exact H. }
      assert (Hv : copies_exactly v) by (rewrite Forall_forall in Hall; apply (Hall (k, v) Hin)).
      assert (Pv := proj1 (Forall_forall _ _) IH (k, v) Hin Hv). cbn [snd] in Pv.
      assert (A : assoc k done = None) by (apply assoc_None; exact Hnot).
      assert (M : merge_entry c (map fst d) k v (merge c v) done = Val (done ++ [(k, v)])%list).
      { unfold merge_entry. rewrite A. destruct v as [s|z|l|d1|cl].
        - destruct (is_path_section (c_path_sections c) k); [rewrite same_file_move by exact HF|]; rewrite set_key_new by exact Hnot; reflexivity.
        - unfold move_int. rewrite HF, String.eqb_refl.
          destruct (is_path_section (c_path_sections c) k); cbn [rbind]; rewrite set_key_new by exact Hnot; reflexivity.
        - destruct (HK k l Hin) as (K0 & K1 & K2 & K3 & K4 & K5). rewrite (list_policy_plain k K0 K1 K2 K3). cbv zeta.
          cbn [incompatible_keys find]. apply mem_false in K4. apply mem_false in K5. rewrite K4, K5, A.
          rewrite Pv. cbn [rbind]. rewrite set_key_new by exact Hnot. reflexivity.
        - rewrite Pv. cbn [rbind]. rewrite set_key_new by exact Hnot. reflexivity.
        - inversion Hv. }
      rewrite M. cbn [rbind]. apply IHes. rewrite <- app_assoc. exact E. }
    apply G. reflexivity.
Qed.

Theorem copy_dict_exact : forall c d, c_to_file c = c_fro_file c -> copies_exactly (VDict d) -> merge_dicts c [] d = Val d.
Proof.
  intros c d HF HC. pose proof (copy_exact c HF _ HC) as H. cbn in H. apply merge_as_dicts in H.
  destruct H as (d' & H & E). inversion E; subst. exact H.
Qed.
Theorem copy_list_exact : forall c ip l, c_to_file c = c_fro_file c -> copies_exactly (VList l) -> merge_lists c ip true [] l = Val l.
Proof.
  intros c ip l HF HC. pose proof (copy_exact c HF _ HC ip) as H. apply merge_as_lists in H.
  destruct H as (d' & H & E). inversion E; subst. exact H.
Qed.

(** ** Merges that succeed *)
Definition flat (v : value) : Prop :=
  match v with VStr _ => True | VList l => forall x, In x l -> exists s, x = VStr s | _ => False end.

Lemma merge_strings : forall c ip ap l to, (forall x, In x l -> exists s, x = VStr s) -> exists r, merge_lists c ip ap to l = Val r.
Proof.
  intros c ip ap l to H. rewrite merge_lists_eq. generalize (to, filter is_hashable to, 0) as st. 
  induction l as [|x l IH]; intros st.
  - eexists. reflexivity.
  - rewrite list_loop_cons. destruct (H x (or_introl eq_refl)) as (s & ->). cbn [copy_item rbind].
    apply IH. intros. apply H. right. assumption.
Qed.

Lemma merge_strings' : forall c ip ap l to, (forall x, In x l -> exists s, x = VStr s) ->
  exists r, merge c (VList l) ip ap (VList to) = Val (VList r).
Proof. intros c ip ap l to H. destruct (merge_strings c ip ap l to H) as (r & E). exists r. apply merge_as_lists. eauto. Qed.

Definition compatible_keys (ks : list string) : Prop :=
  forall b s1 s2, contradictory s1 s2 -> In (b ++ s1) ks -> In (b ++ s2) ks -> False.

Theorem merge_flat_succeeds : forall c to fro (K : string -> kind),
  (forall k v, In (k, v) fro -> flat v /\ (kind_of v = KList -> k <> "") /\ K k = kind_of v /\ forall b, affects k v b -> K b = kind_of v) ->
  (forall b o, assoc b to = Some o -> kind_of o = K b) ->
  compatible_keys (map fst fro) ->
  exists to', merge_dicts c to fro = Val to'.
Proof.
  intros c to fro K HF HT HC. rewrite merge_dicts_eq. revert HT.
  assert (G : forall es to, incl es fro -> (forall b o, assoc b to = Some o -> kind_of o = K b) ->
              exists to', dict_loop c (map fst fro) es to = Val to'); [|intros; apply G; [apply incl_refl|assumption]].
  clear to. induction es as [|[k v] es IH]; intros to Hi HT; [eexists; reflexivity|]. rewrite dict_loop_cons.
  assert (Hin : In (k, v) fro) by (apply Hi; left; reflexivity).
  destruct (HF k v Hin) as (Fv & Hne & Kk & Kb).
  assert (M : exists t1, merge_entry c (map fst fro) k v (merge c v) to = Val t1).
  { unfold merge_entry.
    assert (B : match assoc k to with Some old => bad_merge v old | None => false end = false).
    { destruct (assoc k to) as [o|] eqn:EO; [|reflexivity]. apply HT in EO. rewrite Kk in EO. 
      destruct v, o; cbn in *; try discriminate; try reflexivity; try contradiction. }
    rewrite B. destruct v as [s|z|l|d|cl]; try contradiction.
    - eexists. reflexivity.
    - destruct (list_policy k) as [[p base]|] eqn:EP.
      2:{ exfalso. apply (Hne eq_refl). unfold list_policy in EP. destruct (last_char k) eqn:EL; [discriminate|]. apply last_char_None. exact EL. }
      pose proof (list_policy_affects k l p base EP) as HA. pose proof (list_policy_spec _ _ _ EP) as HS. cbv zeta.
      assert (Kin : In k (map fst fro)) by (change k with (fst (k, VList l)); apply in_map; exact Hin).
      assert (FN : find (fun i => mem i (map fst fro)) (incompatible_keys p base) = None).
      { destruct (find _ _) as [i|] eqn:EF; [|reflexivity]. exfalso. apply find_some in EF. destruct EF as [Ei Em]. apply mem_In in Em.
        assert (N : base ++ "" = base) by apply append_nil_r.
        destruct p; cbn [incompatible_keys In] in Ei.
        - destruct Ei as [<-|[<-|[]]]; [apply (HC base "=" "")|apply (HC base "=" "?")]; rewrite ?N; try (rewrite <- HS; exact Kin); try exact Em; cbn; tauto.
        - destruct Ei as [<-|[<-|[]]]; [apply (HC base "+" "=")|apply (HC base "+" "?")]; rewrite ?N; try (rewrite <- HS; exact Kin); try exact Em; cbn; tauto.
        - destruct Ei as [<-|[<-|[<-|[]]]]; [apply (HC base "?" "")|apply (HC base "=" "?")|apply (HC base "+" "?")]; rewrite ?N; try (rewrite <- HS; exact Kin); try exact Em; cbn; tauto.
        - destruct HS as (-> & _). destruct Ei as [<-|[<-|[]]]; [apply (HC base "=" "")|apply (HC base "?" "")]; rewrite ?N; try exact Kin; try exact Em; cbn; tauto. }
      rewrite FN.
      assert (HB : forall o, assoc base to = Some o -> exists l0, o = VList l0).
      { intros o Ho. apply HT in Ho. rewrite (Kb base HA) in Ho. destruct o; try discriminate. eauto. }
      destruct p.
      + rewrite assoc_set_same. destruct (merge_strings' c (is_path_section (c_path_sections c) base) true l [] Fv) as (r & ->). eexists. reflexivity.
      + destruct (assoc base to) as [o|] eqn:EO.
        * destruct (HB o eq_refl) as (l0 & ->). destruct (merge_strings' c (is_path_section (c_path_sections c) base) false l l0 Fv) as (r & ->). eexists. reflexivity.
        * destruct (merge_strings' c (is_path_section (c_path_sections c) base) false l [] Fv) as (r & ->). eexists. reflexivity.
      + destruct (assoc base to) as [o|] eqn:EO; [eexists; reflexivity|].
        destruct (merge_strings' c (is_path_section (c_path_sections c) base) true l [] Fv) as (r & ->). eexists. reflexivity.
      + destruct (assoc base to) as [o|] eqn:EO.
        * destruct (HB o eq_refl) as (l0 & ->). destruct (merge_strings' c (is_path_section (c_path_sections c) base) true l l0 Fv) as (r & ->). eexists. reflexivity.
        * destruct (merge_strings' c (is_path_section (c_path_sections c) base) true l [] Fv) as (r & ->). eexists. reflexivity. }
  destruct M as (t1 & M). rewrite M. cbn [rbind]. apply IH; [intros x Hx; apply Hi; right; exact Hx|].
  intros b o Ho. pose proof (merge_entry_result _ _ _ _ _ _ M) as R.
  destruct (entry_key _ _ _ _ _ b R) as [(HA & new & HE & E1)|(HN & E1)].
  - rewrite Ho in E1. inversion E1; subst new. rewrite (Kb b HA). destruct v as [s|z|l|d|cl]; try contradiction; cbn [effect] in HE.
    + rewrite HE. reflexivity.
    + destruct HE as [(_ & l' & _ & ->)|[(_ & l0 & l' & _ & _ & ->)|[(_ & [He|(_ & l' & _ & ->)])|(_ & l0 & l' & _ & _ & ->)]]]; try reflexivity.
      apply HT in He. rewrite (Kb b HA) in He. exact He.
  - apply HT. congruence.
Qed.

(** ** Path sections *)
Lemma policy_char_spec : forall a, policy_char a = true <-> In a ["="; "+"; "?"; "!"]%char.
Proof.
  intros a. unfold policy_char. rewrite existsb_exists. split.
  - intros (x & Hx & E). apply Ascii.eqb_eq in E. subst. exact Hx.
  - intros H. exists a. split; [exact H|apply Ascii.eqb_refl].
Qed.
Lemma all_policy_snoc : forall s a, all_policy s -> In a ["="; "+"; "?"; "!"]%char -> all_policy (s ++ String a "").
Proof. intros s a H Ha. induction H as [|b s Hb H IH]; cbn; [apply ap_cons; [exact Ha|apply ap_nil]|apply ap_cons; assumption]. Qed.
Lemma length_snoc : forall p a, String.length (p ++ String a "") = S (String.length p).
Proof. induction p as [|b p IH]; intros a; [reflexivity|]. cbn. rewrite IH. reflexivity. Qed.

Definition no_policy_end (s : string) : Prop := forall x, In x ["="; "+"; "?"; "!"] -> ~ ends_with s x.
Lemma no_policy_end_spec : forall s, no_policy_end s <-> match last_char s with Some a => policy_char a = false | None => True end.
Proof.
  intros s. split.
  - intros H. destruct (last_char s) as [a|] eqn:E; [|exact I]. apply last_char_Some in E.
    destruct (policy_char a) eqn:P; [|reflexivity]. exfalso. apply policy_char_spec in P.
    apply (H (String a "")); [|eexists; exact E]. cbn in P |- *. destruct P as [<-|[<-|[<-|[<-|[]]]]]; auto.
  - intros H x Hx (p & ->). cbn in Hx.
    destruct Hx as [<-|[<-|[<-|[<-|[]]]]]; rewrite last_char_snoc in H; discriminate.
Qed.
Lemma strip_policy_spec : forall fuel s, String.length s <= fuel ->
  exists suffix, s = strip_policy fuel s ++ suffix /\ all_policy suffix /\ no_policy_end (strip_policy fuel s).
Proof.
  induction fuel as [|fuel IH]; intros s Hl.
  - destruct s; [|cbn in Hl; lia]. exists "". split; [reflexivity|]. split; [constructor|].
    apply no_policy_end_spec. exact I.
  - cbn [strip_policy]. destruct (last_char s) as [a|] eqn:E.
    + destruct (policy_char a) eqn:P.
      * pose proof (last_char_Some s a E) as Hs.
        destruct (IH (drop_last s)) as (suf & E1 & E2 & E3).
        { rewrite Hs, length_snoc in Hl. lia. }
        exists (suf ++ String a ""). split; [rewrite <- append_assoc, <- E1; exact Hs|].
        split; [apply all_policy_snoc; [exact E2|apply policy_char_spec; exact P]|exact E3].
      * exists "". split; [symmetry; apply append_nil_r|]. split; [constructor|]. apply no_policy_end_spec. rewrite E. exact P.
    + exists "". split; [symmetry; apply append_nil_r|]. split; [constructor|]. apply no_policy_end_spec. rewrite E. exact I.
Qed.

(** The split of a key into a name and its policy characters is unique. *)
Lemma all_policy_snoc_inv : forall s a, all_policy (s ++ String a "") -> all_policy s /\ In a ["="; "+"; "?"; "!"]%char.
Proof.
  induction s as [|b s IH]; intros a H; cbn in H; inversion H; subst.
  - split; [constructor|assumption].
  - destruct (IH a H3) as [H4 H5]. split; [constructor; assumption|assumption].
Qed.
Lemma rev_case : forall s, s = "" \/ exists p a, s = p ++ String a "".
Proof.
  intros s. destruct (last_char s) as [a|] eqn:E.
  - right. exists (drop_last s), a. apply last_char_Some. exact E.
  - left. apply last_char_None. exact E.
Qed.
Lemma policy_split_unique : forall n s1 s2 n1 n2, String.length s1 <= n -> n1 ++ s1 = n2 ++ s2 ->
  all_policy s1 -> all_policy s2 -> no_policy_end n1 -> no_policy_end n2 -> n1 = n2.
Proof.
  induction n as [|n IH]; intros s1 s2 n1 n2 Hl E A1 A2 N1 N2.
  - destruct s1; [|cbn in Hl; lia]. rewrite append_nil_r in E. destruct (rev_case s2) as [->|(p & a & ->)].
    + rewrite append_nil_r in E. exact E.
    + exfalso. apply all_policy_snoc_inv in A2. destruct A2 as [_ Ha]. apply policy_char_spec in Ha.
      apply no_policy_end_spec in N1. rewrite E, <- append_assoc, last_char_snoc in N1. congruence.
  - destruct (rev_case s1) as [->|(p & a & ->)].
    + apply (IH "" s2 n1 n2); try assumption. cbn. lia.
    + apply all_policy_snoc_inv in A1. destruct A1 as [A1 Ha]. destruct (rev_case s2) as [->|(q & b & ->)].
      * exfalso. apply policy_char_spec in Ha. apply no_policy_end_spec in N2. rewrite append_nil_r in E.
        rewrite <- E, <- append_assoc, last_char_snoc in N2. congruence.
      * rewrite <- !append_assoc in E. apply snoc_inj in E. destruct E as [E ->].
        apply all_policy_snoc_inv in A2. destruct A2 as [A2 _]. rewrite length_snoc in Hl.
        apply (IH p q n1 n2); try assumption. lia.
Qed.

(** Endings. *)
Lemma str_length_app : forall a b, String.length (a ++ b) = String.length a + String.length b.
Proof. induction a as [|x a IH]; intros b; [reflexivity|]. cbn. rewrite IH. reflexivity. Qed.
Lemma substring_full : forall s, substring 0 (String.length s) s = s.
Proof. induction s as [|a s IH]; [reflexivity|]. cbn. rewrite IH. reflexivity. Qed.
Lemma substring_skip : forall p s m, substring (String.length p) m (p ++ s) = substring 0 m s.
Proof. induction p as [|a p IH]; intros s m; [destruct m; reflexivity|]. cbn. apply IH. Qed.
Lemma last_n_app : forall p s, last_n (String.length s) (p ++ s) = s.
Proof.
  intros p s. unfold last_n. rewrite str_length_app. replace (String.length p + String.length s - String.length s) with (String.length p) by lia.
  rewrite substring_skip. apply substring_full.
Qed.
Lemma split_at : forall n s, n <= String.length s -> exists p q, s = p ++ q /\ String.length p = n.
Proof.
  induction n as [|n IH]; intros s Hl; [exists "", s; split; reflexivity|].
  destruct s as [|a s]; [cbn in Hl; lia|]. cbn in Hl. destruct (IH s) as (p & q & E & L); [lia|].
  exists (String a p), q. split; [rewrite E; reflexivity|cbn; rewrite L; reflexivity].
Qed.
Lemma substring0_long : forall s n, String.length s <= n -> substring 0 n s = s.
Proof. induction s as [|a s IH]; intros n Hl; [destruct n; reflexivity|]. destruct n; [cbn in Hl; lia|]. cbn in *. rewrite IH; [reflexivity|lia]. Qed.
(** [last_n n s] is the ending of length min n |s|. *)
Lemma last_n_spec : forall n s, exists p, s = p ++ last_n n s /\ (String.length (last_n n s) = n \/ p = "" /\ String.length s <= n).
Proof.
  intros n s. destruct (le_lt_dec (String.length s) n) as [H|H].
  - exists "". unfold last_n. replace (String.length s - n) with 0 by lia. rewrite substring0_long by exact H. split; [reflexivity|]. right. auto.
  - destruct (split_at (String.length s - n) s) as (p & q & E & L); [lia|]. exists p.
    assert (Lq : String.length q = n) by (rewrite E, str_length_app in L, H; lia).
    unfold last_n. rewrite <- L. rewrite E at 2 3. rewrite substring_skip, <- Lq, substring_full. split; [exact E|left; reflexivity].
Qed.
Lemma app_same_length : forall a b c d, String.length b = String.length d -> a ++ b = c ++ d -> b = d.
Proof.
  intros a b c d L E. assert (La : String.length a = String.length c) by (apply (f_equal String.length) in E; rewrite !str_length_app in E; lia).
  revert c L E La. induction a as [|x a IH]; intros [|y c] L E La; cbn in *; try lia; [exact E|]. inversion E. apply (IH c); auto.
Qed.
Lemma ends_last_n : forall s e, ends_with s e <-> last_n (String.length e) s = e.
Proof.
  intros s e. split.
  - intros (p & ->). apply last_n_app.
  - intros H. destruct (last_n_spec (String.length e) s) as (p & E & _). rewrite H in E. exists p. exact E.
Qed.
Lemma ends_last_n_n : forall n s e, String.length e <= n -> (ends_with (last_n n s) e <-> ends_with s e).
Proof.
  intros n s e Hl. destruct (last_n_spec n s) as (p & E & HL). split.
  - intros (q & Hq). exists (p ++ q). rewrite append_assoc, <- Hq. exact E.
  - intros (q & Hq). destruct HL as [HL|(-> & HL)].
    + destruct (split_at (n - String.length e) (last_n n s)) as (u & w & Ew & Lu); [lia|].
      exists u. rewrite Ew. f_equal. apply (app_same_length (p ++ u) w q e).
      * rewrite Ew, str_length_app in HL. lia.
      * rewrite append_assoc, <- Ew, <- E. exact Hq.
    + cbn in E. exists q. rewrite <- E. exact Hq.
Qed.
Lemma ends_snoc : forall s e a b, ends_with (s ++ String a "") (e ++ String b "") <-> ends_with s e /\ a = b.
Proof.
  intros s e a b. split.
  - intros (p & H). rewrite <- append_assoc in H. apply snoc_inj in H. destruct H as [-> ->]. split; [exists p; reflexivity|reflexivity].
  - intros [(p & ->) ->]. exists p. rewrite append_assoc. reflexivity.
Qed.
Lemma ends_has_char : forall c s e, ends_with s e -> has_char c e = true -> has_char c s = true.
Proof. intros c s e (p & ->) H. rewrite has_char_app, H. apply orb_true_r. Qed.

Definition path_endings : list string := ["_dir"; "_dirs"; "_file"; "_files"; "_path"; "_paths"].

Lemma tail_spec : forall name,
  (let tail := last_n 6 name in
   let tail := match last_char tail with Some a => if Ascii.eqb a "s" then drop_last tail else tail | None => tail end in
   (String.eqb (last_n 5 tail) "_file" || String.eqb (last_n 5 tail) "_path") || String.eqb (last_n 4 tail) "_dir") = true <->
  exists e, In e path_endings /\ ends_with name e.
Proof.
  intros name. cbv zeta. set (t := last_n 6 name).
  assert (HT : forall e, String.length e <= 6 -> (ends_with t e <-> ends_with name e)) by (intros; apply ends_last_n_n; assumption).
  set (u := match last_char t with Some a => if Ascii.eqb a "s" then drop_last t else t | None => t end).
  assert (L : ((String.eqb (last_n 5 u) "_file" || String.eqb (last_n 5 u) "_path") || String.eqb (last_n 4 u) "_dir" = true) <->
              ends_with u "_file" \/ ends_with u "_path" \/ ends_with u "_dir").
  { rewrite !orb_true_iff, !String.eqb_eq.
    rewrite (ends_last_n u "_file"), (ends_last_n u "_path"), (ends_last_n u "_dir"). cbn [String.length]. tauto. }
  rewrite L. clear L.
  destruct (last_char t) as [a|] eqn:EL.
  - pose proof (last_char_Some t a EL) as Ht. unfold u. destruct (Ascii.eqb_spec a "s") as [->|n].
    + assert (K : forall e, ends_with (drop_last t) e <-> ends_with t (e ++ "s")).
      { intros e. rewrite Ht at 2. rewrite ends_snoc. tauto. }
      assert (J : forall e b, b <> "s"%char -> ~ ends_with t (e ++ String b "")).
      { intros e b Hb H. rewrite Ht in H. apply ends_snoc in H. destruct H as [_ H]. congruence. }
      rewrite !K. cbn [append]. split.
      * intros [H|[H|H]]; [exists "_files"|exists "_paths"|exists "_dirs"]; (split; [cbn; tauto|apply HT; [cbn; lia|exact H]]).
      * intros (e & He & H). apply HT in H; [|cbn in He; destruct He as [<-|[<-|[<-|[<-|[<-|[<-|[]]]]]]]; cbn; lia].
        cbn in He. destruct He as [<-|[<-|[<-|[<-|[<-|[<-|[]]]]]]]; try tauto; exfalso.
        -- apply (J "_di" "r"%char); [discriminate|exact H].
        -- apply (J "_fil" "e"%char); [discriminate|exact H].
        -- apply (J "_pat" "h"%char); [discriminate|exact H].
    + assert (J : forall e, ~ ends_with t (e ++ "s")).
      { intros e H. rewrite Ht in H. apply (ends_snoc (drop_last t) e a "s") in H. destruct H as [_ H]. congruence. }
      split.
      * intros [H|[H|H]]; [exists "_file"|exists "_path"|exists "_dir"]; (split; [cbn; tauto|apply HT; [cbn; lia|exact H]]).
      * intros (e & He & H). apply HT in H; [|cbn in He; destruct He as [<-|[<-|[<-|[<-|[<-|[<-|[]]]]]]]; cbn; lia].
        cbn in He. destruct He as [<-|[<-|[<-|[<-|[<-|[<-|[]]]]]]]; try tauto; exfalso.
        -- apply (J "_dir" H).
        -- apply (J "_file" H).
        -- apply (J "_path" H).
  - apply last_char_None in EL. unfold u. split.
    + rewrite EL. intros [(p & H)|[(p & H)|(p & H)]]; destruct p; discriminate.
    + intros (e & He & H). apply HT in H; [|cbn in He; destruct He as [<-|[<-|[<-|[<-|[<-|[<-|[]]]]]]]; cbn; lia].
      exfalso. rewrite EL in H. destruct H as (p & H). cbn in He.
      destruct He as [<-|[<-|[<-|[<-|[<-|[<-|[]]]]]]]; destruct p; discriminate.
Qed.

Theorem is_path_section_spec : forall ps k, is_path_section ps k = true <-> path_key ps k.
Proof.
  intros ps k. unfold is_path_section, path_key.
  destruct (strip_policy_spec (String.length k) k (le_n _)) as (suf & E & A & N). set (name := strip_policy (String.length k) k) in *.
  assert (R : (if mem name ps then true
     else if has_char underscore name then
       let tail := last_n 6 name in
       let tail := match last_char tail with Some a => if Ascii.eqb a "s" then drop_last tail else tail | None => tail end in
       if String.eqb (last_n 5 tail) "_file" || String.eqb (last_n 5 tail) "_path" then true else String.eqb (last_n 4 tail) "_dir"
     else false) = true <-> In name ps \/ exists e, In e path_endings /\ ends_with name e).
  { destruct (mem_spec name ps) as [Hm|Hm]; [split; [auto|reflexivity]|].
    destruct (has_char underscore name) eqn:EU.
    - rewrite <- tail_spec. cbv zeta.
      destruct (String.eqb _ "_file" || String.eqb _ "_path"); cbn [orb]; [tauto|]. split; [auto|intros [H|H]; [contradiction|exact H]].
    - split; [discriminate|]. intros [H|(e & He & H)]; [contradiction|]. exfalso.
      assert (has_char underscore name = true); [|congruence]. apply (ends_has_char _ _ e H).
      cbn in He. destruct He as [<-|[<-|[<-|[<-|[<-|[<-|[]]]]]]]; reflexivity. }
  cbv zeta in R |- *. rewrite R. split.
  - intros H. exists name, suf. auto.
  - intros (n2 & s2 & E2 & A2 & N2 & H). assert (name = n2) as ->; [|exact H].
    eapply (policy_split_unique (String.length suf)); [apply le_n| |exact A|exact A2|exact N|exact N2]. congruence.
Qed.
