(** Proofs about toolset expansion. *)
From Verif Require Import LibFacts StrFacts Model_Value Model_Filter Model_Toolset Spec_Toolset Spec_Merge Proof_Merge2 Proof_Filter Proof_Filter2.
Local Open Scope string_scope.

Lemma has_key_In : forall B k (d : list (string * B)), has_key k d = true <-> In k (map fst d).
Proof. intros B k d. unfold has_key. apply mem_In. Qed.

Lemma for_toolset_set : forall t ts, for_toolset t ts (VDict (set_key "toolset" ts (del_key "toolsets" t))).
Proof.
  intros t ts. eexists. split; [reflexivity|]. split; [apply assoc_set_same|]. split.
  - intros Hin. rewrite set_key_keys in Hin. apply in_app_iff in Hin. destruct Hin as [Hin|Hin].
    + assert (N : assoc "toolsets" (del_key "toolsets" t) = None) by apply assoc_del_same. apply assoc_None in N. contradiction.
    + destruct (mem _ _); [destruct Hin|]. destruct Hin as [E|[]]. discriminate.
  - intros k H1 H2. rewrite assoc_set_other by congruence. apply assoc_del_other. congruence.
Qed.

Lemma expand_target_spec : forall m t copies, toolsets_are_lists t -> expand_target m t = Val copies -> replaces m t copies.
Proof.
  intros m t copies HT H. destruct t as [s|z|l|d|c]; try discriminate. cbn [expand_target] in H. exists d. split; [reflexivity|].
  destruct (has_key "toolset" d && negb (has_key "toolsets" d)) eqn:E.
  - inversion H; subst. left. apply andb_prop in E. destruct E as [E1 E2]. apply has_key_In in E1. split; [exact E1|]. split; [|reflexivity].
    intros Hin. apply has_key_In in Hin. rewrite Hin in E2. discriminate.
  - right. split.
    + intros [H1 H2]. apply has_key_In in H1. rewrite H1 in E. cbn in E. destruct (has_key "toolsets" d) eqn:E2; [|discriminate].
      apply H2. apply has_key_In. exact E2.
    + assert (G : forall wanted, requested m d wanted ->
        copies = match wanted with [] => [] | first :: others => (map (fun b => VDict (set_key "toolset" b (del_key "toolsets" d))) others ++ [VDict (set_key "toolset" first (del_key "toolsets" d))])%list end ->
        exists wanted order, requested m d wanted /\ Permutation wanted order /\ Forall2 (for_toolset d) order copies).
      { intros wanted HR ->. destruct wanted as [|first others]; [exists [], []; repeat split; [exact HR|constructor|constructor]|].
        exists (first :: others), (others ++ [first])%list. split; [exact HR|]. split; [apply Permutation_cons_append|].
        apply Forall2_app; [|repeat constructor; apply for_toolset_set].
        clear. induction others as [|b others IH]; [constructor|]. cbn. constructor; [apply for_toolset_set|exact IH]. }
      destruct m.
      * destruct (assoc "toolsets" d) as [v|] eqn:EA.
        -- destruct v as [s|z|l|dd|c]; try discriminate.
           ++ exfalso. exact (proj1 (HT s) EA).
           ++ eapply G; [left; exact EA|inversion H; reflexivity].
           ++ destruct dd; [|discriminate]. exfalso. exact (proj2 (HT "") EA).
        -- eapply G; [right; split; [apply assoc_None; exact EA|reflexivity]|inversion H; reflexivity].
      * eapply G; [reflexivity|inversion H; reflexivity].
Qed.

Theorem process_toolsets_expanded : forall m fuel d d', good_toolsets fuel d ->
  process_toolsets m fuel d = Val d' -> expanded m d d'.
Proof.
  intros m. induction fuel as [|fuel IH]; intros d d' G H; [discriminate|]. destruct G as [G1 G2]. cbn [process_toolsets] in H.
  apply rbind_Val in H. destruct H as (d1 & H1 & H).
  assert (P1 : map fst d1 = map fst d /\ (forall k, k <> "targets" -> assoc k d1 = assoc k d) /\
    forall v, assoc "targets" d = Some v -> exists l groups, v = VList l /\ Forall2 (replaces m) l groups /\ assoc "targets" d1 = Some (VList (concat groups))).
  { destruct (assoc "targets" d) as [v|] eqn:EA.
    - destruct v as [s|z|l|dd|c]; try discriminate. apply rbind_Val in H1. destruct H1 as (ls & H1 & E). inversion E; subst d1. clear E.
      split; [|split].
      + rewrite set_key_keys. assert (M : mem "targets" (map fst d) = true) by (apply mem_In; apply assoc_In in EA; apply (in_map fst) in EA; exact EA). rewrite M. apply app_nil_r.
      + intros k Hk. apply assoc_set_other. congruence.
      + intros v E. inversion E; subst. exists l, ls. split; [reflexivity|]. split; [|apply assoc_set_same].
        apply rmap_Val in H1. specialize (G1 _ eq_refl). clear -H1 G1. induction H1 as [|t cs l ls H H1 IH]; [constructor|].
        inversion G1; subst. constructor; [apply expand_target_spec; assumption|auto].
    - inversion H1; subst. split; [reflexivity|]. split; [reflexivity|]. discriminate. }
  destruct P1 as (K1 & O1 & T1). 
  assert (CD : assoc "conditions" d1 = assoc "conditions" d) by (apply O1; discriminate). rewrite CD in H.
  assert (Q : forall l l', (forall c bs, In (VList (c :: bs)) l -> forall bd, In (VDict bd) bs -> good_toolsets fuel bd) ->
    rmap (fun cond => match cond with
          | VList (c0 :: branches) =>
            rbind (rmap (fun b => match b with VDict bd => rbind (process_toolsets m fuel bd) (fun bd' => Val (VDict bd')) | _ => Val b end) branches)
                  (fun branches' => Val (VList (c0 :: branches')))
          | _ => Val cond end) l = Val l' -> Forall2 (expanded_condition m) l l').
  { intros l l' HG HR. apply rmap_Val in HR. induction HR as [|cond cond' l l' HC HR IHl]; [constructor|]. constructor; [|apply IHl; intros; eapply HG; [right|]; eassumption].
    destruct cond as [s|z|[|c0 bs]|dd|c]; try (inversion HC; subst; apply ec_other; discriminate).
    apply rbind_Val in HC. destruct HC as (bs' & HB & E). inversion E; subst. apply ec_list.
    assert (HG' : forall bd, In (VDict bd) bs -> good_toolsets fuel bd) by (intros; eapply HG; [left; reflexivity|assumption]).
    clear - IH HB HG'. apply rmap_Val in HB. induction HB as [|b b' bs bs' H HB IHb]; [constructor|].
    constructor; [|apply IHb; intros; apply HG'; right; assumption].
    destruct b as [s|z|l|bd|c]; try (inversion H; subst; apply eb_other; discriminate).
    apply rbind_Val in H. destruct H as (bd' & H & E). inversion E; subst. apply eb_dict. apply IH; [apply HG'; left; reflexivity|exact H]. }
  destruct (assoc "conditions" d) as [v|] eqn:EC.
  - destruct v as [s|z|l|dd|c]; try discriminate.
    + inversion H; subst. constructor; [exact K1|intros; apply O1; assumption|exact T1|congruence|congruence].
    + apply rbind_Val in H. destruct H as (l' & HR & E). inversion E; subst d'. clear E. specialize (Q l l' (fun c bs Hin bd Hb => G2 l eq_refl c bs Hin bd Hb) HR).
      constructor.
      * rewrite set_key_keys. assert (M : mem "conditions" (map fst d1) = true) by (apply mem_In; apply assoc_In in CD; apply (in_map fst) in CD; exact CD). rewrite M, app_nil_r. exact K1.
      * intros k N1 N2. rewrite assoc_set_other by congruence. apply O1. exact N1.
      * intros v E. destruct (T1 v E) as (l0 & gs & -> & F & EE). exists l0, gs. split; [reflexivity|]. split; [exact F|]. rewrite assoc_set_other by discriminate. exact EE.
      * intros l0 E. rewrite EC in E. inversion E; subst. exists l'. split; [apply assoc_set_same|exact Q].
      * intros v HN E. rewrite EC in E. inversion E; subst. exfalso. eapply HN. reflexivity.
    + inversion H; subst. constructor; [exact K1|intros; apply O1; assumption|exact T1|congruence|congruence].
  - inversion H; subst. constructor; [exact K1|intros; apply O1; assumption|exact T1|congruence|congruence].
Qed.

(** Fuel. *)
Theorem toolsets_terminates : forall m fuel d, depth (VDict d) <= fuel -> process_toolsets m fuel d <> Exn NoFuel.
Proof.
  intros m. induction fuel as [|fuel IH]; intros d Hd; [pose proof (depth_pos (VDict d)); lia|]. apply depth_dict_le in Hd. rewrite Forall_forall in Hd.
  cbn [process_toolsets]. apply nn_bind.
  - destruct (assoc "targets" d) as [v|]; [|discriminate]. destruct v as [s|z|l|dd|c]; try discriminate. apply nn_bind; [|discriminate].
    apply rmap_nn. intros t _. destruct t as [s|z|l0|t|c]; try discriminate. unfold expand_target. destruct (_ && _); [discriminate|]. cbv zeta.
    destruct (if m then _ else _) as [s|z|l0|dd|c]; try discriminate. destruct dd; discriminate.
  - intros d1 H1. assert (E : assoc "conditions" d1 = assoc "conditions" d).
    { destruct (assoc "targets" d) as [v|]; [|inversion H1; reflexivity]. destruct v as [s|z|l|dd|c]; try discriminate.
      apply rbind_Val in H1. destruct H1 as (ls & _ & H1). inversion H1. apply assoc_set_other. discriminate. }
    rewrite E. destruct (assoc "conditions" d) as [v|] eqn:EC; [|discriminate]. apply assoc_In in EC. apply Hd in EC. cbn [snd] in EC.
    destruct v as [s|z|l|dd|c]; try discriminate. apply nn_bind; [|discriminate]. destruct fuel as [|f1]; [pose proof (depth_pos (VList l)); lia|].
    apply depth_list_le in EC. rewrite Forall_forall in EC. apply rmap_nn. intros cond Hc. apply EC in Hc.
    destruct cond as [s|z|[|c0 bs]|dd|c]; try discriminate. apply nn_bind; [|discriminate].
    destruct f1 as [|f2]; [pose proof (depth_pos (VList (c0 :: bs))); lia|]. apply depth_list_le in Hc. rewrite Forall_forall in Hc.
    apply rmap_nn. intros b Hb. destruct b as [s|z|l0|bd|c]; try discriminate. apply nn_bind; [|discriminate]. apply IH.
    assert (depth (VDict bd) <= f2) by (apply Hc; right; exact Hb). lia.
Qed.

(** Idempotence. *)
Lemma copy_fixed : forall m t b, expand_target m (VDict (set_key "toolset" b (del_key "toolsets" t))) = Val [VDict (set_key "toolset" b (del_key "toolsets" t))].
Proof.
  intros m t b. cbn [expand_target].
  assert (K1 : has_key "toolset" (set_key "toolset" b (del_key "toolsets" t)) = true)
    by (apply has_key_spec; rewrite assoc_set_same; discriminate).
  assert (K2 : has_key "toolsets" (set_key "toolset" b (del_key "toolsets" t)) = false).
  { destruct (has_key "toolsets" (set_key "toolset" b (del_key "toolsets" t))) eqn:K; [|reflexivity].
    apply has_key_spec in K. exfalso. apply K. rewrite assoc_set_other by discriminate. apply assoc_del_same. }
  rewrite K1, K2. reflexivity.
Qed.
Lemma expand_target_fixed : forall m m' t cs, expand_target m t = Val cs -> Forall (fun x => expand_target m' x = Val [x]) cs.
Proof.
  intros m m' t cs H. destruct t as [s|z|l|d|c]; try discriminate. cbn [expand_target] in H.
  destruct (has_key "toolset" d && negb (has_key "toolsets" d)) eqn:E.
  - inversion H; subst. constructor; [|constructor]. cbn [expand_target]. rewrite E. reflexivity.
  - assert (G : forall l, Forall (fun x => expand_target m' x = Val [x])
      match l with [] => [] | first :: others => (map (fun b => VDict (set_key "toolset" b (del_key "toolsets" d))) others ++ [VDict (set_key "toolset" first (del_key "toolsets" d))])%list end).
    { intros [|f o]; [constructor|]. apply Forall_app. split; [|repeat constructor; apply copy_fixed].
      induction o as [|b o IH]; cbn; constructor; [apply copy_fixed|exact IH]. }
    cbv zeta in H. destruct (if m then _ else _) as [s|z|l|dd|c]; try discriminate; try (inversion H; subst; apply G).
    destruct dd; [|discriminate]. inversion H. constructor.
Qed.
Lemma rmap_singles : forall A B (f : A -> result (list B)) (g : A -> B) l, Forall (fun x => f x = Val [g x]) l -> exists ls, rmap f l = Val ls /\ concat ls = map g l.
Proof.
  intros A B f g l F. induction F as [|x l H F (ls & E & C)]; [exists []; auto|]. exists ([g x] :: ls). cbn. rewrite H. cbn. rewrite E. cbn. rewrite C. auto.
Qed.
Lemma set_key_id : forall B k (v : B) d, assoc k d = Some v -> set_key k v d = d.
Proof.
  intros B k v d. induction d as [|[k' v'] d IH]; intros H; [discriminate|]. cbn [assoc set_key] in *. destruct (String.eqb_spec k k') as [->|n]; [congruence|]. rewrite IH by exact H. reflexivity.
Qed.
Theorem toolsets_twice : forall m m' fuel d d', process_toolsets m fuel d = Val d' -> process_toolsets m' fuel d' = Val d'.
Proof.
  intros m m'. induction fuel as [|fuel IH]; intros d d' H; [discriminate|]. cbn [process_toolsets] in H.
  apply rbind_Val in H. destruct H as (d1 & H1 & H).
  assert (T : match assoc "targets" d1 with None => Val d1
     | Some (VList l) => rbind (rmap (expand_target m') l) (fun ls => Val (set_key "targets" (VList (concat ls)) d1)) | Some _ => Exn (TypeError "targets is not a list") end = Val d1 /\
     match assoc "targets" d1 with Some (VList l) => rbind (rmap (expand_target m') l) (fun ls => Val (VList (concat ls))) = Val (VList l) | _ => True end).
  { destruct (assoc "targets" d) as [v|] eqn:EA.
    - destruct v as [s|z|l|dd|c]; try discriminate. apply rbind_Val in H1. destruct H1 as (ls & H1 & E). inversion E; subst d1. clear E. rewrite assoc_set_same.
      assert (F : Forall (fun x => expand_target m' x = Val [x]) (concat ls)).
      { apply rmap_Val in H1. clear - H1. induction H1 as [|t cs l ls H H1 IH]; [constructor|]. cbn. apply Forall_app. split; [eapply expand_target_fixed; exact H|exact IH]. }
      destruct (rmap_singles _ _ (expand_target m') (fun x => x) _ F) as (ls' & E1 & E2). rewrite map_id in E2. rewrite E1. cbn [rbind]. rewrite E2, set_key_twice. auto.
    - inversion H1; subst. rewrite EA. auto. }
  destruct T as [T1 T2].
  assert (CT : forall conds', assoc "targets" (set_key "conditions" (VList conds') d1) = assoc "targets" d1) by (intros; apply assoc_set_other; discriminate).
  destruct (assoc "conditions" d1) as [v|] eqn:EC.
  - destruct v as [s|z|l|dd|c]; try discriminate;
      try (assert (E : d1 = d') by (inversion H; reflexivity); rewrite <- E; cbn [process_toolsets]; refine (eq_trans (f_equal (fun r => rbind r _) T1) _); cbn [rbind]; rewrite EC; reflexivity).
    apply rbind_Val in H. destruct H as (l' & HR & E). inversion E; subst d'. clear E. cbn [process_toolsets]. rewrite CT.
    assert (X : (match assoc "targets" d1 with None => Val (set_key "conditions" (VList l') d1)
     | Some (VList l) => rbind (rmap (expand_target m') l) (fun ls => Val (set_key "targets" (VList (concat ls)) (set_key "conditions" (VList l') d1))) | Some _ => Exn (TypeError "targets is not a list") end) = Val (set_key "conditions" (VList l') d1)).
    { destruct (assoc "targets" d1) as [v|] eqn:ET; [|reflexivity]. destruct v as [s|z|lt|dd|c]; try discriminate T1.
      destruct (rmap (expand_target m') lt) as [ls|e]; [|discriminate]. cbn [rbind] in *. inversion T2 as [E]. rewrite E.
      rewrite set_key_id; [reflexivity|]. rewrite CT. reflexivity. }
    refine (eq_trans (f_equal (fun r => rbind r _) X) _). cbn [rbind]. rewrite assoc_set_same.
    assert (R : rmap (fun cond => match cond with
          | VList (c0 :: branches) =>
            rbind (rmap (fun b => match b with VDict bd => rbind (process_toolsets m' fuel bd) (fun bd' => Val (VDict bd')) | _ => Val b end) branches)
                  (fun branches' => Val (VList (c0 :: branches')))
          | _ => Val cond end) l' = Val l').
    { apply rmap_Val. apply rmap_Val in HR. clear - HR IH. induction HR as [|cond cond' l l' HC HR IHl]; [constructor|]. constructor; [|exact IHl].
      destruct cond as [s|z|[|c0 bs]|dd|c]; try (inversion HC; subst; reflexivity).
      apply rbind_Val in HC. destruct HC as (bs' & HB & E). inversion E; subst. 
      assert (Y : rmap (fun b => match b with VDict bd => rbind (process_toolsets m' fuel bd) (fun bd' => Val (VDict bd')) | _ => Val b end) bs' = Val bs').
      { apply rmap_Val. apply rmap_Val in HB. clear - HB IH. induction HB as [|b b' bs bs' H HB IHb]; constructor; [|exact IHb].
        destruct b as [s|z|l|bd|c]; try (inversion H; subst; reflexivity). apply rbind_Val in H. destruct H as (bd' & H & E). inversion E; subst.
        rewrite (IH _ _ H). reflexivity. }
      rewrite Y. reflexivity. }
    rewrite R. cbn [rbind]. rewrite set_key_twice. reflexivity.
  - assert (E : d1 = d') by (inversion H; reflexivity). rewrite <- E. cbn [process_toolsets]. refine (eq_trans (f_equal (fun r => rbind r _) T1) _). cbn [rbind]. rewrite EC. reflexivity.
Qed.

(** Success for data of the expected shape. *)
Lemma expand_target_dict : forall m t, match assoc "toolsets" t with None | Some (VList _) => True | _ => False end -> exists cs, expand_target m (VDict t) = Val cs.
Proof.
  intros m t H. cbn [expand_target]. destruct (_ && _); [eauto|]. cbv zeta. destruct m; [|eauto]. destruct (assoc "toolsets" t) as [[]|]; try destruct H; eauto.
Qed.
Lemma string_toolsets_letters : exists t, expand_target true (VDict t) = Val [VDict [("target_name", VStr "t"); ("toolset", VStr "b")]; VDict [("target_name", VStr "t"); ("toolset", VStr "a")]]
  /\ assoc "toolsets" t = Some (VStr "ab").
Proof. exists [("target_name", VStr "t"); ("toolsets", VStr "ab")]. split; reflexivity. Qed.
