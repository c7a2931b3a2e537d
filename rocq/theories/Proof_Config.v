(** Proofs about configurations. *)
From Verif Require Import LibFacts StrFacts Model_Path Model_Value Model_Merge Spec_Merge Proof_Merge2 Proof_Filter Proof_Filter2 Proof_Cond2 Model_Config Spec_Config.
Local Open Scope string_scope.

Lemma applied_app : forall c configs l1 l2 d d1 d2, applied c configs l1 d d1 -> applied c configs l2 d1 d2 -> applied c configs (l1 ++ l2)%list d d2.
Proof. intros c configs l1 l2 d d1 d2 H. induction H; intros H2; [exact H2|]. cbn. econstructor; eauto. Qed.

Lemma route_head : forall configs n r a, route configs n r a -> exists r', r = n :: r'.
Proof. intros configs n r a H. destruct H; eauto. Qed.

Lemma before_map : forall A B (f : A -> B) x y l, before x y l -> before (f x) (f y) (map f l).
Proof. intros A B f x y l (l1 & l2 & l3 & ->). exists (map f l1), (map f l2), (map f l3). rewrite map_app. cbn. rewrite map_app. reflexivity. Qed.
Lemma before_app_r : forall A (x y : A) l r, before x y r -> before x y (l ++ r)%list.
Proof. intros A x y l r (l1 & l2 & l3 & ->). exists (l ++ l1)%list, l2, l3. rewrite <- app_assoc. reflexivity. Qed.

Definition avoiding (configs : dict) (visited : list string) (n : string) (routes : list (list string * string)) : Prop :=
  (forall r a, In (r, a) routes <-> route configs n r a /\ NoDup r /\ forall x, In x r -> ~ In x visited) /\
  (plain_parents configs -> NoDup routes) /\
  (forall r1 r2 a b, r2 <> [] -> In ((r1 ++ r2)%list, a) routes -> In (r1, b) routes -> before ((r1 ++ r2)%list, a) (r1, b) routes) /\
  (~ In n visited -> exists ancestors, routes = (ancestors ++ [([n], n)])%list).

Lemma merge_config_routes : forall c fuel configs new n visited new', parents_listed configs ->
  merge_config c fuel configs new n visited = Val new' ->
  exists routes, avoiding configs visited n routes /\ applied c configs (map snd routes) new new'.
Proof.
  intros c. induction fuel as [|fuel IH]; intros configs new n visited new' HL H; [discriminate|]. cbn [merge_config] in H.
  destruct (mem_spec n visited) as [Hv|Hv].
  - inversion H; subst. exists []. split; [|constructor]. split; [|split; [constructor|split; [intros ? ? ? ? ? []|intros N; contradiction]]].
    intros r a. split; [intros []|]. intros (HR & _ & HD). destruct (route_head _ _ _ _ HR) as (r' & ->). apply (HD n); [left; reflexivity|exact Hv].
  - destruct (assoc n configs) as [v|] eqn:EA; [|discriminate]. destruct v as [s|z|l|cd|cl]; try discriminate.
    apply rbind_Val in H. destruct H as (ps & EP & H). apply rbind_Val in H. destruct H as (acc & EF & H).
    apply rbind_Val in H. destruct H as (merged & EM & H).
    assert (F : forall ps0 new0 acc0, rfold (fun acc p => match p with
                                     | VStr s => merge_config c fuel configs acc s (visited ++ [n])%list
                                     | VInt _ | VOther _ => Exn (KeyError "parent")
                                     | VList _ | VDict _ => Exn (TypeError "unhashable")
                                     end) ps0 new0 = Val acc0 ->
       exists names routes, ps0 = map VStr names /\ applied c configs (map snd routes) new0 acc0 /\
       (forall r a, In (r, a) routes <-> exists p, In p names /\ route configs p r a /\ NoDup r /\ forall x, In x r -> ~ In x (visited ++ [n])%list) /\
       (plain_parents configs -> NoDup names -> NoDup routes) /\
       (forall r1 r2 a b, r2 <> [] -> In ((r1 ++ r2)%list, a) routes -> In (r1, b) routes -> before ((r1 ++ r2)%list, a) (r1, b) routes)).
    { induction ps0 as [|p ps0 IHp]; intros new0 acc0 E.
      - inversion E; subst. exists [], []. split; [reflexivity|]. split; [constructor|]. split; [|split; [constructor|intros ? ? ? ? ? []]].
        intros r a. split; [intros []|intros (p & [] & _)].
      - cbn [rfold] in E. apply rbind_Val in E. destruct E as (d1 & E1 & E2). destruct p as [p|z|l|dd|cl]; try discriminate.
        destruct (IH _ _ _ _ _ HL E1) as (rp & (A1 & A2 & A3 & _) & AP). destruct (IHp _ _ E2) as (names & rs & -> & AP' & B1 & B2 & B3).
        assert (HP : forall r a, In (r, a) rp -> exists r', r = p :: r') by (intros r a Hin; apply A1 in Hin; eapply route_head; exact (proj1 Hin)).
        assert (HS : forall r a, In (r, a) rs -> exists q r', In q names /\ r = q :: r')
          by (intros r a Hin; apply B1 in Hin; destruct Hin as (q & Hq & HR & _); destruct (route_head _ _ _ _ HR) as (r' & ->); eauto).
        exists (p :: names), (rp ++ rs)%list. split; [reflexivity|]. split; [rewrite map_app; eapply applied_app; eassumption|]. split; [|split].
        + intros r a. rewrite in_app_iff, A1, B1. split.
          * intros [HR|(q & Hq & HR)]; [exists p; split; [left; reflexivity|exact HR]|exists q; split; [right; exact Hq|exact HR]].
          * intros (q & [<-|Hq] & HR); [left; exact HR|right; exists q; auto].
        + intros PP ND. inversion ND as [|? ? Hn ND']; subst. apply NoDup_app_intro; [apply A2; exact PP|apply B2; assumption|].
          intros [r a] H1 H2. destruct (HP _ _ H1) as (r' & ->). destruct (HS _ _ H2) as (q & r2 & Hq & E). inversion E; subst. contradiction.
        + intros r1 r2 a b N H1 H2. apply in_app_iff in H1. apply in_app_iff in H2.
          assert (K : (In ((r1 ++ r2)%list, a) rp /\ In (r1, b) rp) \/ (In ((r1 ++ r2)%list, a) rs /\ In (r1, b) rs)).
          { destruct H2 as [H2|H2].
            - destruct (HP _ _ H2) as (r' & ->). left. split; [|exact H2]. destruct H1 as [H1|H1]; [exact H1|].
              assert (HB := proj1 (A1 _ _) H2). destruct HB as (HR2 & _). apply B1 in H1. destruct H1 as (q & Hq & HR & NDr & Hd).
              destruct (route_head _ _ _ _ HR) as (r'' & E'). inversion E'; subst q. apply A1. auto.
            - destruct (HS _ _ H2) as (q & r' & Hq & ->). right. split; [|exact H2]. destruct H1 as [H1|H1]; [|exact H1].
              destruct (HP _ _ H1) as (r'' & E'). inversion E'; subst q. apply A1 in H1. apply B1. exists p. auto. }
          destruct K as [[K1 K2]|[K1 K2]]; [apply before_app_l, A3|apply before_app_r, B3]; assumption. }
    destruct (F _ _ _ EF) as (names & routes & -> & AP & B1 & B2 & B3). clear F.
    exists (map (fun e => (n :: fst e, snd e)) routes ++ [([n], n)])%list. split; [split; [|split; [|split]]|].
    + intros r a. rewrite in_app_iff, in_map_iff. split.
      * intros [([r' a'] & E & Hin)|[E|[]]].
        -- cbn in E. inversion E; subst. apply B1 in Hin. destruct Hin as (p & Hp & HR & ND & HD). split; [|split].
           ++ econstructor; [|exact HR]. unfold parents_of in EP. destruct (assoc "inherit_from" cd) as [v|] eqn:EI.
              ** destruct (HL _ _ _ EA EI) as (l & ->). inversion EP; subst. exists cd, (map VStr names). split; [exact EA|]. split; [exact EI|]. apply in_map. exact Hp.
              ** inversion EP. destruct names; [destruct Hp|discriminate].
           ++ constructor; [|exact ND]. intros Hin. apply (HD n Hin). apply in_app_iff. right. left. reflexivity.
           ++ intros x [<-|Hx]; [exact Hv|]. intros Hx'. apply (HD x Hx). apply in_app_iff. left. exact Hx'.
        -- inversion E; subst. split; [constructor|]. split; [repeat constructor; intros []|]. intros x [<-|[]]. exact Hv.
      * intros (HR & ND & HD). destruct HR as [n|n p r a HI HR]; [right; left; reflexivity|]. left. exists (r, a). split; [reflexivity|].
        inversion ND as [|? ? Hn ND']; subst. apply B1. exists p. split; [|split; [exact HR|split; [exact ND'|]]].
        -- destruct HI as (cd' & l & E1 & E2 & Hin). rewrite EA in E1. inversion E1; subst cd'. unfold parents_of in EP. rewrite E2 in EP. inversion EP; subst l.
           apply in_map_iff in Hin. destruct Hin as (q & Eq & Hq). inversion Eq; subst. exact Hq.
        -- intros x Hx Hin. apply in_app_iff in Hin. destruct Hin as [Hin|[<-|[]]]; [apply (HD x); [right; exact Hx|exact Hin]|contradiction].
    + intros PP. apply NoDup_app_intro; [|repeat constructor; intros []|].
      * assert (ND : NoDup routes).
        { apply B2; [exact PP|]. unfold parents_of in EP. destruct (assoc "inherit_from" cd) as [v|] eqn:EI.
          - destruct (PP _ _ _ EA EI) as (ns & -> & ND). inversion EP as [E]. 
            assert (E' : ns = names). { clear - E. revert names E. induction ns; intros [|x names] E; try discriminate; [reflexivity|]. inversion E. f_equal. auto. }
            subst. exact ND.
          - inversion EP as [E]. destruct names; [constructor|discriminate]. }
        apply FinFun.Injective_map_NoDup; [|exact ND]. intros [r1 a1] [r2 a2] E. cbn in E. inversion E. reflexivity.
      * intros [r a] H1 H2. apply in_map_iff in H1. destruct H1 as ([r' a'] & E & Hin). destruct H2 as [E2|[]]. cbn in E. inversion E; subst. inversion E2; subst.
        apply B1 in Hin. destruct Hin as (p & _ & HR & _). destruct (route_head _ _ _ _ HR) as (r' & E'). discriminate.
    + intros r1 r2 a b N H1 H2. apply in_app_iff in H1. apply in_app_iff in H2. destruct H1 as [H1|H1].
      * destruct H2 as [H2|[E|[]]].
        -- apply in_map_iff in H1. destruct H1 as ([r' a'] & E & Hin). cbn in E. apply in_map_iff in H2. destruct H2 as ([r'' b'] & E' & Hin'). cbn in E'.
           inversion E'; subst. cbn in E. inversion E; subst. apply before_app_l. cbn [app].
           change (n :: (r'' ++ r2)%list, a) with ((fun e : list string * string => (n :: fst e, snd e)) ((r'' ++ r2)%list, a)).
           change (n :: r'', b) with ((fun e : list string * string => (n :: fst e, snd e)) (r'', b)). apply before_map. apply B3; assumption.
        -- inversion E; subst. apply before_snoc. exact H1.
      * destruct H1 as [E|[]]. injection E as E0 E1. destruct r1 as [|x r1].
        -- destruct H2 as [H2|[E2|[]]]; [|discriminate]. apply in_map_iff in H2. destruct H2 as (e & E2 & _). discriminate.
        -- cbn in E0. injection E0 as E2 E3. destruct r1; [|discriminate]. destruct r2; [contradiction|discriminate].
    + intros _. eexists. reflexivity.
    + rewrite map_app, map_map. eapply applied_app; [exact AP|]. cbn [map snd]. econstructor; [exact EA|exact EM|]. inversion H; subst. constructor.
Qed.

Theorem merge_config_all_routes : forall c fuel configs new n new', parents_listed configs ->
  merge_config c fuel configs new n [] = Val new' ->
  exists routes, all_routes configs n routes /\ applied c configs (map snd routes) new new'.
Proof.
  intros c fuel configs new n new' HL H. destruct (merge_config_routes _ _ _ _ _ _ _ HL H) as (routes & (A1 & A2 & A3 & A4) & AP).
  exists routes. split; [|exact AP]. split; [|split; [exact A2|split; [exact A3|apply A4; intros []]]]. intros r a. rewrite A1. split; [tauto|]. intros [H1 H2]. repeat split; auto.
Qed.

(** Termination. *)
Lemma merge_config_nn : forall c fuel configs new n visited,
  NoDup visited -> incl visited (map fst configs) -> S (length configs) <= fuel + length visited ->
  merge_config c fuel configs new n visited <> Exn NoFuel.
Proof.
  intros c. induction fuel as [|fuel IH]; intros configs new n visited ND HI HF.
  - pose proof (NoDup_incl_length ND HI) as L. rewrite map_length in L. lia.
  - cbn [merge_config]. destruct (mem_spec n visited) as [Hv|Hv]; [discriminate|].
    destruct (assoc n configs) as [v|] eqn:EA; [|discriminate]. destruct v as [s|z|l|cd|cl]; try discriminate.
    apply nn_bind; [unfold parents_of; destruct (assoc "inherit_from" cd) as [[]|]; discriminate|]. intros ps _.
    apply nn_bind.
    + apply nn_fold. intros acc p. destruct p as [p|z|l|dd|cl]; try discriminate. apply IH.
      * apply NoDup_snoc; assumption.
      * intros x Hx. apply in_app_iff in Hx. destruct Hx as [Hx|[<-|[]]]; [apply HI; exact Hx|]. apply assoc_In in EA. apply (in_map fst) in EA. exact EA.
      * rewrite app_length. cbn [length]. lia.
    + intros acc _. apply nn_bind; [|discriminate]. apply merge_dicts_nn.
Qed.

(** Setting up the configurations. *)
Lemma suffix_In : forall a, existsb (Ascii.eqb a) key_suffixes = true <-> In (String a "") ["="; "+"; "?"; "!"; "/"].
Proof.
  intros a. rewrite existsb_exists. split.
  - intros (b & Hb & E). apply Ascii.eqb_eq in E. subst b. unfold key_suffixes in Hb. cbn [In] in *.
    destruct Hb as [<-|[<-|[<-|[<-|[<-|[]]]]]]; tauto.
  - intros H. exists a. split; [|apply Ascii.eqb_refl]. cbn [In] in H. unfold key_suffixes. cbn [In].
    destruct H as [E|[E|[E|[E|[E|[]]]]]]; inversion E; subst; tauto.
Qed.
Lemma suffix_char : forall s, In s ["="; "+"; "?"; "!"; "/"] -> exists a, s = String a "".
Proof. intros s H. cbn [In] in H. destruct H as [<-|[<-|[<-|[<-|[<-|[]]]]]]; eauto. Qed.
Lemma config_key_stays : forall reserved k, config_key reserved k = false <-> stays reserved k.
Proof.
  intros reserved k. unfold config_key. cbv zeta. rewrite negb_false_iff, mem_In. unfold stays. destruct (last_char k) as [a|] eqn:E.
  - pose proof (last_char_Some _ _ E) as Ek. destruct (existsb (Ascii.eqb a) key_suffixes) eqn:ES.
    + apply suffix_In in ES. split.
      * intros H. exists (drop_last k). split; [left; eauto|exact H].
      * intros (b & [(s & Hs & E1)|(-> & HN)] & Hb).
        -- destruct (suffix_char s Hs) as (a' & ->). rewrite E1, drop_last_snoc. exact Hb.
        -- exfalso. apply (HN _ ES). eauto.
    + split.
      * intros H. exists k. split; [|exact H]. right. split; [reflexivity|]. intros s Hs (p & E1). destruct (suffix_char s Hs) as (a' & ->).
        rewrite E1, last_char_snoc in E. inversion E; subst a'. apply suffix_In in Hs. congruence.
      * intros (b & [(s & Hs & E1)|(-> & HN)] & Hb); [|exact Hb].
        destruct (suffix_char s Hs) as (a' & ->). rewrite E1, last_char_snoc in E. inversion E; subst a'. apply suffix_In in Hs. congruence.
  - apply last_char_None in E. subst k. split.
    + intros H. exists "". split; [|exact H]. right. split; [reflexivity|]. intros s Hs (p & E1). destruct (suffix_char s Hs) as (a' & ->). destruct p; discriminate.
    + intros (b & [(s & Hs & E1)|(<- & HN)] & Hb); [|exact Hb]. destruct (suffix_char s Hs) as (a' & ->). destruct b; discriminate.
Qed.
Lemma config_key_moves : forall reserved k, config_key reserved k = true <-> ~ stays reserved k.
Proof. intros. rewrite <- config_key_stays. destruct (config_key reserved k); split; congruence. Qed.
Lemma reserved_stays : forall reserved k, In k reserved -> (forall s, In s ["="; "+"; "?"; "!"; "/"] -> ~ exists p, k = p ++ s) -> stays reserved k.
Proof. intros reserved k H1 H2. exists k. split; [right; auto|exact H1]. Qed.

Lemma sublist_filter : forall A (f : A -> bool) l, sublist (filter f l) l.
Proof. intros A f l. induction l as [|x l IH]; cbn; [constructor|]. destruct (f x); constructor; exact IH. Qed.
Lemma sublist_map : forall A B (f : A -> B) l l', sublist l l' -> sublist (map f l) (map f l').
Proof. intros A B f l l' H. induction H; cbn; constructor; assumption. Qed.

Lemma is_abstract_spec : forall v b, is_abstract v = Val b -> (b = true <-> abstract v).
Proof.
  intros v b H. destruct v as [s|z|l|d|cl]; try discriminate. cbn in H. inversion H; subst. clear H. split.
  - intros H. destruct (assoc "abstract" d) as [a|] eqn:E; [|discriminate]. exists d, a. auto.
  - intros (d' & a & E & EA & HT). inversion E; subst d'. rewrite EA. exact HT.
Qed.
Lemma concrete_spec : forall cs r, concrete_entries cs = Val r ->
  sublist r cs /\ (forall e, In e r <-> In e cs /\ ~ abstract (snd e)) /\ (forall e, In e cs -> exists cd, snd e = VDict cd).
Proof.
  induction cs as [|[k v] cs IH]; intros r H.
  - inversion H. split; [constructor|]. split; [intros e; split; [intros []|intros [[] _]]|intros e []].
  - cbn [concrete_entries] in H. apply rbind_Val in H. destruct H as (b & EB & H). apply rbind_Val in H. destruct H as (r0 & ER & H). inversion H; subst. clear H.
    destruct (IH _ ER) as (S1 & S2 & S3). pose proof (is_abstract_spec _ _ EB) as HB. split; [|split].
    + destruct b; constructor; exact S1.
    + intros e. destruct b.
      * rewrite S2. split; [intros [H1 H2]; split; [right; exact H1|exact H2]|]. intros [[<-|H1] H2]; [exfalso; apply H2; apply HB; reflexivity|auto].
      * cbn [In]. rewrite S2. split.
        -- intros [<-|[H1 H2]]; [split; [left; reflexivity|]|tauto]. cbn. rewrite <- HB. discriminate.
        -- intros [[<-|H1] H2]; [left; reflexivity|right; auto].
    + intros e [<-|He]; [|apply S3; exact He]. cbn. destruct v; try discriminate. eauto.
Qed.

Lemma merged_spec : forall c reserved fuel d all cs merged, merged_configs c reserved fuel d all cs = Val merged ->
  sublist (map fst merged) (map fst cs) /\
  (forall n, In n (map fst merged) <-> exists v, In (n, v) cs /\ ~ abstract v) /\
  (forall n nd, In (n, nd) merged -> merge_config c fuel all (filter (fun e => config_key reserved (fst e)) d) n [] = Val nd) /\
  (forall e, In e cs -> exists cd, snd e = VDict cd).
Proof.
  intros c reserved fuel d all. induction cs as [|[k v] cs IH]; intros merged H.
  - inversion H. split; [constructor|]. split; [intros e; split; [intros []|intros (? & [] & _)]|]. split; [intros ? ? []|intros ? []].
  - cbn [merged_configs] in H. apply rbind_Val in H. destruct H as (b & EB & H). pose proof (is_abstract_spec _ _ EB) as HB. 
    assert (HD : exists cd, v = VDict cd) by (destruct v; try discriminate; eauto). destruct b.
    + destruct (IH _ H) as (S1 & S2 & S3 & S4). split; [constructor; exact S1|]. split; [|split; [exact S3|intros e [<-|He]; [exact HD|auto]]].
      intros n. rewrite S2. split; [intros (w & H1 & H2); exists w; split; [right; exact H1|exact H2]|].
      intros (w & [E|H1] & H2); [inversion E; subst; exfalso; apply H2; apply HB; reflexivity|eauto].
    + apply rbind_Val in H. destruct H as (nd & EM & H). apply rbind_Val in H. destruct H as (r & ER & H). inversion H; subst. clear H.
      destruct (IH _ ER) as (S1 & S2 & S3 & S4). cbn [map fst]. split; [constructor; exact S1|]. split; [|split].
      * intros n. cbn [In]. rewrite S2. split.
        -- intros [<-|(w & H1 & H2)]; [exists v; split; [left; reflexivity|rewrite <- HB; discriminate]|exists w; split; [right; exact H1|exact H2]].
        -- intros (w & [E|H1] & H2); [inversion E; subst; left; reflexivity|right; eauto].
      * intros n nd' [E|Hin]; [inversion E; subst; exact EM|auto].
      * intros e [<-|He]; [exact HD|auto].
Qed.

Lemma merge_config_not_abstract : forall c fuel configs new n new', merge_config c fuel configs new n [] = Val new' -> assoc "abstract" new' = None.
Proof.
  intros c [|fuel] configs new n new' H; [discriminate|]. cbn [merge_config mem existsb] in H.
  destruct (assoc n configs) as [[s|z|l|cd|cl]|]; try discriminate. apply rbind_Val in H. destruct H as (ps & _ & H).
  apply rbind_Val in H. destruct H as (acc & _ & H). apply rbind_Val in H. destruct H as (m & _ & H). inversion H. apply assoc_del_same.
Qed.

Lemma put_back_keys : forall (merged : list (string * dict)) cs, incl (map fst merged) (map fst cs) ->
  map fst (fold_left (fun acc e => set_key (fst e) (VDict (snd e)) acc) merged cs) = map fst cs.
Proof.
  induction merged as [|[n nd] merged IH]; intros cs HI; [reflexivity|]. cbn [fold_left fst snd].
  assert (E : map fst (set_key n (VDict nd) cs) = map fst cs).
  { rewrite set_key_keys. destruct (mem_spec n (map fst cs)) as [H|H]; [apply app_nil_r|]. exfalso. apply H. apply HI. left. reflexivity. }
  rewrite IH; [exact E|]. rewrite E. intros x Hx. apply HI. right. exact Hx.
Qed.
Lemma put_back_assoc : forall (merged : list (string * dict)) cs n, NoDup (map fst merged) ->
  assoc n (fold_left (fun acc e => set_key (fst e) (VDict (snd e)) acc) merged cs) =
  match assoc n merged with Some nd => Some (VDict nd) | None => assoc n cs end.
Proof.
  induction merged as [|[m md] merged IH]; intros cs n ND; [reflexivity|]. inversion ND as [|? ? Hn ND']; subst. cbn [fold_left fst snd assoc].
  rewrite IH by exact ND'. destruct (String.eqb_spec n m) as [->|N].
  - assert (E : assoc m merged = None) by (apply assoc_None; exact Hn). rewrite E. apply assoc_set_same.
  - rewrite assoc_set_other by congruence. reflexivity.
Qed.

Lemma sublist_NoDup : forall A (l l' : list A), sublist l l' -> NoDup l' -> NoDup l.
Proof.
  intros A l l' H. induction H as [|x l l' H IH|x l l' H IH]; intros ND; [constructor| |]; inversion ND as [|? ? Hn ND']; subst; [|auto].
  constructor; [|auto]. intros Hin. apply Hn. clear - H Hin. induction H; [destruct Hin|destruct Hin as [<-|Hin]; [left; reflexivity|right; auto]|right; auto].
Qed.
Lemma sublist_same : forall A B (f : A -> B) (l r l' : list A), NoDup (map f l') -> sublist l l' -> sublist r l' -> (forall x, In x (map f l) <-> In x (map f r)) -> map f l = map f r.
Proof.
  intros A B f l r l' ND H. revert r. induction H as [|x l l' H IH|x l l' H IH]; intros r HR HE.
  - inversion HR. reflexivity.
  - cbn in ND. inversion ND as [|? ? Hn ND']; subst. assert (HL : forall q, sublist q l' -> ~ In (f x) (map f q)).
    { intros q Hq Hin. apply Hn. apply (sublist_map _ _ f) in Hq. clear - Hq Hin. induction Hq; [destruct Hin|destruct Hin as [<-|Hin]; [left; reflexivity|right; auto]|right; auto]. }
    inversion HR as [|? r' ? HR'|? ? ? HR']; subst.
    + cbn. f_equal. apply IH; [exact ND'|exact HR'|]. intros y. specialize (HE y). cbn in HE. split; intros Hy.
      * destruct (proj1 HE (or_intror Hy)) as [E|G]; [subst y; exfalso; exact (HL _ H Hy)|exact G].
      * destruct (proj2 HE (or_intror Hy)) as [E|G]; [subst y; exfalso; exact (HL _ HR' Hy)|exact G].
    + exfalso. apply (HL _ HR'). apply HE. left. reflexivity.
  - cbn in ND. inversion ND as [|? ? Hn ND']; subst. assert (HL : forall q, sublist q l' -> ~ In (f x) (map f q)).
    { intros q Hq Hin. apply Hn. apply (sublist_map _ _ f) in Hq. clear - Hq Hin. induction Hq; [destruct Hin|destruct Hin as [<-|Hin]; [left; reflexivity|right; auto]|right; auto]. }
    inversion HR as [|? r' ? HR'|? ? ? HR']; subst; [|apply IH; assumption].
    exfalso. apply (HL _ H). apply HE. left. reflexivity.
Qed.

Lemma no_suffix_configurations : forall k, k = "configurations" \/ k = "default_configuration" -> forall s, In s ["="; "+"; "?"; "!"; "/"] -> ~ exists p, k = p ++ s.
Proof.
  intros k Hk s Hs (p & E). destruct (suffix_char s Hs) as (a & ->). 
  assert (L : last_char k = Some a) by (rewrite E; apply last_char_snoc). apply suffix_In in Hs.
  destruct Hk as [->| ->]; inversion L; subst a; discriminate.
Qed.
Lemma assoc_filter : forall B (f : string -> bool) k (d : list (string * B)), assoc k (filter (fun e => f (fst e)) d) = if f k then assoc k d else None.
Proof.
  intros B f k d. induction d as [|[k' v] d IH]; cbn; [destruct (f k); reflexivity|]. destruct (f k') eqn:E; cbn [assoc].
  - destruct (String.eqb_spec k k') as [->|n]; [rewrite E; reflexivity|exact IH].
  - destruct (String.eqb_spec k k') as [->|n]; [rewrite E, IH, E; reflexivity|exact IH].
Qed.
Lemma filter_set_key : forall B (f : string -> bool) k (v : B) d, f k = false -> filter (fun e => f (fst e)) (set_key k v d) = filter (fun e => f (fst e)) d.
Proof.
  intros B f k v d E. induction d as [|[k' v'] d IH]; cbn [set_key filter fst]; [rewrite E; reflexivity|].
  destruct (String.eqb_spec k k') as [<-|n]; cbn [filter fst]; [rewrite E; reflexivity|]. rewrite IH. reflexivity.
Qed.

Theorem set_up_spec : forall c reserved invalid fuel d d',
  In "configurations" reserved -> In "default_configuration" reserved ->
  (forall cs, configurations_of d cs -> NoDup (map fst cs) /\ parents_listed cs) ->
  set_up_configurations c reserved invalid fuel d = Val d' -> set_up c reserved invalid d d'.
Proof.
  intros c reserved invalid fuel d d' R1 R2 HC H. unfold set_up_configurations in H. cbv zeta in H.
  assert (K1 : config_key reserved "configurations" = false) by (apply config_key_stays, reserved_stays; [exact R1|apply no_suffix_configurations; auto]).
  assert (K2 : config_key reserved "default_configuration" = false) by (apply config_key_stays, reserved_stays; [exact R2|apply no_suffix_configurations; auto]).
  set (d1 := if has_key "configurations" d then d else set_key "configurations" (VDict [("Default", VDict [])]) d) in *.
  destruct (assoc "configurations" d1) as [v|] eqn:E1; [|discriminate]. destruct v as [s|z|l|cs|cl]; try discriminate.
  assert (CO : configurations_of d cs).
  { unfold d1 in E1. destruct (has_key "configurations" d) eqn:EH; [left; exact E1|]. right. rewrite assoc_set_same in E1. inversion E1. split; [|reflexivity].
    intros Hin. apply assoc_Some_key in Hin. destruct Hin as (v & Ev). assert (T : has_key "configurations" d = true) by (apply has_key_spec; congruence). congruence. }
  destruct (HC _ CO) as (NDc & PL).
  assert (D1 : forall k, k <> "configurations" -> assoc k d1 = assoc k d).
  { intros k N. unfold d1. destruct (has_key "configurations" d); [reflexivity|]. apply assoc_set_other. congruence. }
  assert (F1 : filter (fun e => config_key reserved (fst e)) d1 = filter (fun e => config_key reserved (fst e)) d).
  { unfold d1. destruct (has_key "configurations" d); [reflexivity|]. apply filter_set_key. exact K1. }
  clearbody d1. apply rbind_Val in H. destruct H as (d2 & E2 & H). apply rbind_Val in H. destruct H as (merged & EM & H).
  apply rbind_Val in H. destruct H as (cs2 & EC & H).
  destruct (merged_spec _ _ _ _ _ _ _ EM) as (M1 & M2 & M3 & M4).
  assert (D2 : (forall k, k <> "default_configuration" -> assoc k d2 = assoc k d1) /\
               filter (fun e => config_key reserved (fst e)) d2 = filter (fun e => config_key reserved (fst e)) d1 /\
               exists v, assoc "default_configuration" d2 = Some v /\ (assoc "default_configuration" d1 = Some v \/
               (assoc "default_configuration" d1 = None /\ exists n, v = VStr n /\ In n (map fst merged) /\ forall n', In n' (map fst merged) -> String.leb n n' = true))).
  { unfold add_default in E2. destruct (has_key "default_configuration" d1) eqn:EH.
    - inversion E2; subst d2. split; [reflexivity|]. split; [reflexivity|]. apply has_key_spec in EH. destruct (assoc "default_configuration" d1) as [v|]; [|congruence].
      exists v. auto.
    - apply rbind_Val in E2. destruct E2 as (conc & EC' & E2). destruct (concrete_spec _ _ EC') as (_ & S2 & _).
      destruct (sort (map fst conc)) as [|n rest] eqn:ES; [discriminate|]. inversion E2; subst d2. clear E2.
      split; [intros k N; apply assoc_set_other; congruence|]. split; [apply filter_set_key; exact K2|]. exists (VStr n). split; [apply assoc_set_same|]. right. split.
      { destruct (assoc "default_configuration" d1) eqn:EA; [|reflexivity]. assert (T : has_key "default_configuration" d1 = true) by (apply has_key_spec; congruence). congruence. }
      assert (EQ : forall x, In x (map fst merged) <-> In x (n :: rest)).
      { intros x. rewrite <- ES, sort_In, M2, in_map_iff. split.
        - intros (w & H1 & H2). exists (x, w). split; [reflexivity|]. apply S2. auto.
        - intros ([x' w] & <- & Hin). apply S2 in Hin. exists w. exact Hin. }
      exists n. split; [reflexivity|]. split; [apply EQ; left; reflexivity|]. intros n' Hn'. apply EQ in Hn'.
      pose proof (sort_sorted (map fst conc)) as SS. rewrite ES in SS. inversion SS as [|? ? Hle]; subst. destruct Hn' as [<-|Hn']; [|apply Hle; exact Hn'].
      unfold String.leb. rewrite compare_refl. reflexivity. }
  destruct D2 as (D2 & F2 & DD).
  assert (NDm : NoDup (map fst merged)) by (eapply sublist_NoDup; eassumption).
  assert (IM : incl (map fst merged) (map fst cs)).
  { intros x Hx. apply M2 in Hx. destruct Hx as (w & Hw & _). apply (in_map fst) in Hw. exact Hw. }
  set (cs1 := fold_left (fun acc e => set_key (fst e) (VDict (snd e)) acc) merged cs) in *.
  assert (KS : map fst cs1 = map fst cs) by (apply put_back_keys; exact IM).
  assert (AS : forall n, assoc n cs1 = match assoc n merged with Some nd => Some (VDict nd) | None => assoc n cs end) by (intros n; apply put_back_assoc; exact NDm).
  clearbody cs1. destruct (concrete_spec _ _ EC) as (S1 & S2 & S3).
  assert (ND1 : NoDup (map fst cs1)) by (rewrite KS; exact NDc).
  assert (IN : forall n v, In (n, v) cs2 <-> exists nd, v = VDict nd /\ assoc n merged = Some nd).
  { intros n v. rewrite S2. cbn [snd]. split.
    - intros [Hin NA]. pose proof (In_assoc _ _ _ _ ND1 Hin) as E. rewrite AS in E. destruct (assoc n merged) as [nd|] eqn:EN; [inversion E; eauto|].
      exfalso. apply assoc_None in EN. apply EN. apply M2. exists v. split; [apply assoc_In; exact E|exact NA].
    - intros (nd & -> & EN). split; [apply assoc_In; rewrite AS, EN; reflexivity|]. intros (dd & a & E & EA & _). inversion E; subst dd.
      apply assoc_In in EN. apply M3, merge_config_not_abstract in EN. congruence. }
  assert (FS : forall n, In n (map fst cs2) <-> In n (map fst merged)).
  { intros n. split.
    - intros Hin. apply in_map_iff in Hin. destruct Hin as ([n' v] & <- & Hin). apply IN in Hin. destruct Hin as (nd & _ & E). apply assoc_In in E. apply (in_map fst) in E. exact E.
    - intros Hin. apply assoc_Some_key in Hin. destruct Hin as (nd & E). change n with (fst (n, VDict nd)). apply in_map. apply IN. eauto. }
  set (d3 := set_key "configurations" (VDict cs2) d2) in *.
  assert (E4 : assoc "configurations" (filter (fun e => negb (config_key reserved (fst e))) d3) = Some (VDict cs2)).
  { rewrite (assoc_filter _ (fun k => negb (config_key reserved k))). rewrite K1. unfold d3. apply assoc_set_same. }
  rewrite E4 in H. destruct (find _ cs2) as [[n0 v0]|] eqn:EF; [discriminate|]. inversion H; subst d'. clear H.
  exists cs, cs2. split; [exact CO|]. split; [exact E4|]. split; [rewrite <- KS; apply sublist_map; exact S1|]. split; [intros n; rewrite FS; apply M2|]. split; [|split; [|split]].
  - intros n v Hin. apply IN in Hin. destruct Hin as (nd & -> & EN). apply assoc_In in EN. apply M3 in EN.
    destruct (merge_config_all_routes _ _ _ _ _ _ PL EN) as (routes & HR & HA). exists (filter (fun e => config_key reserved (fst e)) d), nd, routes.
    split; [reflexivity|]. split; [split; [apply sublist_filter|]|].
    + intros e. rewrite filter_In, config_key_moves. reflexivity.
    + split; [exact HR|]. rewrite F2, F1 in HA. exact HA.
  - intros n nd k Hin Hk Hi. apply (find_none _ _ EF) in Hin. cbn [snd] in Hin. assert (T : existsb (fun k => mem k invalid) (map fst nd) = true).
    { apply existsb_exists. exists k. split; [exact Hk|]. apply mem_In. exact Hi. } congruence.
  - intros k N1 N2. assert (E : assoc k d3 = assoc k d).
    { unfold d3. rewrite assoc_set_other by congruence. rewrite D2 by exact N2. apply D1. exact N1. }
    rewrite (assoc_filter _ (fun k => negb (config_key reserved k))). split; intros HS.
    + apply config_key_stays in HS. rewrite HS. exact E.
    + apply config_key_moves in HS. rewrite HS. reflexivity.
  - destruct DD as (v & EV & HV). exists v. split.
    + rewrite (assoc_filter _ (fun k => negb (config_key reserved k))). rewrite K2. unfold d3. cbn [negb]. rewrite assoc_set_other by discriminate. exact EV.
    + rewrite D1 in HV by discriminate. destruct HV as [HV|(HN & n & -> & H1 & H2)]; [left; exact HV|]. right. split; [apply assoc_None; exact HN|].
      exists n. split; [reflexivity|]. split; [apply FS; exact H1|]. intros n' Hn'. apply H2. apply FS. exact Hn'.
Qed.

Theorem set_up_terminates : forall c reserved invalid fuel d,
  (forall cs, configurations_of d cs -> length cs < fuel) -> set_up_configurations c reserved invalid fuel d <> Exn NoFuel.
Proof.
  intros c reserved invalid fuel d HF. unfold set_up_configurations. cbv zeta.
  set (d1 := if has_key "configurations" d then d else set_key "configurations" (VDict [("Default", VDict [])]) d) in *.
  destruct (assoc "configurations" d1) as [v|] eqn:E1; [|discriminate]. destruct v as [s|z|l|cs|cl]; try discriminate.
  assert (CO : configurations_of d cs).
  { unfold d1 in E1. destruct (has_key "configurations" d) eqn:EH; [left; exact E1|]. right. rewrite assoc_set_same in E1. inversion E1. split; [|reflexivity].
    intros Hin. apply assoc_Some_key in Hin. destruct Hin as (v & Ev). assert (T : has_key "configurations" d = true) by (apply has_key_spec; congruence). congruence. }
  apply HF in CO.
  assert (NC : forall cs, no_nofuel (concrete_entries cs)).
  { induction cs0 as [|[k v] cs0 IH]; [discriminate|]. cbn. apply nn_bind; [destruct v; discriminate|]. intros. apply nn_bind; [exact IH|discriminate]. }
  apply nn_bind; [unfold add_default; destruct (has_key _ d1); [discriminate|]; apply nn_bind; [apply NC|]; intros conc _; destruct (sort _); discriminate|].
  intros d2 _. apply nn_bind.
  - assert (G : forall cs', no_nofuel (merged_configs c reserved fuel d2 cs cs')).
    { induction cs' as [|[k v] cs' IH]; [discriminate|]. cbn [merged_configs]. apply nn_bind; [destruct v; discriminate|]. intros [] _; [exact IH|].
      apply nn_bind; [apply merge_config_nn; [constructor|intros ? []|cbn [length]; lia]|]. intros nd _. apply nn_bind; [exact IH|discriminate]. }
    apply G.
  - intros merged _. apply nn_bind; [apply NC|]. intros cs2 _. clear E1. unfold no_nofuel. match goal with |- match ?x with _ => _ end <> _ => destruct x as [[s|z|l|cs3|cl]|]; try discriminate end.
    match goal with |- match ?x with _ => _ end <> _ => destruct x as [[? ?]|]; discriminate end.
Qed.

(** Corollaries: what a configuration sets itself wins; what nobody later on
    sets is inherited. *)
Lemma applied_snoc : forall c configs ns n d d2, applied c configs (ns ++ [n])%list d d2 ->
  exists d1 cd m, applied c configs ns d d1 /\ assoc n configs = Some (VDict cd) /\ merge_dicts c d1 cd = Val m /\ d2 = del_key "abstract" m.
Proof.
  intros c configs ns n. induction ns as [|m ns IH]; intros d d2 H; cbn [app] in H; inversion H as [|? ? cd ? d1 ? EA EM HA]; subst.
  - inversion HA; subst. exists d, cd, d1. repeat split; auto. constructor.
  - destruct (IH _ _ HA) as (d3 & cd' & m' & H1 & H2 & H3 & H4). exists d3, cd', m'. repeat split; auto. econstructor; eassumption.
Qed.
Theorem own_setting_wins : forall c fuel configs new n new' cd k s, parents_listed configs -> c_to_file c = c_fro_file c ->
  merge_config c fuel configs new n [] = Val new' -> assoc n configs = Some (VDict cd) -> NoDup (map fst cd) -> k <> "abstract" ->
  In (k, VStr s) cd -> (forall l x, In x ["="; "+"; "?"] -> ~ In (k ++ x, VList l) cd) -> assoc k new' = Some (VStr s).
Proof.
  intros c fuel configs new n new' cd k s HL HF H EA ND NK Hin HO. destruct (merge_config_all_routes _ _ _ _ _ _ HL H) as (routes & (_ & _ & _ & (anc & ->)) & AP).
  rewrite map_app in AP. apply applied_snoc in AP. destruct AP as (d1 & cd' & m & _ & E & EM & ->). cbn in E. rewrite EA in E. inversion E; subst cd'.
  rewrite assoc_del_other by congruence. 
  destruct (merge_only_entry c d1 cd m k k (VStr s) EM ND Hin eq_refl) as (v & E1 & E2).
  - intros k' v' Hin' HA. destruct v' as [s'|z|l|dd|cl]; try exact HA. cbn in HA.
    destruct HA as [->|[->|[->|(HA & _)]]]; [exfalso; eapply HO; [|exact Hin']; cbn [In]; tauto..|exact HA].
  - rewrite E1. cbn in E2. subst v. unfold make_path_relative. rewrite HF, String.eqb_refl. destruct (is_path_section _ _); reflexivity.
Qed.
Theorem unset_inherited : forall c configs ns1 ns2 d d' k, applied c configs (ns1 ++ ns2)%list d d' -> k <> "abstract" ->
  (forall n cd k' v, In n ns2 -> assoc n configs = Some (VDict cd) -> In (k', v) cd -> ~ affects k' v k) ->
  exists d1, applied c configs ns1 d d1 /\ assoc k d' = assoc k d1.
Proof.
  intros c configs ns1 ns2. induction ns1 as [|n ns1 IH]; intros d d' k H NK HN.
  - exists d. split; [constructor|]. cbn in H. induction H as [d|n ns cd d d1 d2 EA EM HA IH]; [reflexivity|].
    rewrite IH; [|intros; eapply HN; [right; eassumption|eassumption..]]. rewrite assoc_del_other by congruence.
    eapply merge_untouched; [exact EM|]. intros k' v Hin. eapply HN; [left; reflexivity|exact EA|exact Hin].
  - cbn in H. inversion H as [|? ? cd ? d1 ? EA EM HA]; subst. destruct (IH _ _ _ HA NK HN) as (d3 & H1 & H2). exists d3. split; [econstructor; eassumption|exact H2].
Qed.
