(** Proofs about dependent settings. *)
From Verif Require Import LibFacts Model_Value Model_Merge Spec_Merge Proof_Merge2 Proof_Filter Model_Names Model_Graph Spec_Graph Proof_Graph Proof_Deps
  Model_Settings Spec_Settings.
Local Open Scope string_scope.

(** ** The graph functions read only some fields. *)
Definition same_field {A} (f : spec -> A) (ts ts' : targets) : Prop :=
  forall t, option_map f (assoc t ts) = option_map f (assoc t ts').

Lemma add_imported_ext : forall ts ts', same_field sp_exports ts ts' -> forall fuel done rest, add_imported fuel ts done rest = add_imported fuel ts' done rest.
Proof.
  intros ts ts' H. induction fuel as [|fuel IH]; intros done rest; [reflexivity|]. cbn [add_imported]. destruct rest as [|d rest]; [reflexivity|].
  specialize (H d). destruct (assoc d ts) as [s|], (assoc d ts') as [s'|]; cbn in H; try discriminate; [|reflexivity]. inversion H as [E]. rewrite E. apply IH.
Qed.
Lemma direct_ext : forall ts ts' links t, same_field sp_exports ts ts' -> length ts = length ts' -> direct_and_imported ts links t = direct_and_imported ts' links t.
Proof. intros ts ts' links t H HL. unfold direct_and_imported. rewrite HL. apply add_imported_ext. exact H. Qed.
Lemma ofold_ext : forall A B (f g : A -> B -> outcome A) l a, (forall a b, f a b = g a b) -> ofold f l a = ofold g l a.
Proof. intros A B f g l. induction l as [|b l IH]; intros a H; [reflexivity|]. cbn. rewrite H. destruct (g a b); cbn; [apply IH; exact H|reflexivity]. Qed.
Lemma link_ext : forall ts ts' links inc, same_field sp_has_name ts ts' -> same_field sp_type ts ts' -> same_field sp_traverse ts ts' ->
  forall fuel initial ref acc, link_dependencies fuel ts links inc initial ref acc = link_dependencies fuel ts' links inc initial ref acc.
Proof.
  intros ts ts' links inc H1 H2 H3. induction fuel as [|fuel IH]; intros initial ref acc; [reflexivity|]. cbn [link_dependencies].
  specialize (H1 ref). specialize (H2 ref). specialize (H3 ref). destruct (assoc ref ts) as [s|], (assoc ref ts') as [s'|]; cbn in H1, H2, H3; try discriminate; [|reflexivity].
  inversion H1 as [E1]. inversion H2 as [E2]. inversion H3 as [E3]. rewrite E1, E2, E3. destruct (negb (sp_has_name s')); [reflexivity|].
  destruct (sp_type s') as [ty|]; [|reflexivity]. cbv zeta.
  destruct (initial && negb (mem ty linkable_types)); [reflexivity|]. destruct (String.eqb ty "none" && negb (sp_traverse s')); [reflexivity|].
  destruct (negb initial && mem ty final_types); [reflexivity|]. destruct (negb initial && String.eqb ty "shared_library" && negb inc); [reflexivity|].
  destruct (mem ref acc); [reflexivity|]. destruct (initial || negb (mem ty linkable_types)); [|reflexivity]. apply ofold_ext. intros a b. apply IH.
Qed.
Lemma link_settings_ext : forall ts ts' links t, same_field sp_has_name ts ts' -> same_field sp_type ts ts' -> same_field sp_traverse ts ts' ->
  same_field sp_propagate ts ts' -> length ts = length ts' -> dependencies_for_link_settings ts links t = dependencies_for_link_settings ts' links t.
Proof.
  intros ts ts' links t H1 H2 H3 H4 HL. unfold dependencies_for_link_settings, link_fuel. specialize (H4 t).
  destruct (assoc t ts) as [s|], (assoc t ts') as [s'|]; cbn in H4; try discriminate; [|reflexivity]. inversion H4 as [E]. rewrite E, HL. apply link_ext; assumption.
Qed.

Lemma assoc_graph : forall ts t, assoc t (graph_of ts) = option_map view (assoc t ts).
Proof. induction ts as [|[t' d] ts IH]; intros t; [reflexivity|]. cbn. destruct (String.eqb t t'); [reflexivity|apply IH]. Qed.
Lemma graph_names : forall ts, names (graph_of ts) = map fst ts.
Proof. intros ts. unfold names, graph_of. rewrite map_map. reflexivity. Qed.

(** ** The invariant: what decides who receives settings does not change. *)
Definition watched (key : string) : list string :=
  [key; "export_dependent_settings"; "type"; "target_name"; "dependencies_traverse"; "allow_sharedlib_linksettings_propagation"].
Definition steady (key : string) (ts cur : tdicts) : Prop :=
  map fst cur = map fst ts /\ forall t d d', assoc t ts = Some d -> assoc t cur = Some d' -> forall b, In b (watched key) -> assoc b d' = assoc b d.

Lemma keys_some : forall B C (l : list (string * B)) (l' : list (string * C)) t, map fst l = map fst l' -> assoc t l = None <-> assoc t l' = None.
Proof. intros B C l l' t E. rewrite !assoc_None, E. reflexivity. Qed.

Lemma steady_field : forall A (f : spec -> A) key ts cur, steady key ts cur ->
  (forall d d', (forall b, In b (watched key) -> assoc b d' = assoc b d) -> f (view d') = f (view d)) ->
  same_field f (graph_of cur) (graph_of ts).
Proof.
  intros A f key ts cur [H1 H2] HF t. rewrite !assoc_graph. pose proof (keys_some _ _ cur ts t H1) as HK.
  destruct (assoc t cur) as [d'|] eqn:E1, (assoc t ts) as [d|] eqn:E2; cbn; [f_equal; apply HF; intros b Hb; eapply H2; eassumption| | |reflexivity].
  - destruct HK as [_ HK]. specialize (HK eq_refl). discriminate.
  - destruct HK as [HK _]. specialize (HK eq_refl). discriminate.
Qed.

Lemma steady_dependencies : forall links key ts cur t, steady key ts cur -> settings_dependencies links key cur t = settings_dependencies links key ts t.
Proof.
  intros links key ts cur t H. assert (HL : length cur = length ts) by (destruct H as [H _]; rewrite <- (map_length fst cur), <- (map_length fst ts), H; reflexivity).
  assert (HG : length (graph_of cur) = length (graph_of ts)) by (unfold graph_of; rewrite !map_length; exact HL).
  unfold settings_dependencies. rewrite HL. destruct (String.eqb key "all_dependent_settings"); [reflexivity|].
  destruct (String.eqb key "direct_dependent_settings"); [f_equal; apply direct_ext; [|exact HG]|].
  - eapply steady_field; [exact H|]. intros d d' HW. unfold view, sp_exports. rewrite HW by (cbn; tauto). reflexivity.
  - destruct (String.eqb key "link_settings"); [|reflexivity]. f_equal. apply link_settings_ext; [..|exact HG];
      (eapply steady_field; [exact H|]; intros d d' HW; unfold view, sp_has_name, sp_type, sp_traverse, sp_propagate; rewrite HW by (cbn; tauto); reflexivity).
Qed.

Section Pass.
  Variable realpath : string -> string.
  Variable path_sections : list string.
  Variable links : string -> list string.
  Variable key : string.
  Variable ts : tdicts.
  Hypothesis HI : inert key ts.

  Lemma set_key_same_keys : forall B k (v : B) l, In k (map fst l) -> map fst (set_key k v l) = map fst l.
  Proof. intros B k v l H. rewrite set_key_keys. apply mem_In in H. rewrite H. apply app_nil_r. Qed.

  Lemma take_settings_spec : forall t cur x cur' td, steady key ts cur -> assoc t cur = Some td -> take_settings realpath path_sections key t cur x = Val cur' ->
    steady key ts cur' /\ (forall t', t' <> t -> assoc t' cur' = assoc t' cur) /\
    exists td', assoc t cur' = Some td' /\ forall ds r, received realpath path_sections key t ts ds td' r -> received realpath path_sections key t ts (x :: ds) td r.
  Proof.
    intros t cur x cur' td HS ET H. unfold take_settings in H. destruct (assoc x cur) as [xd|] eqn:EX; [|discriminate].
    assert (EXt : exists xd0, assoc x ts = Some xd0 /\ forall b, In b (watched key) -> assoc b xd = assoc b xd0).
    { destruct HS as [H1 H2]. destruct (assoc x ts) as [xd0|] eqn:E; [exists xd0; split; [reflexivity|eapply H2; eassumption]|].
      apply (keys_some _ _ cur ts x H1) in E. congruence. }
    destruct EXt as (xd0 & EX0 & HW). assert (EK : assoc key xd = assoc key xd0) by (apply HW; left; reflexivity).
    destruct (assoc key xd) as [v|] eqn:EV.
    - destruct v as [s|z|l|sd|cl]; try discriminate. rewrite ET in H. apply rbind_Val in H. destruct H as (td' & EM & H). inversion H; subst cur'. clear H.
      assert (INk : In t (map fst cur)) by (apply assoc_In in ET; apply (in_map fst) in ET; exact ET).
      split; [|split].
      + destruct HS as [H1 H2]. split; [rewrite set_key_same_keys by exact INk; exact H1|]. intros t' d d' E1 E2 b Hb.
        destruct (string_dec t t') as [<-|n]; [|rewrite assoc_set_other in E2 by exact n; eapply H2; eassumption].
        rewrite assoc_set_same in E2. inversion E2; subst d'. rewrite <- (H2 _ _ _ E1 ET b Hb). eapply merge_untouched; [exact EM|].
        intros k v Hkv. eapply HI; [apply assoc_In; exact EX0|symmetry; exact EK|exact Hkv|exact Hb].
      + intros t' n. apply assoc_set_other. congruence.
      + exists td'. split; [apply assoc_set_same|]. intros ds r HR. eapply rec_some; [exact EX0|symmetry; exact EK|exact EM|exact HR].
    - inversion H; subst cur'. split; [exact HS|]. split; [reflexivity|]. exists td. split; [exact ET|]. intros ds r HR. eapply rec_none; [exact EX0| |exact HR].
      apply assoc_None. symmetry. exact EK.
  Qed.

  Lemma settle_spec : forall t cur cur', steady key ts cur -> settle realpath path_sections links key cur t = Val cur' ->
    steady key ts cur' /\ (forall t', t' <> t -> assoc t' cur' = assoc t' cur) /\
    exists ds td td', settings_dependencies links key ts t = Val ds /\ assoc t cur = Some td /\ assoc t cur' = Some td' /\ received realpath path_sections key t ts ds td td'.
  Proof.
    intros t cur cur' HS H. unfold settle in H. destruct (assoc t cur) as [td|] eqn:ET; [|discriminate]. apply rbind_Val in H. destruct H as (ds & ED & H).
    rewrite (steady_dependencies _ _ _ _ _ HS) in ED.
    assert (G : forall ds cur td, steady key ts cur -> assoc t cur = Some td -> rfold (take_settings realpath path_sections key t) ds cur = Val cur' ->
      steady key ts cur' /\ (forall t', t' <> t -> assoc t' cur' = assoc t' cur) /\ exists td', assoc t cur' = Some td' /\ received realpath path_sections key t ts ds td td').
    { clear - HI. induction ds as [|x ds IH]; intros cur td HS ET H.
      - inversion H; subst. split; [exact HS|]. split; [reflexivity|]. exists td. split; [exact ET|constructor].
      - cbn [rfold] in H. apply rbind_Val in H. destruct H as (c1 & H1 & H). destruct (take_settings_spec _ _ _ _ _ HS ET H1) as (S1 & O1 & td1 & E1 & R1).
        destruct (IH _ _ S1 E1 H) as (S2 & O2 & td2 & E2 & R2). split; [exact S2|]. split; [intros t' n; rewrite O2, O1 by exact n; reflexivity|].
        exists td2. split; [exact E2|]. apply R1. exact R2. }
    destruct (G _ _ _ HS ET H) as (S1 & O1 & td' & E1 & R1). split; [exact S1|]. split; [exact O1|]. exists ds, td, td'. auto.
  Qed.

  Theorem pass_spec : forall flat ts', NoDup flat -> do_dependent_settings realpath path_sections links key flat ts = Val ts' ->
    settings_pass realpath path_sections key flat (fun t ds => settings_dependencies links key ts t = Val ds) ts ts'.
  Proof.
    intros flat ts' ND H. unfold do_dependent_settings in H.
    assert (G : forall flat cur, NoDup flat -> steady key ts cur -> rfold (settle realpath path_sections links key) flat cur = Val ts' ->
      steady key ts ts' /\ (forall t, ~ In t flat -> assoc t ts' = assoc t cur) /\
      forall t, In t flat -> exists ds d d', settings_dependencies links key ts t = Val ds /\ assoc t cur = Some d /\ assoc t ts' = Some d' /\ received realpath path_sections key t ts ds d d').
    { clear flat ND H. induction flat as [|t flat IH]; intros cur ND HS H.
      - inversion H; subst. split; [exact HS|]. split; [reflexivity|intros t []].
      - cbn [rfold] in H. apply rbind_Val in H. destruct H as (c1 & H1 & H). inversion ND as [|? ? Hn ND']; subst.
        destruct (settle_spec _ _ _ HS H1) as (S1 & O1 & ds & td & td' & D1 & E1 & E2 & R1). destruct (IH _ ND' S1 H) as (S2 & O2 & T2). split; [exact S2|]. split.
        + intros t' N. rewrite O2 by (intros Hin; apply N; right; exact Hin). apply O1. intros ->. apply N. left. reflexivity.
        + intros t' [<-|Hin].
          * exists ds, td, td'. split; [exact D1|]. split; [exact E1|]. split; [rewrite O2 by exact Hn; exact E2|exact R1].
          * destruct (T2 _ Hin) as (ds' & d & d' & D2 & F1 & F2 & R2). exists ds', d, d'. split; [exact D2|]. split; [|auto].
            rewrite <- F1. symmetry. apply O1. intros ->. contradiction. }
    destruct (G flat ts ND) as ((K & _) & O & T); [split; [reflexivity|]; intros t d d' E1 E2 b _; congruence|exact H|].
    split; [exact K|]. split; [exact O|exact T].
  Qed.
End Pass.

(** ** Who receives what, in terms of the graph *)
Lemma pass_who : forall rp ps key flat (P Q : string -> list string -> Prop) ts ts', (forall t ds, In t flat -> P t ds -> Q t ds) ->
  settings_pass rp ps key flat P ts ts' -> settings_pass rp ps key flat Q ts ts'.
Proof.
  intros rp ps key flat P Q ts ts' H (H1 & H2 & H3). split; [exact H1|]. split; [exact H2|]. intros t Ht. destruct (H3 t Ht) as (ds & d & d' & W & R).
  exists ds, d, d'. split; [apply H; assumption|exact R].
Qed.

Theorem all_settings : forall rp ps flat ts ts', NoDup flat -> incl flat (map fst ts) -> inert "all_dependent_settings" ts ->
  is_dict (graph_of ts) -> closed (graph_of ts) -> ~ cyclic (graph_of ts) ->
  do_dependent_settings rp ps (node_dependencies (graph_of ts)) "all_dependent_settings" flat ts = Val ts' ->
  settings_pass rp ps "all_dependent_settings" flat
    (fun t ds => NoDup ds /\ (forall x, In x ds <-> depends_transitively (graph_of ts) t x) /\
                 (forall x d, In x ds -> depends_on (graph_of ts) x d -> before d x ds)) ts ts'.
Proof.
  intros rp ps flat ts ts' ND HF HI H1 H2 H3 H. eapply pass_who; [|eapply pass_spec; eassumption]. intros t ds Ht W. cbv beta in W.
  unfold settings_dependencies in W. rewrite String.eqb_refl in W.
  destruct (deep_of_spec (graph_of ts) t H1 H2 H3) as (l & E & R); [rewrite graph_names; apply HF; exact Ht|].
  unfold deep_of in E. replace (length (graph_of ts)) with (length ts) in E by (unfold graph_of; rewrite map_length; reflexivity). rewrite E in W. inversion W; subst. exact R.
Qed.
Theorem direct_settings : forall rp ps flat ts ts', NoDup flat -> incl flat (map fst ts) -> inert "direct_dependent_settings" ts ->
  is_dict (graph_of ts) -> closed (graph_of ts) -> (forall t d, exports_to (graph_of ts) t d -> In d (names (graph_of ts))) ->
  do_dependent_settings rp ps (node_dependencies (graph_of ts)) "direct_dependent_settings" flat ts = Val ts' ->
  settings_pass rp ps "direct_dependent_settings" flat
    (fun t ds => NoDup ds /\ (forall x, In x ds <-> imported_by (graph_of ts) t x)) ts ts'.
Proof.
  intros rp ps flat ts ts' ND HF HI H1 H2 H3 H. eapply pass_who; [|eapply pass_spec; eassumption]. intros t ds Ht W. cbv beta in W.
  unfold settings_dependencies in W. change (String.eqb "direct_dependent_settings" "all_dependent_settings") with false in W. rewrite String.eqb_refl in W.
  destruct (direct_and_imported_spec (graph_of ts) t H1 H2 H3) as (l & E & R1 & R2 & _); [rewrite graph_names; apply HF; exact Ht|].
  rewrite E in W. inversion W; subst. auto.
Qed.
Theorem link_settings_pass : forall rp ps flat ts ts', NoDup flat -> incl flat (map fst ts) -> inert "link_settings" ts ->
  is_dict (graph_of ts) -> closed (graph_of ts) -> typed (graph_of ts) ->
  do_dependent_settings rp ps (node_dependencies (graph_of ts)) "link_settings" flat ts = Val ts' ->
  settings_pass rp ps "link_settings" flat
    (fun t ds => (~ linkable (graph_of ts) t -> ds = []) /\
       (linkable (graph_of ts) t -> exists s r, In (t, s) (graph_of ts) /\ ds = t :: r /\ NoDup ds /\
          forall x, In x ds <-> x = t \/ linked_into (graph_of ts) (sp_propagate s) t x)) ts ts'.
Proof.
  intros rp ps flat ts ts' ND HF HI H1 H2 H3 H. eapply pass_who; [|eapply pass_spec; eassumption]. intros t ds Ht W. cbv beta in W.
  unfold settings_dependencies in W. change (String.eqb "link_settings" "all_dependent_settings") with false in W.
  change (String.eqb "link_settings" "direct_dependent_settings") with false in W. rewrite String.eqb_refl in W.
  unfold dependencies_for_link_settings in W. destruct (assoc t (graph_of ts)) as [s|] eqn:Es; [|discriminate].
  destruct (link_initial (graph_of ts) (sp_propagate s) H1 H2 H3 t) as [L1 L2]; [rewrite graph_names; apply HF; exact Ht|]. split.
  - intros HL. rewrite (L1 HL) in W. inversion W. reflexivity.
  - intros HL. destruct (L2 HL) as (r & E & R1 & R2). rewrite E in W. inversion W; subst. exists s, r. split; [apply assoc_In; exact Es|]. auto.
Qed.

Lemma in_strings_of : forall v x, In x (strings_of (Some v)) <-> exists l, v = VList l /\ In (VStr x) l.
Proof.
  intros v x. split.
  - destruct v as [s|z|l|d|c]; try (intros []). cbn. intros H. apply in_flat_map in H. destruct H as (w & Hw & Hx). destruct w; try destruct Hx as []. subst. exists l. split; [reflexivity|exact Hw].
    destruct H.
  - intros (l & -> & Hin). cbn. apply in_flat_map. exists (VStr x). split; [exact Hin|left; reflexivity].
Qed.
Theorem graph_of_lists : forall ts t x, (depends_on (graph_of ts) t x <-> lists ts "dependencies" t x) /\
  (exports_to (graph_of ts) t x <-> lists ts "export_dependent_settings" t x).
Proof.
  intros ts t x. split; split.
  - intros (s & l & Hin & E & Hx). apply in_map_iff in Hin. destruct Hin as ([t' d] & Eq & Hin). inversion Eq; subst. cbn in E.
    destruct (assoc "dependencies" d) as [v|] eqn:EA; [|discriminate]. inversion E; subst l. clear E. 
    change (In x (strings_of (Some v))) in Hx. apply in_strings_of in Hx. destruct Hx as (l & -> & Hx). exists d, l. auto.
  - intros (d & l & Hin & E & Hx). exists (view d), (strings_of (Some (VList l))). split; [apply in_map_iff; exists (t, d); auto|].
    split; [unfold view, sp_deps; rewrite E; reflexivity|]. apply in_strings_of. eauto.
  - intros (s & Hin & Hx). apply in_map_iff in Hin. destruct Hin as ([t' d] & Eq & Hin). inversion Eq; subst. cbn [view sp_exports] in Hx.
    destruct (assoc "export_dependent_settings" d) as [v|] eqn:EA; [|destruct Hx]. apply in_strings_of in Hx. destruct Hx as (l & -> & Hx). exists d, l. auto.
  - intros (d & l & Hin & E & Hx). exists (view d). split; [apply in_map_iff; exists (t, d); auto|]. cbn [view sp_exports]. rewrite E. apply in_strings_of. eauto.
Qed.

(** ** Taking the settings out *)
Lemma del_key_twice : forall B k (d : list (string * B)), del_key k (del_key k d) = del_key k d.
Proof.
  intros B k d. unfold del_key. induction d as [|[k' v] d IH]; [reflexivity|]. cbn [filter fst].
  match goal with |- context [if ?c then _ else _] => destruct c eqn:E end; [cbn [filter fst]; rewrite E, IH; reflexivity|exact IH].
Qed.
Lemma take_out_spec : forall key flat ts t, assoc t (take_out key flat ts) = if mem t flat then option_map (del_key key) (assoc t ts) else assoc t ts.
Proof.
  intros key. induction flat as [|u flat IH]; intros ts t; [reflexivity|]. unfold take_out. cbn [fold_left].
  change (fold_left _ flat ?x) with (take_out key flat x). rewrite IH. clear IH. unfold tdicts, dict in *. destruct (string_dec u t) as [->|n].
  - replace (mem t (t :: flat)) with true by (symmetry; apply mem_In; left; reflexivity). destruct (assoc t ts) as [d|] eqn:E.
    + rewrite assoc_set_same. destruct (mem t flat); cbn [option_map]; [rewrite del_key_twice|]; reflexivity.
    + rewrite E. destruct (mem t flat); reflexivity.
  - cbv beta. replace (mem t (u :: flat)) with (mem t flat).
    + destruct (assoc u ts) as [d|]; [rewrite assoc_set_other by exact n|]; reflexivity.
    + destruct (mem t flat) eqn:E; symmetry; [apply mem_In; right; apply mem_In; exact E|apply mem_false in E; apply mem_false; intros [Eq|Hin]; congruence].
Qed.
Lemma taken_out_gone : forall key flat ts t d, In t flat -> assoc t (take_out key flat ts) = Some d -> ~ In key (map fst d).
Proof.
  intros key flat ts t d Ht E. rewrite take_out_spec in E. apply mem_In in Ht. rewrite Ht in E. destruct (assoc t ts) as [d0|]; [|discriminate]. cbn in E. inversion E; subst.
  apply assoc_None. apply assoc_del_same.
Qed.
Theorem published : forall rp ps links flat ts ts', publish_settings rp ps links flat ts = Val ts' ->
  exists a b c, do_dependent_settings rp ps links "all_dependent_settings" flat ts = Val a /\
    do_dependent_settings rp ps links "direct_dependent_settings" flat (take_out "all_dependent_settings" flat a) = Val b /\
    do_dependent_settings rp ps links "link_settings" flat (take_out "direct_dependent_settings" flat b) = Val c /\
    ts' = take_out "link_settings" flat c.
Proof.
  intros rp ps links flat ts ts' H. unfold publish_settings in H. cbn [rfold] in H.
  apply rbind_Val in H. destruct H as (a1 & H1 & H). apply rbind_Val in H1. destruct H1 as (a & HA & H1).
  apply rbind_Val in H. destruct H as (b1 & H2 & H). apply rbind_Val in H2. destruct H2 as (b & HB & H2).
  apply rbind_Val in H. destruct H as (c1 & H3 & H). apply rbind_Val in H3. destruct H3 as (c & HC & H3).
  inversion H1; inversion H2; inversion H3; inversion H; subst. exists a, b, c. auto.
Qed.
Theorem taken_out_only : forall key flat ts t,
  (In t flat -> forall d, assoc t ts = Some d -> exists d', assoc t (take_out key flat ts) = Some d' /\ ~ In key (map fst d') /\ forall b, b <> key -> assoc b d' = assoc b d) /\
  (~ In t flat -> assoc t (take_out key flat ts) = assoc t ts).
Proof.
  intros key flat ts t. split.
  - intros Ht d E. exists (del_key key d). assert (E' : assoc t (take_out key flat ts) = Some (del_key key d)) by (rewrite take_out_spec; apply mem_In in Ht; rewrite Ht, E; reflexivity).
    split; [exact E'|]. split; [eapply taken_out_gone; eassumption|]. intros b n. apply assoc_del_other. congruence.
  - intros Ht. rewrite take_out_spec. apply mem_false in Ht. rewrite Ht. reflexivity.
Qed.
Theorem published_link_gone : forall rp ps links flat ts ts' t d, publish_settings rp ps links flat ts = Val ts' -> In t flat -> assoc t ts' = Some d ->
  ~ In "link_settings" (map fst d).
Proof.
  intros rp ps links flat ts ts' t d H Ht E. destruct (published _ _ _ _ _ _ H) as (a & b & c & _ & _ & _ & ->). eapply taken_out_gone; eassumption.
Qed.
Lemma left_over : exists ts ts' d, publish_settings (fun p => p) [] (node_dependencies (graph_of ts)) (map fst ts) ts = Val ts' /\
  assoc "a.gyp:app" ts' = Some d /\ In "all_dependent_settings" (map fst d).
Proof.
  exists [("a.gyp:base", [("direct_dependent_settings", VDict [("all_dependent_settings", VDict [("defines", VList [VStr "X"])])]); ("target_name", VStr "base"); ("type", VStr "none")]);
          ("a.gyp:app", [("dependencies", VList [VStr "a.gyp:base"]); ("target_name", VStr "app"); ("type", VStr "none")])].
  eexists. eexists. split; [reflexivity|]. split; [reflexivity|]. cbn. tauto.
Qed.
