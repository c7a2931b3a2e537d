(** The phase pass: conditional sections disappear, and it terminates. *)
From Verif Require Import LibFacts StrFacts Model_Value Model_Merge Model_Filter Model_Cond Spec_Merge Spec_Cond
  Proof_Merge Proof_Merge2 Proof_Merge3 Proof_Filter Proof_Filter2 Proof_Cond Proof_Cond2.
Local Open Scope string_scope.

Lemma del_key_NoDup : forall B k (d : list (string * B)), NoDup (map fst d) -> NoDup (map fst (del_key k d)).
Proof.
  intros B k d. unfold del_key. induction d as [|[k' v] d IH]; intros H; [constructor|]. inversion H as [|? ? H1 H2]; subst. cbn [filter].
  destruct (negb _); [|auto]. cbn. constructor; [|auto]. intros Hin. apply H1. apply in_map_iff in Hin. destruct Hin as (e & E & He).
  apply filter_In in He. rewrite <- E. apply in_map. apply He.
Qed.

Section P.
  Variable expand : dict -> value -> result value.
  Variable eval : dict -> value -> result bool.
  Variable c : ctx.
  Variable ph : phase.
  Hypothesis FL : flat_lists expand.
  Variables QA QB : string -> Prop.
  Hypothesis CA : closed_keys QA.
  Hypothesis CB : closed_keys QB.
  Hypothesis BA : forall k, QB k -> QA k.
  Hypothesis AB : forall k, QA k -> conditions_key ph <> Some k -> QB k.

  Notation process_dict := (Model_Cond.process_dict expand eval c ph).
  Notation process_list := (Model_Cond.process_list expand eval c ph).

  Lemma branches_ok : forall Q n l ps els, ok Q (S n) (VList l) -> branches l ps els ->
    (forall e t, In (e, t) ps -> ok Q n (VDict t)) /\ (forall t, els = Some t -> ok Q n (VDict t)).
  Proof.
    intros Q n l ps els H B. cbn [ok] in H. induction B as [|e t f|e t rest ps els N B IH].
    - split; [intros e t []|discriminate].
    - inversion H as [|? ? _ H1]; subst. inversion H1 as [|? ? H2 H3]; subst. inversion H3; subst. split.
      + intros e' t' [E|[]]. inversion E; subst. assumption.
      + intros t' E. inversion E; subst. assumption.
    - inversion H as [|? ? _ H1]; subst. inversion H1 as [|? ? H2 H3]; subst. destruct (IH H3) as [I1 I2]. split; [|exact I2].
      intros e' t' [E|Hin]; [inversion E; subst; assumption|eauto].
  Qed.
  Lemma chosen_in : forall V ps els r, chosen V ps els r -> forall t, r = Some t -> (exists e, In (e, t) ps) \/ els = Some t.
  Proof.
    intros V ps els r C. induction C as [els|e t ps els HV|e t ps els r HV C IH]; intros t' E.
    - right. exact E.
    - inversion E; subst. left. exists e. left. reflexivity.
    - destruct (IH _ E) as [(e' & He)|He]; [left; exists e'; right; exact He|right; exact He].
  Qed.
  Lemma condition_ok : forall Q n vars cond t, ok Q (S n) cond -> eval_condition expand eval vars cond = Val (Some t) -> ok Q n (VDict t).
  Proof.
    intros Q n vars cond t H E. apply eval_condition_spec in E. destruct E as (l & ps & els & -> & _ & B & C).
    destruct (branches_ok _ _ _ _ _ H B) as [B1 B2]. destruct (chosen_in _ _ _ _ C t eq_refl) as [(e & He)|He]; eauto.
  Qed.

  (** Entries of a dict in the middle of the pass. *)
  Definition mid (Q : string -> Prop) (n : nat) (k : string) (v : value) : Prop :=
    Q k /\ ok QA n v /\ (k = "variables" -> ok QB n v).

  Definition entries (Q : string -> Prop) (n : nat) (d : dict) : Prop := NoDup (map fst d) /\ Forall (fun e => mid Q n (fst e) (snd e)) d.
  Lemma merge_mid : forall n d fro d', entries QB n d -> ok QB n (VDict fro) ->
    merge_dicts c d fro = Val d' -> entries QB n d'.
  Proof.
    intros n d fro d' [ND F] HF H. split; [destruct (merge_dicts_keys _ _ _ _ H) as (extra & _ & _ & HN); auto|]. rewrite merge_dicts_eq in H. eapply dict_loop_inv; [|exact F|exact H].
    intros k v b old w Hin HA Ho HE. destruct n as [|n]; [destruct HF|]. cbn [ok] in HF. destruct HF as [_ HF]. rewrite Forall_forall in HF.
    destruct (HF _ Hin) as [H1 H2]. cbn in H1, H2.
    assert (H3 : ok QB (S n) v) by (eapply ok_mono; [|intros; eassumption|exact H2]; lia).
    assert (H4 : ok QA (S n) v) by (eapply ok_mono; [apply le_n|exact BA|exact H3]).
    split; [eapply affects_Q; eassumption|]. split.
    - eapply effect_ok; [apply merge_ok; exact CA|exact H4| |exact HE]. intros o Eo. apply (Ho o Eo).
    - intros Ev. eapply effect_ok; [apply merge_ok; exact CB|exact H3| |exact HE]. intros o Eo. apply (Ho o Eo). exact Ev.
  Qed.

  Definition dict_at (n : nat) : Prop := forall key vars d d', ok QA n (VDict d) -> process_dict n key vars d = Val d' -> ok QB n (VDict d').
  Definition list_at (n : nat) : Prop := forall vars l l', ok QA n (VList l) -> process_list n vars l = Val l' -> ok QB n (VList l').

  Lemma conditions_mid : forall n vars d d', dict_at n ->
    entries QA n d -> process_conditions expand eval c ph (process_dict n None) vars d = Val d' -> entries QB n d'.
  Proof.
    intros n vars d d' D [ND F] H. unfold process_conditions in H.
    assert (G0 : (forall k, In k (map fst d) -> conditions_key ph <> Some k) -> entries QB n d).
    { intros HK. split; [exact ND|]. rewrite Forall_forall in *. intros e He. destruct (F e He) as (H1 & H2 & H3). split; [|auto]. apply AB; [exact H1|]. apply HK. apply in_map. exact He. }
    destruct (conditions_key ph) as [ck|] eqn:EC; [|inversion H; subst; apply G0; discriminate].
    destruct (assoc ck d) as [v|] eqn:EA.
    2:{ inversion H; subst. apply G0. intros k Hk E. inversion E; subst. apply assoc_None in EA. contradiction. }
    assert (FD : entries QB n (del_key ck d)).
    { split; [apply del_key_NoDup; exact ND|]. rewrite Forall_forall in *. intros e He. unfold del_key in He. apply filter_In in He. destruct He as [He Hn]. destruct (F e He) as (H1 & H2 & H3).
      split; [|auto]. apply AB; [exact H1|]. intros E. inversion E as [E1]. rewrite E1, String.eqb_refl in Hn. discriminate. }
    assert (Hv : ok QA n v) by (apply assoc_In in EA; rewrite Forall_forall in F; apply (F _ EA)).
    destruct v as [s|z|conds|dd|cl]; try discriminate.
    - destruct s; [|discriminate]. inversion H; subst. exact FD.
    - destruct n as [|n]; [destruct Hv|]. cbn [ok] in Hv. clear EA. revert FD H. generalize (del_key ck d).
      induction conds as [|cond conds IH]; intros d0 FD H; cbn [rfold] in H; [inversion H; subst; exact FD|].
      inversion Hv as [|? ? Hc Hcs]; subst. apply rbind_Val in H. destruct H as (d1 & H1 & H). apply (IH Hcs d1); [|exact H].
      apply rbind_Val in H1. destruct H1 as ([md|] & E1 & H1); [|inversion H1; subst; exact FD].
      apply rbind_Val in H1. destruct H1 as (md' & E2 & H1). eapply merge_mid; [exact FD| |exact H1].
      eapply D; [|exact E2]. destruct n as [|n]; [destruct Hc|]. eapply ok_mono; [|intros k Hk; exact Hk|eapply condition_ok; [exact Hc|exact E1]]. lia.
    - destruct dd; [|discriminate]. inversion H; subst. exact FD.
  Qed.

  Lemma same_keys : forall B C (f : string * B -> result (string * C)) d d', (forall e e', f e = Val e' -> fst e' = fst e) -> rmap f d = Val d' -> map fst d' = map fst d.
  Proof.
    intros B C f d d' Hf H. apply rmap_Val in H. induction H as [|e e' d d' H H2 IH]; [reflexivity|]. cbn. rewrite (Hf _ _ H), IH. reflexivity.
  Qed.
  Lemma expand_entry_key : forall vars e e', expand_entry expand vars e = Val e' -> fst e' = fst e.
  Proof.
    intros vars [k v] e' H. unfold expand_entry in H. destruct v as [s|z|l|dd|cl]; try (inversion H; subst; reflexivity).
    destruct (String.eqb k "variables"); [inversion H; subst; reflexivity|].
    apply rbind_Val in H. destruct H as (x & _ & H). destruct x as [s'|z|l|dd|cl]; try discriminate; inversion H; reflexivity.
  Qed.
  Lemma process_entry_key : forall pd pl e e', process_entry pd pl e = Val e' -> fst e' = fst e.
  Proof.
    intros pd pl [k v] e' H. unfold process_entry in H. destruct (String.eqb k "variables"); [inversion H; subst; reflexivity|].
    destruct v as [s|z|l|dd|cl]; try (inversion H; subst; reflexivity); apply rbind_Val in H; destruct H as (x & _ & H); inversion H; reflexivity.
  Qed.
  Lemma expand_mid : forall Q n vars d d', entries Q n d -> rmap (expand_entry expand vars) d = Val d' -> entries Q n d'.
  Proof.
    intros Q n vars d d' [ND F] H. split; [rewrite (same_keys _ _ _ _ _ (expand_entry_key vars) H); exact ND|]. clear ND. apply rmap_Val in H. induction H as [|[k v] e' d d' H H2 IH]; [constructor|]. inversion F as [|? ? F1 F2]; subst.
    constructor; [|auto]. unfold expand_entry in H. destruct v as [s|z|l|dd|cl]; try (inversion H; subst; exact F1).
    destruct (String.eqb k "variables"); [inversion H; subst; exact F1|].
    apply rbind_Val in H. destruct H as (x & _ & H). destruct F1 as (M1 & M2 & M3). cbn [fst snd] in *.
    destruct n as [|n]; [destruct M2|].
    destruct x as [s'|z|l|dd|cl]; try discriminate; inversion H; subst; repeat split; assumption.
  Qed.

  Lemma process_item_ok : forall n vars v r, dict_at n -> list_at n -> ok QA n v ->
    process_item expand (process_dict n None vars) (process_list n vars) vars v = Val r -> Forall (ok QB n) r.
  Proof.
    intros n vars v r D L Hv H. unfold process_item in H. destruct v as [s|z|l|d|cl].
    - apply rbind_Val in H. destruct H as (x & Hx & H). destruct n as [|n]; [destruct Hv|].
      destruct x as [s'|z|l|dd|cl]; try discriminate; inversion H; subst.
      + repeat constructor.
      + repeat constructor.
      + rewrite Forall_forall. intros y Hy. destruct (FL _ _ _ Hx y Hy) as [(s' & ->)|(z & ->)]; exact I.
    - inversion H; subst. destruct n as [|n]; [destruct Hv|]. repeat constructor.
    - apply rbind_Val in H. destruct H as (l' & Hl & H). inversion H; subst. repeat constructor. eapply L; eassumption.
    - apply rbind_Val in H. destruct H as (l' & Hl & H). inversion H; subst. repeat constructor. eapply D; eassumption.
    - discriminate.
  Qed.

  Definition first_part (n : nat) (vars_in d : dict) : result (dict * dict) :=
    let auto := load_automatic vars_in d in
    match assoc "variables" d with
    | None => Val (auto, d)
    | Some (VDict vd) =>
      let vars := fold_left (fun vars e => set_key (fst e) (snd e) vars) vd auto in
      rbind (process_dict n (Some "variables") vars vd) (fun vd' => Val (vars, set_key "variables" (VDict vd') d))
    | Some _ => Exn AttributeError
    end.
  Lemma process_dict_S : forall n d_key vars_in d, process_dict (S n) d_key vars_in d =
    rbind (first_part n vars_in d) (fun st =>
      let '(vars, d1) := st in
      rbind (load_variables vars d1 d_key) (fun vars1 =>
      rbind (rmap (expand_entry expand vars1) d1) (fun d2 =>
      rbind (reload vars_in d2 d_key) (fun vars2 =>
      rbind (process_conditions expand eval c ph (process_dict n None) vars2 d2) (fun d3 =>
      rbind (reload vars_in d3 d_key) (fun vars3 =>
      rmap (process_entry (fun key => process_dict n (Some key) vars3) (process_list n vars3)) d3)))))).
  Proof. reflexivity. Qed.
  Lemma process_list_S : forall n vars l, process_list (S n) vars l =
    rbind (rmap (process_item expand (process_dict n None vars) (process_list n vars) vars) l) (fun ls => Val (concat ls)).
  Proof. reflexivity. Qed.

  Lemma first_mid : forall n vars_in d vars d1, dict_at n -> ok QA (S n) (VDict d) -> first_part n vars_in d = Val (vars, d1) -> entries QA n d1.
  Proof.
    intros n vars_in d vars d1 D H E1. cbn [ok] in H. destruct H as [ND H]. unfold first_part in E1. cbv zeta in E1.
    destruct (assoc "variables" d) as [v|] eqn:EA.
    - destruct v as [s|z|l|vd|cl]; try discriminate. apply rbind_Val in E1. destruct E1 as (vd' & E1 & E2). inversion E2; subst.
      pose proof (assoc_In _ _ _ _ EA) as Hin. rewrite Forall_forall in H. destruct (H _ Hin) as [Hq Hok]. cbn in Hq, Hok.
      pose proof (D _ _ _ _ Hok E1) as HB.
      assert (Hin' : In "variables" (map fst d)) by (apply (in_map fst) in Hin; exact Hin).
      split; [rewrite set_key_keys; apply mem_In in Hin'; rewrite Hin', app_nil_r; exact ND|].
      rewrite Forall_forall. intros [k v] He.
      assert (C : (k = "variables" /\ v = VDict vd') \/ (k <> "variables" /\ In (k, v) d)).
      { apply In_assoc in He; [|rewrite set_key_keys; apply mem_In in Hin'; rewrite Hin', app_nil_r; exact ND].
        destruct (string_dec k "variables") as [->|nk].
        - left. rewrite assoc_set_same in He. split; congruence.
        - right. split; [exact nk|]. rewrite assoc_set_other in He by congruence. apply assoc_In. exact He. }
      destruct C as [[-> ->]|[nk Hkv]].
      + split; [exact Hq|]. cbn [snd]. split; [eapply ok_mono; [apply le_n|exact BA|exact HB]|intros _; exact HB].
      + destruct (H _ Hkv) as [H1 H2]. split; [exact H1|]. split; [exact H2|]. cbn. congruence.
    - inversion E1; subst. split; [exact ND|]. rewrite Forall_forall in *. intros e He. destruct (H e He) as [H1 H2]. split; [exact H1|]. split; [exact H2|].
      intros E. apply assoc_None in EA. exfalso. apply EA. rewrite <- E. apply in_map. exact He.
  Qed.

  Theorem pass_ok : forall n, dict_at n /\ list_at n.
  Proof.
    induction n as [|n [D L]]; [split; [intros key vars d d' []|intros vars l l' []]|]. split.
    - intros key vars_in d d' H HP. rewrite process_dict_S in HP.
      apply rbind_Val in HP. destruct HP as ([vars d1] & E1 & HP).
      pose proof (first_mid _ _ _ _ _ D H E1) as F1.
      apply rbind_Val in HP. destruct HP as (vars1 & _ & HP). apply rbind_Val in HP. destruct HP as (d2 & E2 & HP).
      apply rbind_Val in HP. destruct HP as (vars2 & _ & HP). apply rbind_Val in HP. destruct HP as (d3 & E3 & HP).
      apply rbind_Val in HP. destruct HP as (vars3 & _ & HP).
      pose proof (expand_mid _ _ _ _ _ F1 E2) as F2. pose proof (conditions_mid _ _ _ _ D F2 E3) as F3.
      clear - D L F3 HP. destruct F3 as [ND F3]. split; [rewrite (same_keys _ _ _ _ _ (process_entry_key _ _) HP); exact ND|]. clear ND. apply rmap_Val in HP. cbn [ok]. induction HP as [|[k v] e' d d' H HP IH]; [constructor|].
      inversion F3 as [|? ? (M1 & M2 & M3) F4]; subst. cbn [fst snd] in *. constructor; [|auto].
      unfold process_entry in H. destruct (String.eqb_spec k "variables") as [->|nk].
      + inversion H; subst. cbn. split; [exact M1|auto].
      + destruct n as [|n]; [destruct M2|].
        destruct v as [s|z|l|dd|cl]; try (inversion H; subst; cbn; split; [exact M1|exact I]).
        * apply rbind_Val in H. destruct H as (l' & H1 & H). inversion H; subst. split; [exact M1|]. cbn [snd]. eapply L; eassumption.
        * apply rbind_Val in H. destruct H as (l' & H1 & H). inversion H; subst. split; [exact M1|]. cbn [snd]. eapply D; eassumption.
        * discriminate H.
    - intros vars l l' H HP. rewrite process_list_S in HP. apply rbind_Val in HP. destruct HP as (ls & E & HP). inversion HP; subst.
      apply rmap_Val in E. cbn [ok] in *. induction E as [|x r l ls H1 E IH]; [constructor|]. inversion H; subst. cbn [concat].
      apply Forall_app. split; [|auto]. eapply process_item_ok; eassumption.
  Qed.
End P.

Section T.
  Variable expand : dict -> value -> result value.
  Variable eval : dict -> value -> result bool.
  Variable c : ctx.
  Variable ph : phase.
  Hypothesis FL : flat_lists expand.
  Hypothesis XE : forall vars v, no_nofuel (expand vars v).
  Hypothesis XV : forall vars v, no_nofuel (eval vars v).
  Notation process_dict := (Model_Cond.process_dict expand eval c ph).
  Notation process_list := (Model_Cond.process_list expand eval c ph).
  Definition any (k : string) : Prop := True.
  Lemma any_closed : closed_keys any.
  Proof. intros k l b _ _. exact I. Qed.

  Lemma eval_pairs_nn : forall n l vars r, length l <= n -> no_nofuel (eval_pairs expand eval vars l r).
  Proof.
    induction n as [|n IH]; intros l vars r Hl; [destruct l; [discriminate|cbn in Hl; lia]|].
    destruct l as [|e [|x rest]]; try discriminate. destruct x as [s|z|l|t|cl]; try discriminate. cbn [eval_pairs].
    assert (HS : forall f, no_nofuel (match r with None => eval_single expand eval vars e t f | Some _ => Val r end)).
    { intros f. destruct r; [discriminate|]. unfold eval_single. apply nn_bind; [apply XE|]. intros x _. destruct x; try discriminate; (apply nn_bind; [apply XV|discriminate]). }
    assert (HR : no_nofuel (rbind (match r with None => eval_single expand eval vars e t None | Some _ => Val r end) (fun res' => eval_pairs expand eval vars rest res'))).
    { apply nn_bind; [apply HS|]. intros o _. apply IH. cbn in Hl. lia. }
    destruct rest as [|y rest]; [exact HR|]. destruct y as [s|z|l|f|cl]; try exact HR. destruct rest; [apply HS|discriminate].
  Qed.
  Lemma eval_condition_nn : forall vars v, no_nofuel (eval_condition expand eval vars v).
  Proof.
    intros vars [s|z|l|d|cl]; try discriminate. unfold eval_condition. destruct l as [|x [|y l]]; [discriminate|destruct x; discriminate|].
    destruct x; apply (eval_pairs_nn (S (S (length l)))); apply le_n.
  Qed.
  Lemma load_variables_nn : forall vars d k, no_nofuel (load_variables vars d k).
  Proof. intros vars d k. unfold load_variables. destruct (assoc "variables" d) as [[]|]; discriminate. Qed.

  Theorem pass_terminates : forall n,
    (forall key vars d, ok any n (VDict d) -> no_nofuel (process_dict n key vars d)) /\
    (forall vars l, ok any n (VList l) -> no_nofuel (process_list n vars l)).
  Proof.
    induction n as [|n [D L]]; [split; [intros key vars d []|intros vars l []]|].
    destruct (pass_ok expand eval c ph FL any any any_closed any_closed (fun _ H => H) (fun _ H _ => H) n) as [DA LA].
    split.
    - intros key vars_in d H. rewrite process_dict_S. apply nn_bind.
      + unfold first_part. cbv zeta. destruct (assoc "variables" d) as [v|] eqn:EA; [|discriminate]. destruct v as [s|z|l|vd|cl]; try discriminate.
        apply nn_bind; [|discriminate]. apply D. apply assoc_In in EA. cbn [ok] in H. destruct H as [_ H]. rewrite Forall_forall in H. apply (H _ EA).
      + intros [vars d1] E1. pose proof (first_mid expand eval c ph any any (fun _ X => X) n vars_in d vars d1 DA H E1) as F1.
        apply nn_bind; [apply load_variables_nn|]. intros vars1 _. apply nn_bind.
        * apply rmap_nn. intros [k v] _. unfold expand_entry. destruct v as [s|z|l|dd|cl]; try discriminate. destruct (String.eqb _ _); [discriminate|].
          apply nn_bind; [apply XE|]. intros x _. destruct x; discriminate.
        * intros d2 E2. pose proof (expand_mid expand any any any n vars1 d1 d2 F1 E2) as F2. apply nn_bind; [apply load_variables_nn|]. intros vars2 _. apply nn_bind.
          -- unfold process_conditions. destruct (conditions_key ph) as [ck|]; [|discriminate]. destruct (assoc ck d2) as [v|] eqn:EA; [|discriminate].
             assert (Hv : ok any n v). { destruct F2 as [_ F2]. apply assoc_In in EA. rewrite Forall_forall in F2. exact (proj1 (proj2 (F2 _ EA))). }
             destruct v as [s|z|conds|dd|cl]; try discriminate.
             ++ destruct s; discriminate.
             ++ clear EA. revert Hv. generalize (del_key ck d2). induction conds as [|cond conds IH]; intros d0 Hv; [discriminate|]. cbn [rfold].
                destruct n as [|n']; [destruct Hv|]. cbn [ok] in Hv. inversion Hv as [|? ? Hc Hcs]; subst.
                apply nn_bind; [|intros d' _; apply IH; exact Hcs]. apply nn_bind; [apply eval_condition_nn|]. intros [md|] Ho; [|discriminate].
                apply nn_bind; [|intros; apply merge_dicts_nn]. apply D. destruct n' as [|n']; [destruct Hc|].
                eapply ok_mono; [|intros k Hk; exact Hk|eapply condition_ok; [exact Hc|exact Ho]]. lia.
             ++ destruct dd; discriminate.
          -- intros d3 E3. pose proof (conditions_mid expand eval c ph any any any_closed any_closed (fun _ X => X) (fun _ X _ => X) n vars2 d2 d3 DA F2 E3) as F3.
             apply nn_bind; [apply load_variables_nn|]. intros vars3 _. apply rmap_nn. intros [k v] He. destruct F3 as [_ F3]. rewrite Forall_forall in F3.
             destruct (F3 _ He) as (_ & Hv & _). cbn [snd] in Hv. unfold process_entry. destruct (String.eqb k "variables"); [discriminate|].
             destruct v as [s|z|l|dd|cl]; try discriminate; (apply nn_bind; [|discriminate]); auto.
    - intros vars l H. rewrite process_list_S. apply nn_bind; [|discriminate]. cbn [ok] in H. rewrite Forall_forall in H.
      apply rmap_nn. intros v Hv. unfold process_item. specialize (H v Hv). destruct v as [s|z|l0|dd|cl]; try discriminate.
      + apply nn_bind; [apply XE|]. intros x _. destruct x; discriminate.
      + apply nn_bind; [auto|discriminate].
      + apply nn_bind; [auto|discriminate].
  Qed.
End T.

(** ** The statements *)
Lemma suffixed_longer : forall b k, suffixed b k -> String.length b <= String.length k.
Proof. intros b k S. induction S; [apply le_n|]. rewrite str_length_app. lia. Qed.
Lemma affects_suffix : forall k l b, affects k (VList l) b -> k = b \/ exists a, In a ["="; "+"; "?"] /\ k = b ++ a.
Proof.
  intros k l b [H|[H|[H|[H _]]]].
  - right. exists "=". cbn. auto.
  - right. exists "+". cbn. auto.
  - right. exists "?". cbn. auto.
  - left. exact H.
Qed.
Lemma closed_not_suffixed : forall K, closed_keys (fun k => ~ suffixed K k).
Proof. intros K k l b HA H S. apply H. destruct (affects_suffix _ _ _ HA) as [->|(a & Ha & ->)]; [exact S|]. apply sx_more; assumption. Qed.
Lemma closed_plain : forall K, closed_keys (fun k => suffixed K k -> k = K).
Proof.
  intros K k l b HA H S. destruct (affects_suffix _ _ _ HA) as [->|(a & Ha & ->)]; [auto|].
  assert (E : b ++ a = K) by (apply H; apply sx_more; assumption). apply suffixed_longer in S. rewrite <- E, str_length_app in S.
  cbn in Ha. destruct Ha as [<-|[<-|[<-|[]]]]; cbn in S; lia.
Qed.

Theorem conditions_vanish : forall expand eval c ph K fuel key vars d d', flat_lists expand -> conditions_key ph = Some K ->
  no_dup_keys (VDict d) -> depth (VDict d) <= fuel -> all_keys (fun k => suffixed K k -> k = K) (VDict d) ->
  process_dict expand eval c ph fuel key vars d = Val d' ->
  all_keys (fun k => ~ suffixed K k) (VDict d').
Proof.
  intros expand eval c ph K fuel key vars d d' FL HK ND HD HA H.
  destruct (pass_ok expand eval c ph FL (fun k => suffixed K k -> k = K) (fun k => ~ suffixed K k)
    (closed_plain K) (closed_not_suffixed K)) with (n := fuel) as [D _].
  - intros k H1 H2. contradiction.
  - intros k H1 H2 S. apply H1 in S. congruence.
  - assert (G : ok (fun k => ~ suffixed K k) fuel (VDict d')). { eapply D; [|exact H]. apply ok_all_keys. auto. }
    apply ok_all_keys in G. apply G.
Qed.

Theorem phase_terminates : forall expand eval c ph fuel key vars d, flat_lists expand ->
  (forall vars v, expand vars v <> Exn NoFuel) -> (forall vars v, eval vars v <> Exn NoFuel) ->
  no_dup_keys (VDict d) -> depth (VDict d) <= fuel ->
  process_dict expand eval c ph fuel key vars d <> Exn NoFuel.
Proof.
  intros expand eval c ph fuel key vars d FL XE XV ND HD. apply pass_terminates; try assumption.
  apply ok_all_keys. split; [exact HD|]. split; [|exact ND].
  assert (G : forall n v, depth v <= n -> all_keys any v).
  { induction n as [|n IH]; intros v Hv; [pose proof (depth_pos v); lia|]. destruct v as [s|z|l|dd|cl]; constructor.
    - apply depth_list_le in Hv. rewrite Forall_forall in *. auto.
    - apply depth_dict_le in Hv. rewrite Forall_forall in *. intros e He. split; [exact I|auto]. }
  eapply G. apply le_n.
Qed.

Theorem phase_no_deeper : forall expand eval c ph fuel key vars d d', flat_lists expand ->
  no_dup_keys (VDict d) -> depth (VDict d) <= fuel ->
  process_dict expand eval c ph fuel key vars d = Val d' -> depth (VDict d') <= fuel /\ no_dup_keys (VDict d').
Proof.
  intros expand eval c ph fuel key vars d d' FL ND HD H.
  destruct (pass_ok expand eval c ph FL any any any_closed any_closed (fun _ X => X) (fun _ X _ => X) fuel) as [D _].
  assert (G : ok any fuel (VDict d')).
  { eapply D; [|exact H]. apply ok_all_keys. split; [exact HD|]. split; [|exact ND].
    assert (G : forall n v, depth v <= n -> all_keys any v).
    { induction n as [|n IH]; intros v Hv; [pose proof (depth_pos v); lia|]. destruct v as [s|z|l|dd|cl]; constructor.
      - apply depth_list_le in Hv. rewrite Forall_forall in *. auto.
      - apply depth_dict_le in Hv. rewrite Forall_forall in *. intros e He. split; [exact I|auto]. }
    eapply G. apply le_n. }
  apply ok_all_keys in G. tauto.
Qed.

Lemma suffixed_prefix : forall b k, suffixed b k -> String.prefix b k = true.
Proof.
  assert (P : forall b t, String.prefix b (b ++ t) = true).
  { induction b as [|a b IH]; intros t; [destruct t; reflexivity|]. cbn. destruct (ascii_dec a a); [apply IH|congruence]. }
  intros b k S. assert (G : exists t, k = b ++ t).
  { induction S as [|k a S (t & ->) Ha]; [exists ""; symmetry; apply append_nil_r|]. exists (t ++ a). apply append_assoc. }
  destruct G as (t & ->). apply P.
Qed.

Theorem conditions_vanish_spec : forall expand eval c ph K fuel key vars d d', flat_lists expand -> section_of ph K ->
  no_dup_keys (VDict d) -> depth (VDict d) <= fuel -> all_keys (fun k => suffixed K k -> k = K) (VDict d) ->
  process_dict expand eval c ph fuel key vars d = Val d' ->
  all_keys (fun k => ~ suffixed K k) (VDict d').
Proof. intros expand eval c ph K fuel key vars d d' HF HK. apply conditions_vanish; [exact HF|]. destruct HK; reflexivity. Qed.
