(** What the phase pass does. *)
From Verif Require Import LibFacts StrFacts Model_Value Model_Merge Model_Filter Model_Cond Spec_Merge Spec_Cond Spec_Scope
  Proof_Merge Proof_Merge2 Proof_Merge3 Proof_Filter Proof_Filter2 Proof_Cond Proof_Cond2 Proof_Cond3.
Local Open Scope string_scope.

(** ** Values of variables *)
Lemma automatic_cons : forall k v d n, ~ In k (map fst d) -> automatic ((k, v) :: d) n = if String.eqb n ("_" ++ k) then usable (Some v) else automatic d n.
Proof.
  intros k v d n H. destruct (String.eqb_spec n ("_" ++ k)) as [->|E].
  - cbn. rewrite String.eqb_refl. reflexivity.
  - unfold automatic. destruct n as [|a n]; [reflexivity|]. destruct a as [[] [] [] [] [] [] [] []]; try reflexivity. cbn [assoc]. destruct (String.eqb_spec n k) as [->|]; [destruct E; reflexivity|reflexivity].
Qed.
Lemma load_automatic_seen : forall d vars, NoDup (map fst d) -> values (load_automatic vars d) (over (automatic d) (raw vars)).
Proof.
  unfold values, raw, load_automatic. induction d as [|[k v] d IH]; intros vars N n; cbn [fold_left].
  - unfold over. destruct n as [|[[] [] [] [] [] [] [] []] n]; reflexivity.
  - cbn [map fst] in N. inversion N as [|? ? N1 N2]; subst. rewrite IH by exact N2. unfold over. rewrite (automatic_cons k v d n N1). cbn [fst snd].
    destruct (String.eqb_spec n ("_" ++ k)) as [->|E].
    + replace (automatic d ("_" ++ k)) with (@None value) by (cbn; rewrite (proj2 (assoc_None _ k d) N1); reflexivity). destruct v; cbn [variable_type usable]; rewrite ?assoc_set_same; reflexivity.
    + destruct (automatic d n); [reflexivity|]. destruct (variable_type v); [rewrite assoc_set_other by congruence|]; reflexivity.
Qed.
Lemma loaded_seen : forall vars vd d d_key n, loaded vars vd d d_key n = over (set_by vd) (over (raw vars) (default_in vd d d_key)) n.
Proof.
  intros vars vd d d_key n. unfold loaded, over, set_by, raw, default_in, is_default.
  destruct (if match last_char n with Some "%"%char => true | _ => false end then None else usable (assoc n vd)); [reflexivity|]. destruct (assoc n vars); [reflexivity|]. destruct (usable (assoc (n ++ "%") vd)); reflexivity.
Qed.
Lemma over_ext : forall a a' b b' : env, (forall n, a n = a' n) -> (forall n, b n = b' n) -> forall n, over a b n = over a' b' n.
Proof. intros a a' b b' A B n. unfold over. rewrite A, B. reflexivity. Qed.
Lemma over_assoc : forall (a b c : env) n, over (over a b) c n = over a (over b c) n.
Proof. intros a b c n. unfold over. destruct (a n); reflexivity. Qed.
Lemma load_variables_seen : forall vars d d_key vd vars', load_variables vars d d_key = Val vars' -> assoc "variables" d = Some (VDict vd) -> NoDup (map fst vd) ->
  values vars' (over (set_by vd) (over (raw vars) (default_in vd d d_key))).
Proof.
  intros vars d d_key vd vars' H A N. destruct (load_variables_spec vars d d_key vd A N) as (w & E & S). rewrite E in H. injection H as <-. intros n. rewrite S. apply loaded_seen.
Qed.
Lemma reload_seen : forall vars d d_key vars', NoDup (map fst d) -> (forall vd, assoc "variables" d = Some (VDict vd) -> NoDup (map fst vd)) -> reload vars d d_key = Val vars' -> values vars' (seen_in (raw vars) d d_key).
Proof.
  intros vars d d_key vars' N NV H. unfold reload in H. unfold seen_in. destruct (assoc "variables" d) as [v|] eqn:A.
  - destruct v as [s|z|l|vd|cl]; try (unfold load_variables in H; rewrite A in H; discriminate). pose proof (load_variables_seen _ _ _ _ _ H A (NV vd eq_refl)) as S. intros n. rewrite S. apply over_ext; [reflexivity|]. apply over_ext; [|reflexivity]. exact (load_automatic_seen d vars N).
  - unfold load_variables in H. rewrite A in H. injection H as <-. apply load_automatic_seen, N.
Qed.
Lemma raw_seen : forall vd vars, NoDup (map fst vd) -> values (fold_left (fun vars e => set_key (fst e) (snd e) vars) vd vars) (over (raw vd) (raw vars)).
Proof.
  unfold values, raw. induction vd as [|[k v] vd IH]; intros vars N n; cbn [fold_left fst snd]; [reflexivity|]. inversion N as [|? ? N1 N2]; subst. rewrite IH by exact N2. unfold over. cbn [assoc].
  destruct (String.eqb_spec n k) as [->|E]; [rewrite (proj2 (assoc_None _ k vd) N1), assoc_set_same; reflexivity|]. rewrite assoc_set_other by congruence. reflexivity.
Qed.

(** ** Entries *)
Lemma set_with : forall k v (d : dict), In k (map fst d) -> with_entry k v d (set_key k v d).
Proof.
  intros k v d. induction d as [|[k1 w] d IH]; intros H; [destruct H|]. cbn [set_key fst]. destruct (String.eqb_spec k k1) as [->|E].
  - exists [], w, d. split; [reflexivity|]. split; [intros []|reflexivity].
  - destruct H as [H|H]; [cbn in H; congruence|]. destruct (IH H) as (d1 & w1 & d2 & E1 & N & E2). exists ((k1, w) :: d1), w1, d2. rewrite E1 at 1. split; [reflexivity|]. split; [intros [X|X]; [cbn in X; congruence|auto]|rewrite E2; reflexivity].
Qed.
Lemma del_id : forall k (d : dict), ~ In k (map fst d) -> del_key k d = d.
Proof.
  intros k d. unfold del_key. induction d as [|[k1 w] d IH]; intros H; [reflexivity|]. cbn [filter fst]. destruct (String.eqb_spec k k1) as [->|E]; [destruct H; left; reflexivity|]. cbn [negb]. rewrite IH; [reflexivity|]. intros X. apply H. right. exact X.
Qed.
Lemma del_without : forall k (d : dict), NoDup (map fst d) -> In k (map fst d) -> without_entry k d (del_key k d).
Proof.
  intros k d. induction d as [|[k1 w] d IH]; intros N H; [destruct H|]. cbn [map fst] in N. inversion N as [|? ? N1 N2]; subst. unfold del_key. cbn [filter fst]. destruct (String.eqb_spec k k1) as [->|E]; cbn [negb].
  - exists [], w, d. split; [reflexivity|]. split; [intros []|]. split; [exact N1|apply del_id, N1].
  - destruct H as [H|H]; [cbn in H; congruence|]. destruct (IH N2 H) as (d1 & w1 & d2 & E1 & M1 & M2 & E2). exists ((k1, w) :: d1), w1, d2. rewrite E1 at 1. split; [reflexivity|]. split; [intros [X|X]; [cbn in X; congruence|auto]|]. split; [exact M2|]. unfold del_key in E2. rewrite E2. reflexivity.
Qed.

Section P.
  Variable expand : dict -> value -> result value.
  Variable eval : dict -> value -> result bool.
  Variable c : ctx.
  Variable ph : phase.
  Hypothesis FL : flat_lists expand.
  Notation process_dict := (Model_Cond.process_dict expand eval c ph).
  Notation process_list := (Model_Cond.process_list expand eval c ph).
  Notation settles := (Spec_Scope.settles expand eval c ph).
  Notation items_settled := (Spec_Scope.items_settled expand eval c ph).
  Notation ok := (Proof_Cond2.ok any).

  Lemma dict_ok : forall n, dict_at expand eval c ph any any n.
  Proof. intros n. apply (pass_ok expand eval c ph FL any any any_closed any_closed (fun _ X => X) (fun _ X _ => X) n). Qed.
  Lemma ok_dict_nodup : forall n d, ok n (VDict d) -> NoDup (map fst d).
  Proof. intros [|n] d H; [destruct H|apply H]. Qed.
  Lemma entries_in : forall n d k v, entries any any any n d -> assoc k d = Some v -> ok n v.
  Proof. intros n d k v [_ F] A. apply assoc_In in A. rewrite Forall_forall in F. exact (proj1 (proj2 (F _ A))). Qed.

  Lemma expanded_spec : forall vars d d', rmap (expand_entry expand vars) d = Val d' -> expanded expand vars d d'.
  Proof.
    intros vars d d' H. apply rmap_Val in H. induction H as [|[k v] e' d d' H H2 IH]; [constructor|]. unfold expand_entry in H. destruct v as [s|z|l|dd|cl]; try (injection H as <-; apply ex_other; [right; discriminate|exact IH]).
    destruct (String.eqb_spec k "variables") as [->|NV]; [injection H as <-; apply ex_other; auto|]. apply rbind_Val in H. destruct H as (x & X & H). destruct x as [s'|z|l|dd|cl]; try discriminate; injection H as <-; (apply ex_string; [exact NV|exact X| |exact IH]); unfold single; eauto.
  Qed.
  Lemma section_iff : forall k, section_of ph k <-> conditions_key ph = Some k.
  Proof. intros k. destruct ph; cbn; split; intros H; inversion H; constructor. Qed.

  Definition dict_good (n : nat) : Prop := forall key vars d d', ok n (VDict d) -> process_dict n key vars d = Val d' -> settles key vars d d'.
  Definition list_good (n : nat) : Prop := forall vars l l', ok n (VList l) -> process_list n vars l = Val l' -> items_settled vars l l'.

  Lemma conditions_good : forall n vars d d', dict_good n -> entries any any any n d -> process_conditions expand eval c ph (process_dict n None) vars d = Val d' ->
    conditions_settled expand eval c ph vars d d'.
  Proof.
    intros n vars d d' D [ND F] H. unfold process_conditions in H.
    destruct (conditions_key ph) as [ck|] eqn:EC; [|injection H as <-; apply cs_none; intros k K; apply section_iff in K; congruence].
    assert (SC : section_of ph ck) by (apply section_iff, EC).
    destruct (assoc ck d) as [v|] eqn:EA.
    2:{ injection H as <-. apply cs_none. intros k K X. apply section_iff in K. assert (k = ck) as -> by congruence. apply assoc_None in EA. auto. }
    assert (IN : In ck (map fst d)) by (apply assoc_In in EA; apply (in_map fst) in EA; exact EA).
    pose proof (entries_in n d ck v (conj ND F) EA) as Hv. destruct v as [s|z|conds|dd|cl]; try discriminate.
    - destruct s; [|discriminate]. injection H as <-. eapply cs_empty; [exact SC|exact EA|left; reflexivity|apply del_without; assumption].
    - eapply cs_some; [exact SC|exact EA|apply del_without; assumption|]. destruct n as [|n]; [destruct Hv|]. cbn [Proof_Cond2.ok] in Hv. clear EA IN. revert H. generalize (del_key ck d).
      induction conds as [|cond conds IH]; intros d0 H; cbn [rfold] in H; [injection H as <-; constructor|]. apply Forall_cons_iff in Hv. destruct Hv as [Hc Hcs]. apply rbind_Val in H. destruct H as (d1 & H1 & H). specialize (IH Hcs d1 H).
      apply rbind_Val in H1. destruct H1 as (o & E1 & H1). apply eval_condition_spec in E1 as E1'. destruct E1' as (l & ps & els & EL & NE & B & C). subst cond. destruct o as [md|]; [|injection H1 as <-; eapply co_nothing; eassumption].
      apply rbind_Val in H1. destruct H1 as (md' & E2 & H1). eapply co_choice; try eassumption. eapply D; [|exact E2]. destruct n as [|n]; [destruct Hc|]. eapply ok_mono; [|intros k Hk; exact Hk|eapply condition_ok; [exact Hc|exact E1]]. lia.
    - destruct dd; [|discriminate]. injection H as <-. eapply cs_empty; [exact SC|exact EA|right; reflexivity|apply del_without; assumption].
  Qed.
  Lemma section_nodup : forall n d vd, entries any any any n d -> assoc "variables" d = Some (VDict vd) -> NoDup (map fst vd).
  Proof. intros n d vd E A. eapply ok_dict_nodup. eapply entries_in; eassumption. Qed.

  Theorem pass_settles : forall n, dict_good n /\ list_good n.
  Proof.
    induction n as [|n [D L]]; [split; [intros key vars d d' []|intros vars l l' []]|]. pose proof (dict_ok n) as DA. split.
    - intros key vars_in d d' H HP. rewrite process_dict_S in HP. apply rbind_Val in HP. destruct HP as ([vars d1] & E1 & HP).
      pose proof (first_mid expand eval c ph any any (fun _ X => X) n vars_in d vars d1 DA H E1) as F1.
      apply rbind_Val in HP. destruct HP as (vars1 & EV1 & HP). apply rbind_Val in HP. destruct HP as (d2 & E2 & HP). apply rbind_Val in HP. destruct HP as (vars2 & EV2 & HP). apply rbind_Val in HP. destruct HP as (d3 & E3 & HP). apply rbind_Val in HP. destruct HP as (vars3 & EV3 & HP).
      pose proof (expand_mid expand any any any n vars1 d1 d2 F1 E2) as F2. pose proof (conditions_mid expand eval c ph any any any_closed any_closed (fun _ X => X) (fun _ X _ => X) n vars2 d2 d3 DA F2 E3) as F3.
      apply (se_dict expand eval c ph key vars_in d d1 vars1 d2 vars2 d3 vars3 d').
      + pose proof (ok_dict_nodup _ _ H) as ND. unfold first_part in E1. cbv zeta in E1. destruct (assoc "variables" d) as [v|] eqn:A.
        * destruct v as [s|z|l|vd|cl]; try discriminate. apply rbind_Val in E1. destruct E1 as (vd' & P & E1). injection E1 as <- <-.
          assert (OV : ok n (VDict vd)). { cbn [Proof_Cond2.ok] in H. destruct H as [_ H]. rewrite Forall_forall in H. apply assoc_In in A. apply (H _ A). }
          assert (IN : In "variables" (map fst d)) by (apply assoc_In in A; apply (in_map fst) in A; exact A).
          eapply vs_some; [exact A| |eapply D; [exact OV|exact P]|apply set_with, IN|].
          -- intros m. rewrite (raw_seen vd (load_automatic vars_in d) (ok_dict_nodup _ _ OV) m). apply over_ext; [reflexivity|]. exact (load_automatic_seen d vars_in ND).
          -- apply (load_variables_seen _ _ _ _ _ EV1); [apply assoc_set_same|]. eapply ok_dict_nodup. eapply DA; eassumption.
        * injection E1 as <- <-. unfold load_variables in EV1. rewrite A in EV1. injection EV1 as <-. apply vs_none; [apply assoc_None, A|apply load_automatic_seen, ND].
      + apply expanded_spec, E2.
      + apply reload_seen; [apply F2|intros vd; apply (section_nodup n d2 vd F2)|exact EV2].
      + eapply conditions_good; eassumption.
      + apply reload_seen; [apply F3|intros vd; apply (section_nodup n d3 vd F3)|exact EV3].
      + clear - D L F3 HP. destruct F3 as [_ F3]. apply rmap_Val in HP. induction HP as [|[k v] e' d d' H HP IH]; [constructor|]. inversion F3 as [|? ? (M1 & M2 & M3) F4]; subst. cbn [fst snd] in *. specialize (IH F4).
        unfold process_entry in H. destruct (String.eqb_spec k "variables") as [->|nk]; [injection H as <-; apply es_other; auto|]. destruct v as [s|z|l|dd|cl]; try discriminate.
        * injection H as <-. apply es_other; [|exact IH]. unfold single. eauto.
        * injection H as <-. apply es_other; [|exact IH]. unfold single. eauto.
        * apply rbind_Val in H. destruct H as (l' & H1 & H). injection H as <-. apply es_list; [exact nk|eapply L; eassumption|exact IH].
        * apply rbind_Val in H. destruct H as (l' & H1 & H). injection H as <-. apply es_dict; [exact nk|eapply D; eassumption|exact IH].
    - intros vars l l' H HP. rewrite process_list_S in HP. apply rbind_Val in HP. destruct HP as (ls & E & HP). injection HP as <-. apply rmap_Val in E. cbn [Proof_Cond2.ok] in H. induction E as [|x r l ls H1 E IH]; [constructor|]. apply Forall_cons_iff in H. destruct H as [HX HL]. specialize (IH HL). cbn [concat].
      unfold process_item in H1. destruct x as [s|z|l0|dd|cl]; try discriminate.
      + apply rbind_Val in H1. destruct H1 as (x & X & H1). destruct x as [s'|z|xs|dd|cl]; try discriminate; injection H1 as <-; cbn [app].
        * apply is_string; [exact X|unfold single; eauto|exact IH].
        * apply is_string; [exact X|unfold single; eauto|exact IH].
        * apply is_many; assumption.
      + injection H1 as <-. cbn [app]. apply is_int, IH.
      + apply rbind_Val in H1. destruct H1 as (l' & P & H1). injection H1 as <-. cbn [app]. apply is_list; [eapply L; eassumption|exact IH].
      + apply rbind_Val in H1. destruct H1 as (d' & P & H1). injection H1 as <-. cbn [app]. apply is_dict; [eapply D; eassumption|exact IH].
  Qed.
End P.

Lemma all_any : forall v, all_keys any v.
Proof.
  assert (G : forall n v, depth v <= n -> all_keys any v).
  { induction n as [|n IH]; intros v Hv; [pose proof (depth_pos v); lia|]. destruct v as [s|z|l|dd|cl]; constructor.
    - apply depth_list_le in Hv. rewrite Forall_forall in *. auto.
    - apply depth_dict_le in Hv. rewrite Forall_forall in *. intros e He. split; [exact I|auto]. }
  intros v. eapply G. apply le_n.
Qed.
Theorem phase_settles : forall expand eval c ph fuel key vars d d', flat_lists expand -> no_dup_keys (VDict d) -> depth (VDict d) <= fuel ->
  process_dict expand eval c ph fuel key vars d = Val d' -> settles expand eval c ph key vars d d'.
Proof.
  intros expand eval c ph fuel key vars d d' FL N HD H. eapply (proj1 (pass_settles expand eval c ph FL fuel)); [|exact H]. apply ok_all_keys. split; [exact HD|]. split; [apply all_any|exact N].
Qed.
