(** Proofs about conditions and variables. *)
From Verif Require Import LibFacts StrFacts Model_Value Model_Merge Model_Filter Model_Cond Spec_Merge Spec_Cond
  Proof_Merge Proof_Merge2 Proof_Merge3 Proof_Filter Proof_Filter2.
Local Open Scope string_scope.

(** ** EvalCondition *)
Lemma branches_else : forall e t f rest ps els, branches (e :: VDict t :: VDict f :: rest) ps els ->
  rest = [] /\ ps = [(e, t)] /\ els = Some f.
Proof.
  intros e t f rest ps els B. inversion B as [| |? ? ? ? ? N]; subst; [auto|]. exfalso. eapply N. reflexivity.
Qed.
Section E.
  Variable expand : dict -> value -> result value.
  Variable eval : dict -> value -> result bool.
  Notation verdict := (Spec_Cond.verdict expand eval).
  Notation eval_single := (Model_Cond.eval_single expand eval).
  Notation eval_pairs := (Model_Cond.eval_pairs expand eval).

  Lemma eval_single_spec : forall vars e t f r, eval_single vars e t f = Val r <->
    (verdict vars e true /\ r = Some t) \/ (verdict vars e false /\ r = f).
  Proof.
    intros vars e t f r. unfold Model_Cond.eval_single, Spec_Cond.verdict. split.
    - intros H. apply rbind_Val in H. destruct H as (x & Hx & H). destruct x as [s|z|l|d|c]; try discriminate;
        apply rbind_Val in H; destruct H as ([|] & Hb & H); inversion H; subst; [left|right|left|right]; (split; [eexists; split; [exact Hx|]; split; [eauto|exact Hb]|reflexivity]).
    - intros [[(x & Hx & T & Hb) ->]|[(x & Hx & T & Hb) ->]]; rewrite Hx; cbn [rbind]; destruct T as [(s & ->)|(z & ->)]; rewrite Hb; reflexivity.
  Qed.
  Lemma verdict_det : forall vars e b1 b2, verdict vars e b1 -> verdict vars e b2 -> b1 = b2.
  Proof. intros vars e b1 b2 (x & Hx & _ & H) (y & Hy & _ & H'). congruence. Qed.

  Lemma eval_pairs_some : forall n l vars t r, length l <= n ->
    (eval_pairs vars l (Some t) = Val r <-> r = Some t /\ exists ps els, branches l ps els).
  Proof.
    induction n as [|n IH]; intros l vars t r Hl.
    - destruct l; [|cbn in Hl; lia]. cbn. split; [intros H; inversion H; split; [reflexivity|]; exists [], None; constructor|intros [-> _]; reflexivity].
    - destruct l as [|e [|x rest]].
      + cbn. split; [intros H; inversion H; split; [reflexivity|]; exists [], None; constructor|intros [-> _]; reflexivity].
      + cbn. split; [discriminate|]. intros (_ & ps & els & B). inversion B.
      + destruct x as [s|z|l|tt|c]; cbn [Model_Cond.eval_pairs]; try (split; [discriminate|intros (_ & ps & els & B); inversion B]).
        destruct rest as [|y rest]; [cbn; split; [intros H; inversion H; split; [reflexivity|]; exists [(e, tt)], None; apply br_pair; [discriminate|constructor]|intros [-> _]; reflexivity]|].
        assert (G : forall y rest, (forall f, y <> VDict f) -> length (e :: VDict tt :: y :: rest) <= S n ->
          (rbind (Val (Some t)) (fun res' => eval_pairs vars (y :: rest) res') = Val r <->
           r = Some t /\ exists ps els, branches (e :: VDict tt :: y :: rest) ps els)).
        { intros y0 rest0 Hy HL. cbn [rbind]. rewrite IH by (cbn in *; lia). split; intros (-> & ps & els & B); (split; [reflexivity|]).
          - exists ((e, tt) :: ps), els. apply br_pair; [|exact B]. intros f rest' E. inversion E. eapply Hy; eassumption.
          - inversion B; subst; [exfalso; eapply Hy; reflexivity|]. eauto. }
        destruct y as [s|z|l|f|c]; try (apply G; [discriminate|exact Hl]).
        destruct rest as [|z rest].
        * split; [intros H; inversion H; split; [reflexivity|]; exists [(e, tt)], (Some f); constructor|intros [-> _]; reflexivity].
        * split; [discriminate|]. intros (_ & ps & els & B). apply branches_else in B. destruct B; discriminate.
  Qed.

  Lemma eval_pairs_none : forall n l vars r, length l <= n ->
    (eval_pairs vars l None = Val r <-> exists ps els, branches l ps els /\ chosen (verdict vars) ps els r).
  Proof.
    induction n as [|n IH]; intros l vars r Hl.
    - destruct l; [|cbn in Hl; lia]. cbn. split.
      + intros H; inversion H. exists [], None. split; constructor.
      + intros (ps & els & B & C). inversion B; subst. inversion C; reflexivity.
    - destruct l as [|e [|x rest]].
      + cbn. split.
        * intros H; inversion H. exists [], None. split; constructor.
        * intros (ps & els & B & C). inversion B; subst. inversion C; reflexivity.
      + cbn. split; [discriminate|]. intros (ps & els & B & _). inversion B.
      + destruct x as [s|z|l|tt|c]; cbn [Model_Cond.eval_pairs]; try (split; [discriminate|intros (ps & els & B & _); inversion B]).
        assert (G : forall rest, (forall f rest', rest <> VDict f :: rest') -> length (e :: VDict tt :: rest) <= S n ->
          (rbind (eval_single vars e tt None) (fun res' => eval_pairs vars rest res') = Val r <->
           exists ps els, branches (e :: VDict tt :: rest) ps els /\ chosen (verdict vars) ps els r)).
        { intros rest0 Hy HL. split.
          - intros H. apply rbind_Val in H. destruct H as (o & Ho & H). apply eval_single_spec in Ho. destruct Ho as [[V ->]|[V ->]].
            + apply (eval_pairs_some n) in H; [|cbn in HL; lia]. destruct H as (-> & ps & els & B). exists ((e, tt) :: ps), els.
              split; [apply br_pair; assumption|apply ch_true; exact V].
            + apply IH in H; [|cbn in HL; lia]. destruct H as (ps & els & B & C). exists ((e, tt) :: ps), els.
              split; [apply br_pair; assumption|apply ch_false; assumption].
          - intros (ps & els & B & C). inversion B; subst; [exfalso; eapply Hy; reflexivity|].
            inversion C; subst.
            + assert (E : eval_single vars e tt None = Val (Some tt)) by (apply eval_single_spec; auto). rewrite E. cbn [rbind].
              apply (eval_pairs_some n); [cbn in HL; lia|]. split; [reflexivity|eauto].
            + assert (E : eval_single vars e tt None = Val None) by (apply eval_single_spec; auto). rewrite E. cbn [rbind].
              apply IH; [cbn in HL; lia|]. eauto. }
        destruct rest as [|y rest]; [apply G; [discriminate|exact Hl]|].
        destruct y as [s|z|l|f|c]; try (apply G; [discriminate|exact Hl]).
        destruct rest as [|z rest].
        * rewrite eval_single_spec. split.
          -- intros [[V ->]|[V ->]]; exists [(e, tt)], (Some f); (split; [constructor|]); [apply ch_true; exact V|apply ch_false; [exact V|constructor]].
          -- intros (ps & els & B & C). apply branches_else in B. destruct B as (_ & -> & ->).
             inversion C as [|? ? ? ? V|? ? ? ? ? V C2]; subst; [left; auto|]. right. split; [assumption|]. inversion C2; reflexivity.
        * split; [discriminate|]. intros (ps & els & B & _). apply branches_else in B. destruct B; discriminate.
  Qed.

  Theorem eval_condition_spec : forall vars cond r, eval_condition expand eval vars cond = Val r <->
    exists l ps els, cond = VList l /\ ps <> [] /\ branches l ps els /\ chosen (verdict vars) ps els r.
  Proof.
    intros vars cond r. unfold eval_condition. destruct cond as [s|z|l|d|c]; try (split; [discriminate|intros (l0 & ps & els & E & _); discriminate E]).
    assert (G : l <> [] -> (forall x, l <> [x]) -> (eval_pairs vars l None = Val r <->
      exists l0 ps els, VList l = VList l0 /\ ps <> [] /\ branches l0 ps els /\ chosen (verdict vars) ps els r)).
    { intros N0 N1. rewrite (eval_pairs_none (length l)) by apply le_n. split.
      - intros (ps & els & B & C). exists l, ps, els. split; [reflexivity|]. split; [|auto]. intros ->. inversion B; subst. congruence.
      - intros (l0 & ps & els & E & _ & B & C). inversion E; subst. eauto. }
    destruct l as [|x [|y l]].
    - split; [discriminate|]. intros (l0 & ps & els & E & N & B & _). inversion E; subst. inversion B; subst. congruence.
    - split; [destruct x; discriminate|]. intros (l0 & ps & els & E & N & B & _). inversion E; subst. inversion B.
    - destruct x; apply G; discriminate.
  Qed.
End E.

(** ** Loading a variables section *)
Lemma loaded_step : forall vars d d_key vd name, NoDup (map fst vd) ->
  assoc name (fold_left (load_variable d d_key) vd vars) = loaded vars vd d d_key name.
Proof.
  intros vars d d_key vd name. revert vars. induction vd as [|[k v] vd IH]; intros vars ND.
  - cbn [fold_left]. unfold loaded. cbn [assoc usable]. destruct (match last_char name with Some "%"%char => true | _ => false end); destruct (assoc name vars); reflexivity.
  - inversion ND as [|? ? Hk ND']; subst. cbn [fold_left]. rewrite IH by exact ND'. clear IH. unfold loaded. cbn [assoc map fst] in *.
    assert (NK : assoc k vd = None) by (apply assoc_None; exact Hk).
    assert (NP : name ++ "%" <> name). { intros E. apply (f_equal String.length) in E. rewrite str_length_app in E. cbn in E. lia. }
    destruct (String.eqb_spec name k) as [->|n1].
    + (* the entry of that very name *)
      destruct (String.eqb_spec (k ++ "%") k) as [E|_]; [destruct (NP E)|]. rewrite NK.
      destruct (match last_char k with Some "%"%char => true | _ => false end) eqn:EP.
      * assert (EQ : assoc k (load_variable d d_key vars (k, v)) = assoc k vars).
        { unfold load_variable. destruct (variable_type v); [|reflexivity]. destruct (last_char k) as [a|] eqn:EL; [|discriminate].
          assert (a = "%"%char) as -> by (destruct a as [[|] [|] [|] [|] [|] [|] [|] [|]]; try discriminate; reflexivity).
          destruct (has_key _ _); [reflexivity|]. rewrite assoc_set_other; [reflexivity|].
          intros E. apply last_char_Some in EL. assert (L : String.length k = String.length (drop_last k)) by congruence.
          apply (f_equal String.length) in EL. rewrite str_length_app in EL. cbn in EL. lia. }
        rewrite EQ. reflexivity.
      * unfold load_variable. destruct v as [s|z|l|dd|c]; cbn [variable_type usable]; try reflexivity;
        (destruct (last_char k) as [a|]; [|rewrite assoc_set_same; reflexivity]);
        destruct a as [[|] [|] [|] [|] [|] [|] [|] [|]]; try discriminate EP; rewrite assoc_set_same; reflexivity.
    + destruct (String.eqb_spec (name ++ "%") k) as [<-|n2].
      * (* its default *)
        rewrite NK. unfold load_variable. rewrite last_char_snoc, drop_last_snoc. 
        destruct (if match last_char name with Some "%"%char => true | _ => false end then None else usable (assoc name vd)) as [w|]; [reflexivity|].
        cbn [usable].
        destruct v as [s|z|l|dd|c]; cbn [variable_type usable]; try (destruct (assoc name vars); reflexivity);
        unfold has_key; (destruct (mem name (map fst vars)) eqn:EM;
          [ destruct (assoc name vars) eqn:EA; [reflexivity|apply assoc_None in EA; apply mem_In in EM; contradiction]
          | assert (EA : assoc name vars = None) by (apply assoc_None; intros Hin; apply mem_In in Hin; congruence);
            rewrite assoc_set_same, EA; cbn [usable];
            destruct d_key as [dk|]; [|reflexivity];
            destruct (String.string_dec dk "variables") as [->|nd];
              [destruct (assoc name d); reflexivity|] ]).
        all: assert (R : forall (A : Type) (x y : A), match dk with "variables" => x | _ => y end = y)
          by (intros A x y; repeat (destruct dk as [|[[|] [|] [|] [|] [|] [|] [|] [|]] dk]; try reflexivity); congruence).
        all: rewrite !R; reflexivity.
      * (* unrelated *)
        assert (EQ : assoc name (load_variable d d_key vars (k, v)) = assoc name vars).
        { unfold load_variable. destruct (variable_type v); [|reflexivity].
          destruct (last_char k) as [a|] eqn:EL; [|apply assoc_set_other; congruence].
          destruct (Ascii.ascii_dec a "%") as [->|na].
          - destruct (has_key _ _); [reflexivity|]. apply assoc_set_other. intros E. apply n2. apply last_char_Some in EL. rewrite EL, E. reflexivity.
          - assert (R : forall (A : Type) (x y : A), match a with "%"%char => x | _ => y end = y)
              by (intros A x y; destruct a as [[|] [|] [|] [|] [|] [|] [|] [|]]; try reflexivity; congruence).
            rewrite R. apply assoc_set_other. congruence. }
        rewrite EQ. reflexivity.
Qed.

Theorem load_variables_spec : forall vars d d_key vd, assoc "variables" d = Some (VDict vd) -> NoDup (map fst vd) ->
  exists vars', load_variables vars d d_key = Val vars' /\ forall name, assoc name vars' = loaded vars vd d d_key name.
Proof.
  intros vars d d_key vd E ND. unfold load_variables. rewrite E. eexists. split; [reflexivity|]. intros name. apply loaded_step. exact ND.
Qed.
Lemma not_percent : forall name, ~ ends_with name "%" -> match last_char name with Some "%"%char => true | _ => false end = false.
Proof.
  intros name H. destruct (last_char name) as [a|] eqn:E; [|reflexivity].
  destruct (Ascii.ascii_dec a "%") as [->|n].
  - exfalso. apply H. exists (drop_last name). apply last_char_Some. exact E.
  - destruct a as [[|] [|] [|] [|] [|] [|] [|] [|]]; try reflexivity. congruence.
Qed.
Theorem set_overrides : forall vars d d_key vd vars' name v, assoc "variables" d = Some (VDict vd) -> NoDup (map fst vd) ->
  load_variables vars d d_key = Val vars' -> ~ ends_with name "%" -> In (name, v) vd -> usable (Some v) = Some v ->
  assoc name vars' = Some v.
Proof.
  intros vars d d_key vd vars' name v E ND H HP Hin HU. destruct (load_variables_spec vars d d_key vd E ND) as (w & Hw & HS).
  assert (w = vars') by congruence. subst w. rewrite HS. unfold loaded. rewrite not_percent by exact HP. apply In_assoc in Hin; [|exact ND]. rewrite Hin, HU. reflexivity.
Qed.
Theorem default_respects : forall vars d d_key vd vars' name v, assoc "variables" d = Some (VDict vd) -> NoDup (map fst vd) ->
  load_variables vars d d_key = Val vars' -> ~ In name (map fst vd) -> assoc name vars = Some v -> assoc name vars' = Some v.
Proof.
  intros vars d d_key vd vars' name v E ND H HN HV. destruct (load_variables_spec vars d d_key vd E ND) as (w & Hw & HS).
  assert (w = vars') by congruence. subst w. rewrite HS. unfold loaded. apply assoc_None in HN. rewrite HN, HV.
  destruct (match last_char name with Some "%"%char => true | _ => false end); reflexivity.
Qed.
Theorem default_applies : forall vars d d_key vd vars' name v, assoc "variables" d = Some (VDict vd) -> NoDup (map fst vd) ->
  load_variables vars d d_key = Val vars' -> ~ In name (map fst vd) -> assoc name vars = None ->
  In (name ++ "%", v) vd -> usable (Some v) = Some v ->
  assoc name vars' = Some (match d_key, assoc name d with Some "variables", Some w => w | _, _ => v end).
Proof.
  intros vars d d_key vd vars' name v E ND H HN HV Hin HU. destruct (load_variables_spec vars d d_key vd E ND) as (w & Hw & HS).
  assert (w = vars') by congruence. subst w. rewrite HS. unfold loaded. apply assoc_None in HN. apply In_assoc in Hin; [|exact ND]. rewrite HN, HV, Hin, HU.
  set (q := match last_char name with Some "%"%char => true | _ => false end).
  assert (G : (if q then None else usable None) = None) by (destruct q; reflexivity). rewrite G.
  destruct d_key as [dk|]; [|reflexivity]. destruct (string_dec dk "variables") as [->|nd]; [destruct (assoc name d); reflexivity|].
  assert (R : forall (A : Type) (x y : A), match dk with "variables" => x | _ => y end = y)
    by (intros A x y; repeat (destruct dk as [|[[|] [|] [|] [|] [|] [|] [|] [|]] dk]; try reflexivity); congruence).
  rewrite !R. reflexivity.
Qed.
