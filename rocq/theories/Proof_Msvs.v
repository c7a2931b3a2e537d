(** The conversion of Visual Studio settings. *)
From Verif Require Import Lib LibFacts Str StrFacts Model_Tools Model_Msvs Spec_Msvs Proof_Tools Proof_Tools2.
From Verif Require Model_Args Proof_Merge2.
Local Open Scope string_scope.

Lemma found_lookup : forall d tool name, found d tool name = lookup d tool name.
Proof. intros d tool name. unfold found, lookup, tool_settings. destruct (assoc tool d); reflexivity. Qed.

(** ** one after the other *)
Definition rule_of (tool name : string) : option rule := match assoc tool rules with Some rs => assoc name rs | None => None end.
Definition item := (string * string * setting_value)%type.
Definition flat (d : tools) : list item := flat_map (fun tl => map (fun nv => (fst tl, fst nv, snd nv)) (snd tl)) d.
Fixpoint run (l : list item) (out : tools) : option tools :=
  match l with
  | [] => Some out
  | (t, n, v) :: l' => match rule_of t n with Some r => match translate r v out with Some (out', _) => run l' out' | None => None end | None => run l' out end
  end.
Lemma run_app : forall l1 l2 out, run (l1 ++ l2)%list out = match run l1 out with Some out' => run l2 out' | None => None end.
Proof.
  induction l1 as [|[[t n] v] l1 IH]; intros l2 out; [reflexivity|]. cbn [app run]. destruct (rule_of t n) as [r|]; [|apply IH]. destruct (translate r v out) as [[o b]|]; [apply IH|reflexivity].
Qed.
Lemma settings_run : forall tool rs l out ws, assoc tool rules = Some rs -> option_map fst (convert_settings tool rs l out ws) = run (map (fun nv => (tool, fst nv, snd nv)) l) out.
Proof.
  intros tool rs l out ws A. revert out ws. induction l as [|[n v] l IH]; intros out ws; [reflexivity|]. cbn [convert_settings map run fst snd]. unfold rule_of at 1. rewrite A. destruct (assoc n rs) as [r|]; [|apply IH]. destruct (translate r v out) as [[o b]|]; [apply IH|reflexivity].
Qed.
Lemma unknown_run : forall tool (l : settings) out, assoc tool rules = None -> run (map (fun nv => (tool, fst nv, snd nv)) l) out = Some out.
Proof. intros tool l out A. induction l as [|[n v] l IH]; [reflexivity|]. cbn [map run fst snd]. unfold rule_of. rewrite A. exact IH. Qed.
Lemma convert_run : forall d out ws, option_map fst (convert_tools d out ws) = run (flat d) out.
Proof.
  induction d as [|[tool l] d IH]; intros out ws; [reflexivity|]. cbn [convert_tools flat flat_map fst snd]. rewrite run_app. destruct (assoc tool rules) as [rs|] eqn:A.
  - rewrite <- (settings_run tool rs l out ws A). destruct (convert_settings tool rs l out ws) as [[o w]|]; [apply IH|reflexivity].
  - rewrite (unknown_run tool l out A). apply IH.
Qed.
Lemma flat_In : forall d t n v, In (t, n, v) (flat d) <-> given_as d t n v.
Proof.
  intros d t n v. unfold flat, given_as. split.
  - intros I. apply (proj1 (in_flat_map _ _ _)) in I. destruct I as ([t' l] & I1 & I2). apply in_map_iff in I2. destruct I2 as ([n' v'] & E & I2). cbn in E. injection E as -> -> ->. exists l. auto.
  - intros (l & I1 & I2). apply in_flat_map. exists (t, l). split; [exact I1|]. apply in_map_iff. exists (n, v). auto.
Qed.
Lemma flat_NoDup : forall d, dictionary d -> NoDup (map fst (flat d)).
Proof.
  induction d as [|[tool l] d IH]; intros (D1 & D2); [apply NoDup_nil|]. cbn [flat flat_map fst snd]. rewrite map_app. inversion D1 as [|? ? N1 N2]; subst. apply NoDup_app_intro.
  - rewrite map_map. cbn [fst]. specialize (D2 tool l (or_introl eq_refl)). clear - D2. induction l as [|[n v] l IH]; [apply NoDup_nil|]. cbn [map fst] in *. inversion D2 as [|? ? M1 M2]; subst. apply NoDup_cons; [|exact (IH M2)]. intros I. apply in_map_iff in I. destruct I as ([n' v'] & E & I). cbn in E. injection E as ->. apply M1. apply in_map_iff. exists (n, v'). auto.
  - apply IH. split; [exact N2|]. intros t' l' I. exact (D2 t' l' (or_intror I)).
  - intros [t n] I J. apply in_map_iff in I. destruct I as ([[t1 n1] v1] & E & I). cbn in E. injection E as -> ->. apply in_map_iff in I. destruct I as ([n2 v2] & E & _). cbn in E. injection E as <- _ _.
    apply in_map_iff in J. destruct J as ([[t3 n3] v3] & E & J). cbn in E. injection E as -> ->. apply flat_In in J. destruct J as (l' & J1 & _). apply N1. apply in_map_iff. exists (tool, l'). auto.
Qed.

(** ** what a rule changes *)
Definition targets (r : rule) : list (string * string) :=
  match r with
  | Becomes t n _ | As_is t n => [(t, n)] | Ignored => [] | Flag t _ => [(t, "AdditionalOptions")] | Preprocessed t => [(t, "PreprocessToFile"); (t, "PreprocessSuppressLineNumbers")]
  end.
Lemma put_same : forall t n v out, lookup (put t n v out) t n = Some v.
Proof. intros t n v out. unfold lookup, put. rewrite settings_set_same, Proof_Merge2.assoc_set_same. reflexivity. Qed.
Lemma put_other : forall t n v out t' n', (t', n') <> (t, n) -> lookup (put t n v out) t' n' = lookup out t' n'.
Proof.
  intros t n v out t' n' N. unfold lookup, put. destruct (string_dec t' t) as [->|T]; [|rewrite settings_set_other by exact T; reflexivity]. rewrite settings_set_same. apply Proof_Merge2.assoc_set_other. congruence.
Qed.
Lemma touch_lookup : forall t out t' n', lookup (touch t out) t' n' = lookup out t' n'.
Proof. intros t out t' n'. unfold lookup, touch. destruct (string_dec t' t) as [->|T]; [rewrite settings_set_same|rewrite settings_set_other by exact T]; reflexivity. Qed.
Lemma translate_other : forall r v out out' b t n, translate r v out = Some (out', b) -> ~ In (t, n) (targets r) -> lookup out' t n = lookup out t n.
Proof.
  intros [rt rn ty| |rt rn|rt rf|rt] v out out' b t n E N; cbn [translate targets] in *.
  - destruct (convert_value ty v); [|injection E as <- _; apply touch_lookup|discriminate]. injection E as <- _. apply put_other. intros Q. apply N. left. congruence.
  - injection E as <- _. reflexivity.
  - injection E as <- _. apply put_other. intros Q. apply N. left. congruence.
  - assert (P : forall x, lookup (put rt "AdditionalOptions" x out) t n = lookup out t n) by (intros x; apply put_other; intros Q; apply N; left; congruence).
    assert (C : out' = out \/ exists x, out' = put rt "AdditionalOptions" x out). { destruct v as [s|]; [|injection E as <- _; auto]. repeat (destruct s as [|[[] [] [] [] [] [] [] []] s]; try (injection E as <- _; solve [auto | right; eexists; reflexivity])). }
    destruct C as [-> | (x & ->)]; [reflexivity|apply P].
  - assert (C : out' = touch rt out \/ exists x y, out' = put rt "PreprocessSuppressLineNumbers" y (put rt "PreprocessToFile" x out)). { destruct v as [s|]; [|injection E as <- _; auto]. repeat (destruct s as [|[[] [] [] [] [] [] [] []] s]; try (injection E as <- _; solve [auto | right; eexists; eexists; reflexivity])). }
    destruct C as [-> | (x & y & ->)]; [apply touch_lookup|]. rewrite put_other by (intros Q; apply N; right; left; congruence). apply put_other. intros Q. apply N. left. congruence.
Qed.
Lemma run_other : forall l out out' t n, run l out = Some out' -> (forall a b v r, In (a, b, v) l -> rule_of a b = Some r -> ~ In (t, n) (targets r)) -> lookup out' t n = lookup out t n.
Proof.
  induction l as [|[[a b] v] l IH]; intros out out' t n E H; cbn [run] in E; [injection E as <-; reflexivity|]. destruct (rule_of a b) as [r|] eqn:R.
  - destruct (translate r v out) as [[o x]|] eqn:T; [|discriminate]. rewrite (IH _ _ t n E) by (intros a' b' v' r' I; apply H with v'; right; exact I). exact (translate_other r v out o x t n T (H a b v r (or_introl eq_refl) R)).
  - apply (IH _ _ t n E). intros a' b' v' r' I. apply H with v'. right. exact I.
Qed.

(** ** no two rules change the same setting, but for two *)
Definition all_rules : list (string * string * rule) := flat_map (fun tl => map (fun nr => (fst tl, fst nr, snd nr)) (snd tl)) rules.
Lemma rule_In : forall t n r, rule_of t n = Some r -> In (t, n, r) all_rules.
Proof.
  intros t n r E. unfold rule_of in E. destruct (assoc t rules) as [rs|] eqn:A; [|discriminate]. apply in_flat_map. exists (t, rs). split; [exact (assoc_In _ _ _ _ A)|]. apply in_map_iff. exists (n, r). split; [reflexivity|exact (assoc_In _ _ _ _ E)].
Qed.
Definition shared : list (string * string) := [("ProjectReference", "LinkLibraryDependencies"); ("ClCompile", "AdditionalOptions")].
Definition pair_eqb (x y : string * string) : bool := String.eqb (fst x) (fst y) && String.eqb (snd x) (snd y).
Lemma pair_eqb_eq : forall x y, pair_eqb x y = true <-> x = y.
Proof. intros [a b] [c d]. unfold pair_eqb. cbn. rewrite andb_true_iff, !String.eqb_eq. split; [intros (-> & ->); reflexivity|intros E; injection E as -> ->; auto]. Qed.
Definition disjoint_rules : bool :=
  forallb (fun x => forallb (fun y => pair_eqb (fst x) (fst y) || forallb (fun p => existsb (pair_eqb p) shared || negb (existsb (pair_eqb p) (targets (snd y)))) (targets (snd x))) all_rules) all_rules.
Lemma disjoint_true : disjoint_rules = true.
Proof. vm_compute. reflexivity. Qed.
Lemma unique_target : forall a b r a' b' r' p, rule_of a b = Some r -> rule_of a' b' = Some r' -> In p (targets r) -> In p (targets r') -> ~ In p shared -> (a, b) = (a', b').
Proof.
  intros a b r a' b' r' p R R' I I' S. pose proof disjoint_true as D. unfold disjoint_rules in D. rewrite forallb_forall in D. specialize (D _ (rule_In _ _ _ R)). rewrite forallb_forall in D. specialize (D _ (rule_In _ _ _ R')). cbn [fst snd] in D. apply orb_true_iff in D. destruct D as [D|D]; [apply pair_eqb_eq in D; exact D|]. rewrite forallb_forall in D. specialize (D p I). apply orb_true_iff in D. destruct D as [D|D].
  - apply existsb_exists in D. destruct D as (q & Q & E). apply pair_eqb_eq in E. subst q. contradiction.
  - apply negb_true_iff in D. assert (T : existsb (pair_eqb p) (targets r') = true) by (apply existsb_exists; exists p; split; [exact I'|apply pair_eqb_eq; reflexivity]). congruence.
Qed.
Lemma final_value : forall d out ws a b v r t n, dictionary d -> convert d = Some (out, ws) -> given_as d a b v -> rule_of a b = Some r -> In (t, n) (targets r) -> ~ In (t, n) shared ->
  exists o1 o2 x, translate r v o1 = Some (o2, x) /\ lookup out t n = lookup o2 t n /\ (lookup o1 t n = None).
Proof.
  intros d out ws a b v r t n D C G R I S. pose proof (convert_run d [] []) as E. unfold convert in C. rewrite C in E. cbn [option_map fst] in E. symmetry in E. apply flat_In in G. pose proof (flat_NoDup d D) as N. destruct (in_split _ _ G) as (l1 & l2 & Q). rewrite Q in E, N. rewrite run_app in E. destruct (run l1 []) as [o1|] eqn:E1; [|discriminate]. cbn [run] in E. rewrite R in E. destruct (translate r v o1) as [[o2 x]|] eqn:T; [|discriminate].
  assert (K : forall a' b' v' (l : list item) r', In (a', b', v') l -> ~ In (a, b) (map fst l) -> rule_of a' b' = Some r' -> ~ In (t, n) (targets r')).
  { intros a' b' v' l r' J NI R' J'. apply NI. rewrite (unique_target a b r a' b' r' (t, n) R R' I J' S). apply in_map_iff. exists (a', b', v'). auto. }
  rewrite map_app in N. cbn [map fst] in N. assert (N2 : ~ In (a, b) (map fst l1) /\ ~ In (a, b) (map fst l2)) by (apply NoDup_remove in N; destruct N as (_ & N); split; intros J; apply N; apply in_or_app; auto). destruct N2 as (N1 & N2).
  exists o1, o2, x. split; [exact T|]. split.
  - apply (run_other _ _ _ t n E). intros a' b' v' r' J R'. exact (K a' b' v' l2 r' J N2 R').
  - rewrite (run_other _ _ _ t n E1); [reflexivity|]. intros a' b' v' r' J R'. exact (K a' b' v' l1 r' J N1 R').
Qed.
