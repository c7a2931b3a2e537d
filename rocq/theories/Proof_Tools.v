(** The settings of the compiler and the linker. *)
From Verif Require Import Lib LibFacts Str StrFacts Model_Path Proof_Path Proof_Path2 Spec_Path Model_Value Model_Vcxproj Spec_Vcxproj Model_Cmdline Model_Tools Spec_Tools Proof_Vcxproj Proof_Vcxproj2 Proof_Vcxproj4 Proof_Custom Proof_Custom2 Proof_Custom3.
From Verif Require Proof_Merge2 Model_Writer.
Local Open Scope string_scope.

(** ** settings *)
Definition lookup (t : tools) (tool name : string) : option setting_value := assoc name (tool_settings t tool).
Lemma settings_set_same : forall t tool s, tool_settings (set_key tool s t) tool = s.
Proof. intros t tool s. unfold tool_settings. rewrite Proof_Merge2.assoc_set_same. reflexivity. Qed.
Lemma settings_set_other : forall t tool s tool', tool' <> tool -> tool_settings (set_key tool s t) tool' = tool_settings t tool'.
Proof. intros t tool s tool' N. unfold tool_settings. rewrite Proof_Merge2.assoc_set_other by congruence. reflexivity. Qed.
Lemma append_other : forall t tool setting v u t' tool' name, set_or_append t tool setting v u = inl t' -> tool' <> tool \/ name <> setting -> lookup t' tool' name = lookup t tool' name.
Proof.
  intros t tool setting v u t' tool' name E N. unfold lookup. destruct (string_dec tool' tool) as [->|NT].
  - destruct N as [N|N]; [contradiction|]. assert (A : forall v, assoc name (set_key setting v (tool_settings t tool)) = assoc name (tool_settings t tool)) by (intros v'; apply Proof_Merge2.assoc_set_other; congruence).
    unfold set_or_append in E. destruct (String.eqb setting "CompileAsWinRT"); [injection E as <-; rewrite settings_set_same; reflexivity|]. destruct (assoc setting (tool_settings t tool)) as [old|].
    + destruct (is_set old); [destruct u; [injection E as <-; rewrite settings_set_same; reflexivity|]; destruct old; try discriminate; destruct (with_backslashes setting v); try discriminate; injection E as <-|injection E as <-]; rewrite settings_set_same; apply A.
    + injection E as <-. rewrite settings_set_same. apply A.
  - assert (B : forall s, tool_settings (set_key tool s t) tool' = tool_settings t tool') by (intros s; apply settings_set_other; exact NT).
    unfold set_or_append in E. destruct (String.eqb setting "CompileAsWinRT"); [injection E as <-; rewrite B; reflexivity|]. destruct (assoc setting (tool_settings t tool)) as [old|].
    + destruct (is_set old); [destruct u; [injection E as <-; rewrite B; reflexivity|]; destruct old; try discriminate; destruct (with_backslashes setting v); try discriminate; injection E as <-|injection E as <-]; rewrite B; reflexivity.
    + injection E as <-. rewrite B. reflexivity.
Qed.
Lemma append_items : forall t tool setting l t', set_or_append t tool setting (Items l) false = inl t' -> setting <> "CompileAsWinRT" ->
  lookup t' tool setting = Some (Items ((match lookup t tool setting with Some (Items o) => o | _ => [] end) ++ match with_backslashes setting (Items l) with Items m => m | Text _ => [] end)%list).
Proof.
  intros t tool setting l t' E N. unfold set_or_append in E. assert (X : String.eqb setting "CompileAsWinRT" = false) by (apply String.eqb_neq; exact N). rewrite X in E. assert (B : exists m, with_backslashes setting (Items l) = Items m) by (unfold with_backslashes; destruct (_ || _)%bool; eexists; reflexivity). destruct B as (m & B). rewrite B in *. unfold lookup in *. destruct (assoc setting (tool_settings t tool)) as [old|] eqn:O.
  - destruct (is_set old) eqn:S.
    + destruct old as [s|o]; [discriminate|]. injection E as <-. rewrite settings_set_same. apply Proof_Merge2.assoc_set_same.
    + injection E as <-. rewrite settings_set_same. destruct old as [s|[|? ?]]; [|reflexivity + apply Proof_Merge2.assoc_set_same|discriminate]; rewrite Proof_Merge2.assoc_set_same; reflexivity.
  - injection E as <-. rewrite settings_set_same. rewrite Proof_Merge2.assoc_set_same. reflexivity.
Qed.
Definition elsewhere (tool name : string) (s : step) : Prop := tool <> step_tool s \/ name <> step_setting s.
Lemma steps_other : forall l t t' tool name, run_steps l t = inl t' -> Forall (elsewhere tool name) l -> lookup t' tool name = lookup t tool name.
Proof.
  induction l as [|s l IH]; intros t t' tool name E F; cbn [run_steps] in E; [injection E as <-; reflexivity|]. inversion F as [|? ? F1 F2]; subst. destruct (even_if_empty s).
  - destruct (set_or_append t _ _ _ _) as [t1|] eqn:S; [|discriminate]. rewrite (IH _ _ _ _ E F2). exact (append_other _ _ _ _ _ _ _ _ S F1).
  - unfold tool_append in E. destruct (is_set (step_value s)); [destruct (set_or_append t _ _ _ _) as [t1|] eqn:S; [|discriminate]; rewrite (IH _ _ _ _ E F2); exact (append_other _ _ _ _ _ _ _ _ S F1)|exact (IH _ _ _ _ E F2)].
Qed.
Lemma steps_items : forall l1 s l2 t t' items, run_steps (l1 ++ s :: l2) t = inl t' -> Forall (elsewhere (step_tool s) (step_setting s)) (l1 ++ l2) -> step_value s = Items items -> only_if_unset s = false -> step_setting s <> "CompileAsWinRT" ->
  (even_if_empty s = true \/ items <> []) ->
  lookup t' (step_tool s) (step_setting s) = Some (Items ((match lookup t (step_tool s) (step_setting s) with Some (Items o) => o | _ => [] end) ++ match with_backslashes (step_setting s) (Items items) with Items m => m | Text _ => [] end)%list).
Proof.
  induction l1 as [|x l1 IH]; intros s l2 t t' items E F V U N K; cbn [app] in *.
  - cbn [run_steps] in E. rewrite V, U in E. assert (E' : exists t1, set_or_append t (step_tool s) (step_setting s) (Items items) false = inl t1 /\ run_steps l2 t1 = inl t').
    { destruct (even_if_empty s).
      - destruct (set_or_append t _ _ _ _) as [t1|]; [|discriminate]. exists t1. auto.
      - destruct K as [K|K]; [discriminate|]. unfold tool_append in E. destruct items; [contradiction|]. cbn [is_set] in E. destruct (set_or_append t _ _ _ _) as [t1|]; [|discriminate]. exists t1. auto. }
    destruct E' as (t1 & E1 & E2). rewrite (steps_other _ _ _ _ _ E2 F). exact (append_items _ _ _ _ _ E1 N).
  - inversion F as [|? ? F1 F2]; subst. change (x :: (l1 ++ s :: l2))%list with ([x] ++ (l1 ++ s :: l2))%list in E. cbn [app run_steps] in E.
    assert (E' : exists t1, run_steps [x] t = inl t1 /\ run_steps (l1 ++ s :: l2) t1 = inl t').
    { cbn [run_steps]. destruct ((if even_if_empty x then set_or_append else tool_append) t (step_tool x) (step_setting x) (step_value x) (only_if_unset x)) as [t1|]; [|discriminate]. exists t1. auto. }
    destruct E' as (t1 & E1 & E2). rewrite (IH _ _ _ _ _ E2 F2 V U N K). rewrite (steps_other _ _ _ _ _ E1 (Forall_cons _ F1 (Forall_nil _))). reflexivity.
Qed.
Lemma assoc_keys : forall {B} (g : string -> list (string * B)) keys k b, (forall x y, In y (g x) -> fst y = x) -> In k keys -> g k = [(k, b)] -> assoc k (flat_map g keys) = Some b.
Proof.
  intros B g keys k b G. induction keys as [|x keys IH]; intros I E; [destruct I|]. cbn [flat_map]. destruct (string_dec k x) as [->|N].
  - rewrite E. cbn [app assoc]. rewrite String.eqb_refl. reflexivity.
  - destruct I as [->|I]; [contradiction|]. assert (A : forall l r, (forall y, In y l -> fst y = x) -> assoc k (l ++ r) = @assoc B k r).
    { clear - N. induction l as [|[a v] l IH]; intros r H; [reflexivity|]. cbn [app assoc]. destruct (String.eqb_spec k a) as [->|]; [destruct N; exact (H (a, v) (or_introl eq_refl))|]. apply IH. intros y Y. apply H. right. exact Y. }
    rewrite A by (intros y Y; exact (G x y Y)). exact (IH I E).
Qed.
Lemma assoc_map_names : forall (h : string -> string) keys k, In k keys -> assoc k (map (fun n => (n, h n)) keys) = Some (h k).
Proof.
  intros h keys k. induction keys as [|x keys IH]; intros I; [destruct I|]. cbn [map assoc]. destruct (String.eqb_spec k x) as [->|N]; [reflexivity|]. destruct I as [->|I]; [contradiction|exact (IH I)].
Qed.
Lemma written_lookup : forall t tool name v, tool <> "" -> lookup t tool name = Some v -> written (sections t) tool name = Some (formatted tool name v).
Proof.
  intros t tool name v N L. unfold lookup, tool_settings in L. destruct (assoc tool t) as [s|] eqn:A; [|discriminate]. assert (K : In tool (sort (map fst t))) by (apply sort_In; apply in_map_iff; exists (tool, s); split; [reflexivity|exact (assoc_In _ _ _ _ A)]).
  unfold written, sections. set (g := fun tool : string => _). set (h := fun n => formatted tool n (match assoc n s with Some v => v | None => Items [] end)).
  assert (G : g tool = [(tool, map (fun n => (n, h n)) (sort (map fst s)))]).
  { unfold g, h. assert (X : String.eqb tool "" = false) by (apply String.eqb_neq; exact N). rewrite X. unfold tool_settings. rewrite A. destruct s as [|x s]; [discriminate L|]. reflexivity. }
  rewrite (assoc_keys g _ _ _ (fun x y Y => ltac:(unfold g in Y; destruct (String.eqb x ""); [destruct Y|]; destruct (tool_settings t x); [destruct Y|]; destruct Y as [<-|[]]; reflexivity)) K G).
  rewrite assoc_map_names by (apply sort_In; apply in_map_iff; exists (name, v); split; [reflexivity|exact (assoc_In _ _ _ _ L)]). unfold h. rewrite L. reflexivity.
Qed.
