(** Property theorems: conditions and variables (C18, C46, C56, C57). *)
From Verif Require Import LibFacts StrFacts Model_Value Model_Merge Model_Filter Model_Cond Spec_Merge Spec_Cond
  Proof_Merge2 Proof_Cond Proof_Cond3 Examples_Merge Examples_Cond.
Local Open Scope string_scope.

(** C18: evaluating a conditional section succeeds exactly when it is a
    well-formed non-empty list of branches whose conditions, up to the first
    true one, all evaluate; it then yields the dict of the first true condition,
    else the final dict, else nothing. *)
Theorem C18_first_true : forall expand eval vars cond r, eval_condition expand eval vars cond = Val r <->
  exists l ps els, cond = VList l /\ ps <> [] /\ branches l ps els /\ chosen (verdict expand eval vars) ps els r.
Proof. exact eval_condition_spec. Qed.
Print Assumptions C18_first_true.

Example C18_witness :
  eval_condition ex_expand ex_eval [] (VList [VStr "0"; VDict [("a", VInt 1)]; VStr "x"; VDict [("a", VInt 2)]; VStr "1"; VDict [("a", VInt 3)]; VDict []])
    = Val (Some [("a", VInt 2)]) /\
  eval_condition ex_expand ex_eval [] (VList [VStr "0"; VDict []; VDict [("e", VInt 1)]]) = Val (Some [("e", VInt 1)]) /\
  eval_condition ex_expand ex_eval [] (VList [VStr "1"; VDict []; VStr "2"]) = Exn IndexError.
Proof. repeat split. Qed.

(** C46: the value of every variable after a variables section is loaded. *)
Theorem C46_loaded : forall vars d d_key vd, assoc "variables" d = Some (VDict vd) -> NoDup (map fst vd) ->
  exists vars', load_variables vars d d_key = Val vars' /\ forall name, assoc name vars' = loaded vars vd d d_key name.
Proof. exact load_variables_spec. Qed.
Print Assumptions C46_loaded.
(** C46: a name without '%' always overrides, a default never does, and a
    default applies when nothing sets the variable. *)
Theorem C46_set_overrides : forall vars d d_key vd vars' name v, assoc "variables" d = Some (VDict vd) -> NoDup (map fst vd) ->
  load_variables vars d d_key = Val vars' -> ~ ends_with name "%" -> In (name, v) vd -> usable (Some v) = Some v ->
  assoc name vars' = Some v.
Proof. exact set_overrides. Qed.
Print Assumptions C46_set_overrides.
Theorem C46_default_respects : forall vars d d_key vd vars' name v, assoc "variables" d = Some (VDict vd) -> NoDup (map fst vd) ->
  load_variables vars d d_key = Val vars' -> ~ In name (map fst vd) -> assoc name vars = Some v -> assoc name vars' = Some v.
Proof. exact default_respects. Qed.
Print Assumptions C46_default_respects.
Theorem C46_default_applies : forall vars d d_key vd vars' name v, assoc "variables" d = Some (VDict vd) -> NoDup (map fst vd) ->
  load_variables vars d d_key = Val vars' -> ~ In name (map fst vd) -> assoc name vars = None ->
  In (name ++ "%", v) vd -> usable (Some v) = Some v ->
  assoc name vars' = Some (match d_key, assoc name d with Some "variables", Some w => w | _, _ => v end).
Proof. exact default_applies. Qed.
Print Assumptions C46_default_applies.
Example C46_witness : load_variables [("a", VInt 1)] [("variables", VDict [("a%", VInt 2); ("b%", VInt 3); ("c", VInt 4); ("c%", VInt 5)])] None
  = Val [("a", VInt 1); ("b", VInt 3); ("c", VInt 4)].
Proof. reflexivity. Qed.

(** C56: after the early (late) phase no 'conditions' ('target_conditions')
    section is left at any depth. *)
Theorem C56_no_section_left : forall expand eval c ph K fuel key vars d d', flat_lists expand -> section_of ph K ->
  no_dup_keys (VDict d) -> depth (VDict d) <= fuel -> all_keys (fun k => suffixed K k -> k = K) (VDict d) ->
  process_dict expand eval c ph fuel key vars d = Val d' ->
  all_keys (fun k => ~ suffixed K k) (VDict d').
Proof. exact conditions_vanish_spec. Qed.
Print Assumptions C56_no_section_left.

(** C57: the pass terminates, with a recursion no deeper than the input is
    nested, and its result is nested no deeper. *)
Theorem C57_terminates : forall expand eval c ph fuel key vars d, flat_lists expand ->
  (forall vars v, expand vars v <> Exn NoFuel) -> (forall vars v, eval vars v <> Exn NoFuel) ->
  no_dup_keys (VDict d) -> depth (VDict d) <= fuel ->
  process_dict expand eval c ph fuel key vars d <> Exn NoFuel.
Proof. exact phase_terminates. Qed.
Print Assumptions C57_terminates.
Theorem C57_no_deeper : forall expand eval c ph fuel key vars d d', flat_lists expand ->
  no_dup_keys (VDict d) -> depth (VDict d) <= fuel ->
  process_dict expand eval c ph fuel key vars d = Val d' -> depth (VDict d') <= fuel /\ no_dup_keys (VDict d').
Proof. exact phase_no_deeper. Qed.
Print Assumptions C57_no_deeper.

Definition ex_phase_dict : dict :=
  [("targets", VList [VDict [("name", VStr "t");
      ("conditions", VList [VList [VStr "1"; VDict [("defines", VList [VStr "A"]); ("conditions", VList [VList [VStr "0"; VDict []; VDict [("type", VStr "none")]]])]]])]])].
Example C56_witness : flat_lists ex_expand /\ no_dup_keys (VDict ex_phase_dict) /\
  all_keys (fun k => suffixed "conditions" k -> k = "conditions") (VDict ex_phase_dict) /\
  process_dict ex_expand ex_eval ctx0 Early (depth (VDict ex_phase_dict)) None [] ex_phase_dict
    = Val [("targets", VList [VDict [("name", VStr "t"); ("defines", VList [VStr "A"]); ("type", VStr "none")]])].
Proof.
  split; [|split; [|split; [|reflexivity]]].
  - intros vars s l H. discriminate.
  - repeat constructor; cbn; intuition discriminate.
  - repeat constructor; cbn; intros S; apply suffixed_prefix in S; first [discriminate | reflexivity].
Qed.

(** Finding: a 'conditions+' section inside a chosen branch comes back as an
    unevaluated 'conditions' section. *)
Theorem C56_suffix_refuted : exists d d', flat_lists ex_expand /\ no_dup_keys (VDict d) /\
  process_dict ex_expand ex_eval ctx0 Early (depth (VDict d)) None [] d = Val d' /\ In "conditions" (map fst d').
Proof. exact suffix_survives. Qed.
Print Assumptions C56_suffix_refuted.
