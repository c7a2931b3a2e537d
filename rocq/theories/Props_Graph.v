(** Properties of the target dependency graph (C01-C04, C06-C08, C49). *)
From Verif Require Import Lib Model_Graph Spec_Graph Proof_Graph Proof_Deps Proof_Adjust Examples_Graph.

(** C01: whenever loading yields an order, it is a build order: every target
    exactly once, after all its dependencies. *)
Theorem C01_build_order : forall ts flat,
  is_dict ts -> dependency_phase ts = Ok flat -> build_order ts flat.
Proof. exact phase_order. Qed.
Print Assumptions C01_build_order.

Example C01_witness : is_dict sample /\ dependency_phase sample = Ok sample_flat.
Proof. split; [exact sample_dict|vm_compute; reflexivity]. Qed.

(** C02: with all dependencies present, loading reports a circular
    dependency exactly when there is one, and succeeds otherwise. *)
Theorem C02_cycle_iff_error : forall ts, is_dict ts -> closed ts ->
  ((exists cs, dependency_phase ts = Err (CircularDependency cs)) <-> cyclic ts) /\
  ((exists flat, dependency_phase ts = Ok flat) <-> ~ cyclic ts).
Proof. exact phase_circular. Qed.
Print Assumptions C02_cycle_iff_error.

(** C02: every cycle named in the error message is a cycle of the graph. *)
Theorem C02_reported_cycles_are_real : forall ts cs, is_dict ts ->
  dependency_phase ts = Err (CircularDependency cs) -> Forall (real_cycle ts) cs.
Proof. exact phase_cycles_real. Qed.
Print Assumptions C02_reported_cycles_are_real.

Example C02_witness :
  is_dict sample_cycle2 /\
  dependency_phase sample_cycle2 = Err (CircularDependency [["b"; "c"; "b"]%string]).
Proof. split; [exact sample_cycle2_dict|vm_compute; reflexivity]. Qed.

(** C02, the message names at least one cycle: false of the code.  A cycle that
    no dependency-free target is behind is never visited by FindCycles, and
    the error lists nothing. *)
Theorem C02_cycle_named_refuted : exists ts,
  is_dict ts /\ closed ts /\ cyclic ts /\ dependency_phase ts = Err (CircularDependency []).
Proof.
  exact (ex_intro _ sample_cycle
    (conj sample_cycle_dict (conj sample_cycle_closed (conj sample_cycle_cyclic eq_refl)))).
Qed.
Print Assumptions C02_cycle_named_refuted.

(** C03: the order depends only on the graph, not on how the dict of targets
    or any list of dependencies was enumerated. *)
Theorem C03_enumeration_independent : forall ts ts' flat,
  is_dict ts -> same_graph ts ts' ->
  dependency_phase ts = Ok flat -> dependency_phase ts' = Ok flat.
Proof. exact phase_indep. Qed.
Print Assumptions C03_enumeration_independent.

Example C03_witness :
  same_graph sample sample_permuted /\ sample <> sample_permuted /\
  dependency_phase sample = Ok sample_flat.
Proof.
  split; [|split; [intros H; inversion H|vm_compute; reflexivity]]. split.
  - apply NoDup_Permutation; [exact sample_dict|exact sample_permuted_dict|].
    intros x. cbn. tauto.
  - assert (H : forall ts ts', forallb (fun '(t, s) => forallb (fun d => depends_onb ts' t d) (deps_list s)) ts = true ->
                forall t d, depends_on ts t d -> depends_on ts' t d).
    { intros ts ts' H t d [s [l [H1 [H2 H3]]]]. rewrite forallb_forall in H. specialize (H _ H1). cbn in H.
      rewrite forallb_forall in H. apply depends_onb_ok. apply H. unfold deps_list. rewrite H2. exact H3. }
    intros t d. split; apply H; vm_compute; reflexivity.
Qed.

(** C04: a dependency on a target that does not exist is always reported, the
    report names a real offender, and no order is produced. *)
Theorem C04_missing_dependency : forall ts, is_dict ts ->
  ((exists d t, dependency_phase ts = Err (MissingDependency d t)) <-> ~ closed ts) /\
  (forall d t, dependency_phase ts = Err (MissingDependency d t) ->
               depends_on ts t d /\ ~ In d (names ts)) /\
  (~ closed ts -> forall flat, dependency_phase ts <> Ok flat).
Proof. exact phase_missing. Qed.
Print Assumptions C04_missing_dependency.

Example C04_witness :
  is_dict sample_missing /\ dependency_phase sample_missing = Err (MissingDependency "ghost" "a").
Proof. split; [exact sample_missing_dict|vm_compute; reflexivity]. Qed.

(** The model's fuel is always enough: the phase ends in an order or in one
    of the two errors. *)
Theorem C01_total : forall ts, is_dict ts ->
  (exists flat, dependency_phase ts = Ok flat) \/
  (exists d t, dependency_phase ts = Err (MissingDependency d t)) \/
  (exists cs, dependency_phase ts = Err (CircularDependency cs)).
Proof. exact phase_total. Qed.
Print Assumptions C01_total.

(** C06: on an acyclic graph DeepDependencies lists exactly the transitive
    dependencies, once each, every one after its own dependencies. *)
Theorem C06_deep_dependencies : forall ts t,
  is_dict ts -> closed ts -> ~ cyclic ts -> In t (names ts) ->
  exists l, deep_of ts t = Ok l /\ NoDup l /\
    (forall x, In x l <-> depends_transitively ts t x) /\
    (forall x d, In x l -> depends_on ts x d -> before d x l).
Proof. exact deep_of_spec. Qed.
Print Assumptions C06_deep_dependencies.

Example C06_witness :
  (exists flat, dependency_phase sample = Ok flat) /\ closed sample /\
  deep_of sample "app" = Ok ["gen"; "libb"; "liba"; "libshared"]%string.
Proof.
  split; [exists sample_flat; vm_compute; reflexivity|].
  split; [exact sample_closed|vm_compute; reflexivity].
Qed.

(** C06: without the acyclicity check the recursion would never return when a
    cycle is reachable, whatever the recursion limit. *)
Theorem C06_cycle_diverges : forall ts t x, is_dict ts ->
  (x = t \/ depends_transitively ts t x) -> depends_transitively ts x x ->
  forall fuel res, deep_dependencies fuel (node_dependencies ts) t [] <> Ok res.
Proof. exact deep_of_diverges. Qed.
Print Assumptions C06_cycle_diverges.

Example C06_cycle_witness : depends_transitively sample_cycle "b" "b".
Proof. apply t_trans with "c"%string; apply t_step; apply depends_onb_ok; reflexivity. Qed.

(** C07: direct and imported dependencies are exactly what direct dependencies
    export, through any number of steps; no duplicates; direct ones keep
    their relative order. *)
Theorem C07_imported_dependencies : forall ts t,
  is_dict ts -> closed ts -> (forall t d, exports_to ts t d -> In d (names ts)) -> In t (names ts) ->
  exists l, direct_and_imported ts (node_dependencies ts) t = Ok l /\ NoDup l /\
    (forall x, In x l <-> imported_by ts t x) /\
    sublist (direct_dependencies (node_dependencies ts) t) l.
Proof. exact direct_and_imported_spec. Qed.
Print Assumptions C07_imported_dependencies.

Example C07_witness :
  closed sample /\ (forall t d, exports_to sample t d -> In d (names sample)) /\
  direct_and_imported sample (node_dependencies sample) "app" = Ok ["liba"; "libb"; "gen"; "libshared"]%string.
Proof. split; [exact sample_closed|]. split; [exact sample_exports|vm_compute; reflexivity]. Qed.

(** C08: for a linked image the link dependencies are the image itself first
    and then exactly the targets that must be linked into it; anything that
    is not linked has none. *)
Theorem C08_link_dependencies : forall ts include_shared,
  is_dict ts -> closed ts -> typed ts -> forall t, In t (names ts) ->
  (~ linkable ts t ->
   link_dependencies (link_fuel ts) ts (node_dependencies ts) include_shared true t [] = Ok []) /\
  (linkable ts t ->
   exists r, link_dependencies (link_fuel ts) ts (node_dependencies ts) include_shared true t [] = Ok (t :: r) /\
     NoDup (t :: r) /\ forall x, In x (t :: r) <-> x = t \/ linked_into ts include_shared t x).
Proof. exact link_initial. Qed.
Print Assumptions C08_link_dependencies.

Example C08_witness :
  closed sample /\ typed sample /\
  dependencies_to_link_against sample (node_dependencies sample) "app" = Ok ["app"; "liba"; "libb"; "gen"; "libshared"]%string /\
  dependencies_to_link_against sample (node_dependencies sample) "liba" = Ok [].
Proof. split; [exact sample_closed|]. split; [exact sample_typed|]. split; vm_compute; reflexivity. Qed.

(** C49: static libraries drop soft static dependencies and take over the hard
    ones exported to them; linked images gain all their link dependencies;
    nothing else changes. *)
Theorem C49_adjust_static_libraries : forall ts flat sorted,
  is_dict ts -> closed ts -> typed ts -> (forall t d, exports_to ts t d -> In d (names ts)) ->
  Permutation flat (names ts) ->
  exists ts', adjust_static_library_dependencies flat (node_dependencies ts) sorted ts = Ok ts' /\
    names ts' = names ts /\
    forall t s, In (t, s) ts -> exists s', In (t, s') ts' /\ adjusted ts flat sorted t s s'.
Proof. exact adjust_spec. Qed.
Print Assumptions C49_adjust_static_libraries.

Example C49_witness :
  match dependency_phase sample with
  | Ok flat => option_map (map (fun '(t, s) => (t, sp_deps s)))
                 (match adjust_static_library_dependencies flat (node_dependencies sample) true sample with
                  | Ok ts' => Some ts' | Err _ => None end)
               = Some [("app", Some ["liba"; "libshared"; "libb"; "gen"]);
                       ("liba", Some ["gen"]); ("libb", Some ["gen"]); ("gen", None);
                       ("libshared", Some ["libb"; "gen"])]%string
  | Err _ => False
  end.
Proof. vm_compute. reflexivity. Qed.
