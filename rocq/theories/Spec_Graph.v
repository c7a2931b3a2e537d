(** Specification vocabulary for the dependency-graph properties.  It only
    looks at the input dict of targets, not at any function of the model. *)
From Verif Require Import Lib Model_Graph.

(** Target [t] lists [d] among its "dependencies". *)
Definition depends_on (ts : targets) (t d : string) : Prop :=
  exists s l, In (t, s) ts /\ sp_deps s = Some l /\ In d l.

(** [t] depends on [d] through one or more steps. *)
Definition depends_transitively (ts : targets) : string -> string -> Prop :=
  clos_trans string (depends_on ts).

(** [t] lists [d] among its "export_dependent_settings". *)
Definition exports_to (ts : targets) (t d : string) : Prop :=
  exists s, In (t, s) ts /\ In d (sp_exports s).

Definition names (ts : targets) : list string := map fst ts.

(** [ts] is a Python dict: keys are unique. *)
Definition is_dict (ts : targets) : Prop := NoDup (names ts).

(** Every dependency names a target. *)
Definition closed (ts : targets) : Prop :=
  forall t d, depends_on ts t d -> In d (names ts).

Definition cyclic (ts : targets) : Prop := exists t, depends_transitively ts t t.

(** A valid build order: every target once, after everything it needs. *)
Definition build_order (ts : targets) (flat : list string) : Prop :=
  Permutation flat (names ts) /\
  forall t d, depends_on ts t d -> before d t flat.

(** Two dicts describe the same graph: same targets, same set of
    dependencies for each, in whatever order. *)
Definition same_graph (ts ts' : targets) : Prop :=
  Permutation (names ts) (names ts') /\
  forall t d, depends_on ts t d <-> depends_on ts' t d.

(** A reported cycle: [x0; x1; ...; xn] with xn = x0, n >= 1, each depending
    on the next. *)
Fixpoint chain (R : string -> string -> Prop) (l : list string) : Prop :=
  match l with
  | x :: ((y :: _) as l') => R x y /\ chain R l'
  | _ => True
  end.
Definition real_cycle (ts : targets) (c : list string) : Prop :=
  2 <= length c /\ hd_error c = Some (last c EmptyString) /\ chain (depends_on ts) c.

(** ** What a target links.
    [linked_into ts inc t x]: following the dependencies of [t], target [x]
    has to be linked into [t] (or have its link settings merged). *)
Section Linking.
  Variable ts : targets.
  Variable include_shared : bool.

  Definition type_is (x ty : string) : Prop := exists s, In (x, s) ts /\ sp_type s = Some ty.

  (** already finally linked: nothing links against it *)
  Definition final (x : string) : Prop :=
    type_is x "executable" \/ type_is x "loadable_module" \/
    type_is x "mac_kernel_extension" \/ type_is x "windows_driver" \/
    (type_is x "shared_library" /\ include_shared = false).

  (** a "none" target with dependencies_traverse = 0 *)
  Definition opaque (x : string) : Prop :=
    exists s, In (x, s) ts /\ sp_type s = Some "none"%string /\ sp_traverse s = false.

  (** what lies behind [x] is also needed: static libraries, objects, ... but
      not behind anything that is a linked image itself *)
  Definition transparent (x : string) : Prop :=
    ~ final x /\ ~ opaque x /\ ~ type_is x "shared_library".

  Inductive linked_into (t : string) : string -> Prop :=
  | link_direct x : depends_on ts t x -> ~ final x -> linked_into t x
  | link_behind y x : linked_into t y -> transparent y -> depends_on ts y x ->
                      ~ final x -> linked_into t x.

  Definition linkable (t : string) : Prop :=
    type_is t "executable" \/ type_is t "shared_library" \/ type_is t "loadable_module" \/
    type_is t "mac_kernel_extension" \/ type_is t "windows_driver".
End Linking.

(** Every target has a name and a type (otherwise gyp raises before the
    functions of interest return). *)
Definition typed (ts : targets) : Prop :=
  forall t s, In (t, s) ts -> sp_has_name s = true /\ sp_type s <> None.

(** ** What AdjustStaticLibraryDependencies promises for one target. *)

(** [x] is a dependency of [t] directly or by being exported (any number of
    steps) by a dependency of [t]. *)
Definition imported_by (ts : targets) (t x : string) : Prop :=
  exists d, depends_on ts t d /\ clos_refl_trans string (exports_to ts) d x.

Definition hard (ts : targets) (x : string) : Prop := exists s, In (x, s) ts /\ sp_hard s = true.

(** [s] (the dict of [t] before) and [s'] (after) differ only in the two
    dependency lists. *)
Definition same_but_dependencies (s s' : spec) : Prop :=
  sp_exports s' = sp_exports s /\ sp_type s' = sp_type s /\ sp_has_name s' = sp_has_name s /\
  sp_traverse s' = sp_traverse s /\ sp_hard s' = sp_hard s /\ sp_propagate s' = sp_propagate s.

Definition adjusted (ts : targets) (flat : list string) (sorted : bool) (t : string) (s s' : spec) : Prop :=
  same_but_dependencies s s' /\
  (* a static library keeps: hard static libraries it imports, and its
     direct dependencies that are not static libraries *)
  (type_is ts t "static_library" ->
     match sp_deps s with
     | None => s' = s
     | Some orig =>
       sp_deps_original s' = Some orig /\ sp_deps s' <> Some [] /\
       NoDup (deps_list s') /\
       forall x, In x (deps_list s') <->
                 (imported_by ts t x /\ type_is ts x "static_library" /\ hard ts x) \/
                 (In x orig /\ ~ type_is ts x "static_library")
     end) /\
  (* a linked image gains everything that must be linked into it *)
  (linkable ts t ->
     sp_deps_original s' = sp_deps_original s /\
     (forall x, In x (deps_list s') <->
                In x (deps_list s) \/ (x <> t /\ linked_into ts true t x)) /\
     (if sorted then sublist (deps_list s') (rev flat)
      else exists added, deps_list s' = deps_list s ++ added /\ NoDup added /\
                         forall x, In x added -> ~ In x (deps_list s))) /\
  (* everything else is left alone *)
  (~ type_is ts t "static_library" -> ~ linkable ts t -> s' = s).
