(** Model of the target dependency graph of gyp: gyp/pylib/gyp/input.py
    lines 1597-1611 and 1652-2169 (everything except the gyp-file graph, which
    is in [Model_FileGraph], and settings propagation, in
    [Model_Settings]). *)
From Verif Require Import Lib.

(** Exceptions raised by the modelled functions. *)
Inductive error : Type :=
| MissingDependency (dependency target : string)  (* input.py:1962-1965 GypError *)
| CircularDependency (cycles : list (list string)) (* input.py:1986-1988 CircularException *)
| KeyError (key : string)                          (* Python dict lookup failure *)
| MissingField (what target : string)              (* input.py:1853-1859 GypError *)
| OutOfFuel.                                       (* artefact of the model; excluded by theorems *)

Inductive outcome (A : Type) : Type :=
| Ok (a : A)
| Err (e : error).
Arguments Ok {A} a.
Arguments Err {A} e.

Definition bind {A B} (x : outcome A) (f : A -> outcome B) : outcome B :=
  match x with Ok a => f a | Err e => Err e end.

(** [for x in l: acc = f(acc, x)] where the body may raise. *)
Fixpoint ofold {A B} (f : A -> B -> outcome A) (l : list B) (acc : A) : outcome A :=
  match l with
  | [] => Ok acc
  | x :: l' => bind (f acc x) (fun acc' => ofold f l' acc')
  end.

(** The parts of a target dict the dependency code reads.  [sp_deps = None]
    means the key "dependencies" is absent.  Flags hold the truth value of
    the corresponding entry with the default the code uses when absent
    (input.py:1873, 1929, 2126). *)
Record spec : Type := mk_spec {
  sp_deps : option (list string);       (* "dependencies" *)
  sp_exports : list string;             (* "export_dependent_settings", default [] *)
  sp_type : option string;              (* "type" *)
  sp_has_name : bool;                   (* "target_name" present *)
  sp_traverse : bool;                   (* "dependencies_traverse", default True *)
  sp_hard : bool;                       (* "hard_dependency", default False *)
  sp_propagate : bool;                  (* "allow_sharedlib_linksettings_propagation", default True *)
  sp_deps_original : option (list string) (* "dependencies_original" *)
}.

(** The dict from qualified target name to target dict. *)
Definition targets := list (string * spec).

(** [spec.get("dependencies")], with both [None] and [[]] falsy
    (input.py:1954-1955). *)
Definition deps_list (s : spec) : list string :=
  match sp_deps s with Some l => l | None => [] end.

(** input.py:1597-1600 [Unify]: keep the first occurrence of every item. *)
Fixpoint unify_from (seen items : list string) : list string :=
  match items with
  | [] => []
  | e :: items' => if mem e seen then unify_from seen items'
                   else e :: unify_from (e :: seen) items'
  end.
Definition unify (items : list string) : list string := unify_from [] items.

(** input.py:1613-1616 [Filter]: all items different from [item]. *)
Definition filter_out (items : list string) (item : string) : list string :=
  filter (fun e => negb (String.eqb e item)) items.

Definition set_deps (s : spec) (d : option (list string)) : spec :=
  mk_spec d (sp_exports s) (sp_type s) (sp_has_name s) (sp_traverse s)
          (sp_hard s) (sp_propagate s) (sp_deps_original s).
Definition set_exports (s : spec) (d : list string) : spec :=
  mk_spec (sp_deps s) d (sp_type s) (sp_has_name s) (sp_traverse s)
          (sp_hard s) (sp_propagate s) (sp_deps_original s).
Definition set_deps_original (s : spec) (d : option (list string)) : spec :=
  mk_spec (sp_deps s) (sp_exports s) (sp_type s) (sp_has_name s) (sp_traverse s)
          (sp_hard s) (sp_propagate s) d.

(** input.py:1603-1610 [RemoveDuplicateDependencies]; dependency_sections is
    "dependencies" and "export_dependent_settings" (input.py:39). *)
Definition remove_duplicate_dependencies (ts : targets) : targets :=
  map (fun '(t, s) =>
         (t, set_exports (set_deps s (option_map unify (sp_deps s)))
                         (unify (sp_exports s)))) ts.

(** ** Graph nodes (input.py:1941-1967)

    [DependencyGraphNode] objects are represented by their [ref]; the root
    node (ref None) is implicit: it is the only dependency of a target that
    has none (input.py:1955-1957), and its dependents are [root_dependents]. *)

(** [dependency_nodes[t].dependencies] without the root node. *)
Definition node_dependencies (ts : targets) (t : string) : list string :=
  match assoc t ts with Some s => deps_list s | None => [] end.

(** [dependency_nodes[d].dependents]: appended to target by target, dependency
    by dependency (input.py:1952-1967). *)
Definition node_dependents (ts : targets) (d : string) : list string :=
  flat_map (fun '(t, s) => map (fun _ => t) (filter (String.eqb d) (deps_list s))) ts.

(** [root_node.dependents] (input.py:1955-1957). *)
Definition root_dependents (ts : targets) : list string :=
  map fst (filter (fun '(_, s) => match deps_list s with [] => true | _ => false end) ts).

(** input.py:1952-1965: the first dependency that is not a target. *)
Fixpoint find_missing_in (names : list string) (t : string) (ds : list string) : option (string * string) :=
  match ds with
  | [] => None
  | d :: ds' => if mem d names then find_missing_in names t ds' else Some (d, t)
  end.
Fixpoint find_missing (names : list string) (ts : targets) : option (string * string) :=
  match ts with
  | [] => None
  | (t, s) :: ts' => match find_missing_in names t (deps_list s) with
                     | Some e => Some e
                     | None => find_missing names ts'
                     end
  end.

(** input.py:1689-1719, the loop of [FlattenToList].  [stack] is
    in_degree_zeros with Python's last element (the one [pop()] returns)
    first.  [None] means the fuel ran out. *)
Fixpoint flatten_loop (fuel : nat) (dependents dependencies : string -> list string)
         (stack flat : list string) : option (list string) :=
  match fuel with
  | O => None
  | S fuel' =>
    match stack with
    | [] => Some flat
    | node :: stack' =>
      let flat' := oset_add node flat in
      let ready := filter (fun d => forallb (fun dd => mem dd flat') (sort (dependencies d)))
                          (sort (dependents node)) in
      flatten_loop fuel' dependents dependencies (rev ready ++ stack') flat'
    end
  end.

(** input.py:1672-1721 [FlattenToList], called on the root node. *)
Definition flatten_to_list (fuel : nat) (dependents dependencies : string -> list string)
           (roots : list string) : option (list string) :=
  flatten_loop fuel dependents dependencies (rev (sort roots)) [].

(** [path[: path.index(child) + 1]] (input.py:1733). *)
Fixpoint upto (x : string) (path : list string) : list string :=
  match path with
  | [] => []
  | y :: path' => if String.eqb x y then [y] else y :: upto x path'
  end.

(** input.py:1730-1736 [FindCycles.Visit], over the children of a node.
    [path] is Python's [path] without the root node, which is never a child.
    State: (visited, results). *)
Fixpoint find_cycles_visit (fuel : nat) (dependents : string -> list string)
         (path : list string) (children : list string)
         (st : list string * list (list string)) : option (list string * list (list string)) :=
  match fuel with
  | O => None
  | S fuel' =>
    (fix go (children : list string) (st : list string * list (list string)) {struct children} :=
       match children with
       | [] => Some st
       | child :: children' =>
         if mem child path
         then go children' (fst st, snd st ++ [child :: upto child path])
         else if mem child (fst st) then go children' st
         else match find_cycles_visit fuel' dependents (child :: path) (dependents child)
                                      (child :: fst st, snd st) with
              | Some st' => go children' st'
              | None => None
              end
       end) children st
  end.

(** input.py:1723-1741 [FindCycles], called on the root node. *)
Definition find_cycles (fuel : nat) (dependents : string -> list string) (roots : list string)
  : option (list (list string)) :=
  option_map snd (find_cycles_visit fuel dependents [] roots ([], [])).

(** input.py:1941-1990 [BuildDependencyList].  The node dict it also returns
    is represented by [node_dependencies]/[node_dependents].  When every
    target has dependencies the first target is made a child of the root
    before looking for cycles (1974-1980). *)
Definition build_dependency_list (ts : targets) : outcome (list string) :=
  match find_missing (map fst ts) ts with
  | Some (d, t) => Err (MissingDependency d t)
  | None =>
    match flatten_to_list (S (length ts)) (node_dependents ts) (node_dependencies ts)
                          (root_dependents ts) with
    | None => Err OutOfFuel
    | Some flat =>
      if Nat.eqb (length flat) (length ts) then Ok flat
      else
        let roots := match root_dependents ts with
                     | [] => match ts with [] => [] | (t, _) :: _ => [t] end
                     | r => r
                     end in
        match find_cycles (S (S (length ts))) (node_dependents ts) roots with
        | Some cycles => Err (CircularDependency cycles)
        | None => Err OutOfFuel
        end
    end
  end.

(** The two steps of [Load] at input.py:3024 (RemoveDuplicateDependencies) and
    input.py:3031 (BuildDependencyList); the optional gyp-file check between
    them does not change the targets. *)
Definition dependency_phase (ts : targets) : outcome (list string) :=
  build_dependency_list (remove_duplicate_dependencies ts).

(** ** Dependency queries on a node.  [links] is the [dependencies] attribute
    of the nodes, fixed when the graph was built. *)

(** input.py:1743-1753 [DirectDependencies] (with the default argument). *)
Definition direct_dependencies (links : string -> list string) (t : string) : list string :=
  fold_left (fun acc d => oset_add d acc) (links t) [].

(** input.py:1786-1792: import what [dependency] exports.  [done] is the list
    up to and including [dependency], [ins] what was inserted after it so far,
    [rest] the remainder of the list. *)
Fixpoint insert_imports (done ins rest : list string) (exports : list string) : list string :=
  match exports with
  | [] => ins
  | i :: exports' => if mem i (done ++ ins ++ rest) then insert_imports done ins rest exports'
                     else insert_imports done (ins ++ [i]) rest exports'
  end.

(** input.py:1776-1795 [_AddImportedDependencies]; the list is split at
    [index] into [done] and [rest]. *)
Fixpoint add_imported (fuel : nat) (ts : targets) (done rest : list string) : outcome (list string) :=
  match fuel with
  | O => Err OutOfFuel
  | S fuel' =>
    match rest with
    | [] => Ok done
    | d :: rest' =>
      match assoc d ts with
      | None => Err (KeyError d)
      | Some s =>
        let done' := done ++ [d] in
        let ins := insert_imports done' [] rest' (sp_exports s) in
        add_imported fuel' ts done' (ins ++ rest')
      end
    end
  end.

(** input.py:1797-1804 [DirectAndImportedDependencies].  Fuel: every target
    is visited at most once. *)
Definition direct_and_imported (ts : targets) (links : string -> list string) (t : string)
  : outcome (list string) :=
  add_imported (S (S (length ts))) ts [] (direct_dependencies links t).

(** input.py:1806-1821 [DeepDependencies].  Out of fuel corresponds to
    unbounded recursion (Python RecursionError) on a cyclic graph. *)
Fixpoint deep_dependencies (fuel : nat) (links : string -> list string) (t : string)
         (acc : list string) : outcome (list string) :=
  match fuel with
  | O => Err OutOfFuel
  | S fuel' =>
    ofold (fun acc d =>
             if mem d acc then Ok acc
             else bind (deep_dependencies fuel' links d acc) (fun acc' => Ok (oset_add d acc')))
          (links t) acc
  end.

(** input.py:29-35 [linkable_types]. *)
Definition linkable_types : list string :=
  ["executable"; "shared_library"; "loadable_module"; "mac_kernel_extension"; "windows_driver"]%string.

(** input.py:1883-1888: types that are fully linked when seen as a dependency. *)
Definition final_types : list string :=
  ["executable"; "loadable_module"; "mac_kernel_extension"; "windows_driver"]%string.

(** input.py:1823-1917 [_LinkDependenciesInternal].  The root node returns
    [dependencies] unchanged (1846-1847) and is not in [links]. *)
Fixpoint link_dependencies (fuel : nat) (ts : targets) (links : string -> list string)
         (include_shared : bool) (initial : bool) (ref : string) (acc : list string)
  : outcome (list string) :=
  match fuel with
  | O => Err OutOfFuel
  | S fuel' =>
    match assoc ref ts with
    | None => Err (KeyError ref)
    | Some s =>
      if negb (sp_has_name s) then Err (MissingField "target_name" ref) else
      match sp_type s with
      | None => Err (MissingField "type" ref)
      | Some ty =>
        let is_linkable := mem ty linkable_types in
        if initial && negb is_linkable then Ok acc
        else if String.eqb ty "none" && negb (sp_traverse s) then Ok (oset_add ref acc)
        else if negb initial && mem ty final_types then Ok acc
        else if negb initial && String.eqb ty "shared_library" && negb include_shared then Ok acc
        else if mem ref acc then Ok acc
        else
          let acc' := oset_add ref acc in
          if initial || negb is_linkable
          then ofold (fun a d => link_dependencies fuel' ts links include_shared false d a)
                     (links ref) acc'
          else Ok acc'
      end
    end
  end.

Definition link_fuel (ts : targets) : nat := S (S (length ts)).

(** input.py:1919-1932 [DependenciesForLinkSettings]. *)
Definition dependencies_for_link_settings (ts : targets) (links : string -> list string) (t : string)
  : outcome (list string) :=
  match assoc t ts with
  | None => Err (KeyError t)
  | Some s => link_dependencies (link_fuel ts) ts links (sp_propagate s) true t []
  end.

(** input.py:1934-1938 [DependenciesToLinkAgainst]. *)
Definition dependencies_to_link_against (ts : targets) (links : string -> list string) (t : string)
  : outcome (list string) :=
  link_dependencies (link_fuel ts) ts links true true t [].

(** ** input.py:2085-2169 [AdjustStaticLibraryDependencies] *)

(** Python [targets[t] = s] for an existing key. *)
Fixpoint update (t : string) (s : spec) (ts : targets) : targets :=
  match ts with
  | [] => []
  | (t', s') :: ts' => if String.eqb t t' then (t, s) :: ts' else (t', s') :: update t s ts'
  end.

(** input.py:2117-2136: the removal loop; [orig] is target_dict["dependencies"]. *)
Fixpoint drop_soft (ts : targets) (orig : list string) (ds : list string) : outcome (list string) :=
  match ds with
  | [] => Ok []
  | d :: ds' =>
    match assoc d ts with
    | None => Err (KeyError d)
    | Some s =>
      match sp_type s with
      | None => Err (KeyError "type")
      | Some ty =>
        let is_static := String.eqb ty "static_library" in
        if (is_static && negb (sp_hard s)) || (negb is_static && negb (mem d orig))
        then drop_soft ts orig ds'
        else bind (drop_soft ts orig ds') (fun r => Ok (d :: r))
      end
    end
  end.

(** input.py:2153-2159: append the link dependencies that are not present. *)
Definition add_link_dependencies (t : string) (link_deps : list string)
           (cur : option (list string)) : option (list string) :=
  fold_left (fun cur d => if String.eqb d t then cur
                          else Some (oset_add d (match cur with Some l => l | None => [] end)))
            link_deps cur.

(** One iteration of the loop over flat_list (input.py:2094-2169). *)
Definition adjust_target (flat : list string) (links : string -> list string)
           (sort_dependencies : bool) (ts : targets) (t : string) : outcome targets :=
  match assoc t ts with
  | None => Err (KeyError t)
  | Some s =>
    match sp_type s with
    | None => Err (KeyError "type")
    | Some ty =>
      if String.eqb ty "static_library" then
        match sp_deps s with
        | None => Ok ts
        | Some orig =>
          bind (direct_and_imported ts links t) (fun ds =>
          bind (drop_soft ts orig ds) (fun kept =>
          let s' := set_deps_original s (Some orig) in
          Ok (update t (set_deps s' (match kept with [] => None | _ => Some kept end)) ts)))
        end
      else if mem ty linkable_types then
        bind (dependencies_to_link_against ts links t) (fun lds =>
        let ds := add_link_dependencies t lds (sp_deps s) in
        let ds' := if sort_dependencies
                   then option_map (fun l => filter (fun d => mem d l) (rev flat)) ds
                   else ds in
        Ok (update t (set_deps s ds') ts))
      else Ok ts
    end
  end.

Definition adjust_static_library_dependencies (flat : list string) (links : string -> list string)
           (sort_dependencies : bool) (ts : targets) : outcome targets :=
  ofold (adjust_target flat links sort_dependencies) flat ts.
