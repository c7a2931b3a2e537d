(** Model of qualified target names and of the loader steps that only look at
    names: gyp/pylib/gyp/common.py:50-135 and gyp/pylib/gyp/input.py:1442-1466,
    1517-1595, 1993-2050, 2869-2931. *)
From Verif Require Import Lib Str Model_Graph.

(** common.py:59-75 [ParseQualifiedTarget]: [build_file, target, toolset]. *)
Definition parse_qualified_target (q : string) : option string * string * option string :=
  let (build_file, target) := match rsplit1 colon q with
                              | Some (b, t) => (Some b, t)
                              | None => (None, q)
                              end in
  match rsplit1 hash target with
  | Some (t, ts) => (build_file, t, Some ts)
  | None => (build_file, target, None)
  end.

(** common.py:126-133 [QualifiedTarget]; an empty (or None) toolset is left out. *)
Definition qualified_target (build_file target toolset : string) : string :=
  let q := (build_file ++ String colon target)%string in
  match toolset with
  | EmptyString => q
  | _ => (q ++ String hash toolset)%string
  end.

(** common.py:111-113 [BuildFile] on a qualified name.  Names without ':' have
    no build file (Python None); every name the loader builds has one
    (QualifiedTarget adds it), so [""] stands for None here. *)
Definition build_file (q : string) : string :=
  match rsplit1 colon q with Some (b, _) => b | None => EmptyString end.

(** common.py:51-56 [FindQualifiedTargets]. *)
Definition target_name_of (q : string) : string := snd (fst (parse_qualified_target q)).
Definition find_qualified_targets (target : string) (qs : list string) : list string :=
  filter (fun q => String.eqb (target_name_of q) target) qs.

(** ** input.py:1442-1466 [BuildTargetsDict] *)

(** A target dict as far as names go: target_name, toolset, suppress_wildcard. *)
Record tinfo : Type := mk_tinfo { ti_name : string; ti_toolset : string; ti_suppress : bool }.

(** data: build files in the order of data["target_build_files"], with their
    "targets" lists. *)
Definition build_data := list (string * list tinfo).

Inductive names_error : Type :=
| DuplicateTarget (name : string)        (* input.py:1462 *)
| SameFileWildcard (target : string)     (* input.py:1553-1560 *)
| NoSuchBuildFile (file : string)        (* input.py:1571 KeyError *)
| TargetNotFound (target : string)       (* input.py:2876 *)
| Colliding (name subdir : string)       (* input.py:2926-2929 *)
| Unqualified (target : string)          (* input.py:2915 ValueError: no ':' *)
| FileNotFound (file : string)           (* input.py:2020 *)
| FileCycle (cycles : list (list string))(* input.py:2045-2047 *)
| GraphError (e : error).

Definition qualified_names (data : build_data) : list string :=
  flat_map (fun '(f, tis) => map (fun ti => qualified_target f (ti_name ti) (ti_toolset ti)) tis) data.

(** The dict is returned as the list of its keys (insertion order), each with
    the target dict it maps to. *)
Fixpoint build_targets_loop (todo : list (string * tinfo)) (acc : list (string * tinfo))
  : list (string * tinfo) + names_error :=
  match todo with
  | [] => inl acc
  | (q, ti) :: todo' => if mem q (map fst acc) then inr (DuplicateTarget q)
                        else build_targets_loop todo' (acc ++ [(q, ti)])
  end.
Definition all_targets (data : build_data) : list (string * tinfo) :=
  flat_map (fun '(f, tis) => map (fun ti => (qualified_target f (ti_name ti) (ti_toolset ti), ti)) tis) data.
Definition build_targets_dict (data : build_data) : list (string * tinfo) + names_error :=
  build_targets_loop (all_targets data) [].

(** ** input.py:1517-1595 [ExpandWildcardDependencies], one dependency list *)

Definition star : string := "*"%string.

(** input.py:1543-1546: the wildcard test. *)
Definition is_wildcard (q : string) : bool :=
  let '(_, t, ts) := parse_qualified_target q in
  String.eqb t star || match ts with Some s => String.eqb s star | None => false end.

(** input.py:1572-1591: targets of the other file that the wildcard stands for. *)
Definition wildcard_matches (q : string) (file : string) (tis : list tinfo) : list string :=
  let '(_, t, ts) := parse_qualified_target q in
  map (fun ti => qualified_target file (ti_name ti) (ti_toolset ti))
      (filter (fun ti =>
                 negb (ti_suppress ti)
                 && (String.eqb t star || String.eqb t (ti_name ti))
                 && (match ts with
                     | Some s => String.eqb s star || String.eqb s (ti_toolset ti)
                     | None => false      (* None is in {"*", toolset} only if the toolset is None *)
                     end)) tis).

(** [del l[i]] and [l.insert(i, x)]. *)
Definition delete_at (i : nat) (l : list string) : list string := firstn i l ++ skipn (S i) l.
Definition insert_at (i : nat) (x : string) (l : list string) : list string := firstn i l ++ x :: skipn i l.

(** input.py:1588-1591: each match is inserted at [index + 1]; [k] is that
    position (the code's [index] is [k - 1] here, -1 included). *)
Fixpoint insert_matches (k : nat) (ms : list string) (l : list string) : nat * list string :=
  match ms with
  | [] => (k, l)
  | m :: ms' => insert_matches (S k) ms' (insert_at k m l)
  end.

(** The while loop (1538-1593) over [index] and the list being modified. *)
Fixpoint expand_loop (fuel : nat) (data : build_data) (target : string) (i : nat) (l : list string)
  : list string + names_error :=
  match fuel with
  | O => inr (GraphError OutOfFuel)
  | S fuel' =>
    match nth_error l i with
    | None => inl l
    | Some d =>
      if negb (is_wildcard d) then expand_loop fuel' data target (S i) l
      else if String.eqb (build_file d) (build_file target) then inr (SameFileWildcard target)
      else match assoc (build_file d) data with
           | None => inr (NoSuchBuildFile (build_file d))
           | Some tis =>
             let (k, l') := insert_matches i (wildcard_matches d (build_file d) tis) (delete_at i l) in
             expand_loop fuel' data target k l'
           end
    end
  end.
Definition expand_wildcards (data : build_data) (target : string) (ds : list string)
  : list string + names_error :=
  expand_loop (S (length ds)) data target 0 ds.

(** ** input.py:1993-2050 [VerifyNoGYPFileCircularDependencies] *)

Definition file_nodes (ts : targets) : list string := unify (map (fun '(t, _) => build_file t) ts).

(** Edges (file, file it depends on) in the order in which they are added. *)
Fixpoint add_file_edges (nodes : list string) (f : string) (ds : list string)
         (edges : list (string * string)) : list (string * string) + names_error :=
  match ds with
  | [] => inl edges
  | d :: ds' =>
    let g := build_file d in
    if String.eqb g f then add_file_edges nodes f ds' edges
    else if negb (mem g nodes) then inr (FileNotFound g)
    else if existsb (fun e => String.eqb (fst e) f && String.eqb (snd e) g) edges
         then add_file_edges nodes f ds' edges
         else add_file_edges nodes f ds' (edges ++ [(f, g)])
  end.
Fixpoint file_edges_loop (nodes : list string) (ts : targets) (edges : list (string * string))
  : list (string * string) + names_error :=
  match ts with
  | [] => inl edges
  | (t, s) :: ts' =>
    match add_file_edges nodes (build_file t) (deps_list s) edges with
    | inl edges' => file_edges_loop nodes ts' edges'
    | inr e => inr e
    end
  end.

Definition edge_dependencies (edges : list (string * string)) (f : string) : list string :=
  map snd (filter (fun e => String.eqb (fst e) f) edges).
Definition edge_dependents (edges : list (string * string)) (g : string) : list string :=
  map fst (filter (fun e => String.eqb (snd e) g) edges).

Definition verify_no_gyp_file_cycles (ts : targets) : unit + names_error :=
  let nodes := file_nodes ts in
  match file_edges_loop nodes ts [] with
  | inr e => inr e
  | inl edges =>
    let roots := filter (fun f => match edge_dependencies edges f with [] => true | _ => false end) nodes in
    match flatten_to_list (S (length nodes)) (edge_dependents edges) (edge_dependencies edges) roots with
    | None => inr (GraphError OutOfFuel)
    | Some flat =>
      if Nat.eqb (length flat) (length nodes) then inl tt
      else
        let roots' := match roots with
                      | [] => match nodes with [] => [] | f :: _ => [f] end
                      | r => r
                      end in
        match find_cycles (S (S (length nodes))) (edge_dependents edges) roots' with
        | Some cycles => inr (FileCycle cycles)
        | None => inr (GraphError OutOfFuel)
        end
    end
  end.

(** ** input.py:2869-2900 [PruneUnwantedTargets] *)

(** input.py:2871-2877: the roots, or the first pattern naming no target. *)
Fixpoint resolve_roots (flat : list string) (roots : list string) : list string + names_error :=
  match roots with
  | [] => inl []
  | r :: roots' =>
    let q := find_qualified_targets (strip r) flat in
    match q with
    | [] => inr (TargetNotFound (strip r))
    | _ => match resolve_roots flat roots' with
           | inl rest => inl (q ++ rest)
           | inr e => inr e
           end
    end
  end.

(** input.py:2879-2883: every root and its deep dependencies. *)
Fixpoint collect_wanted (links : string -> list string) (fuel : nat) (roots : list string)
         (wanted : list string) : outcome (list string) :=
  match roots with
  | [] => Ok wanted
  | r :: roots' =>
    bind (deep_dependencies fuel links r []) (fun deep =>
    collect_wanted links fuel roots'
      (fold_left (fun w d => oset_add d w) deep (oset_add r wanted)))
  end.

(** Returns the keys of wanted_targets, wanted_flat_list and the pruned
    per-file target lists (2887-2898). *)
Definition prune_unwanted_targets (ts : targets) (flat : list string) (links : string -> list string)
           (roots : list string) (data : build_data)
  : (list string * list string * build_data) + names_error :=
  match resolve_roots flat roots with
  | inr e => inr e
  | inl qs =>
    match collect_wanted links (S (length ts)) qs [] with
    | Err e => inr (GraphError e)
    | Ok wanted =>
      inl (wanted,
           filter (fun t => mem t wanted) flat,
           map (fun '(f, tis) =>
                  (f, filter (fun ti => mem (qualified_target f (ti_name ti) (ti_toolset ti)) wanted) tis)) data)
    end
  end.

(** ** input.py:2903-2931 [VerifyNoCollidingTargets] *)

(** posixpath.split: head (without trailing slashes unless it is all slashes)
    and tail. *)
Fixpoint all_slashes (s : string) : bool :=
  match s with
  | EmptyString => true
  | String a s' => Ascii.eqb a slash && all_slashes s'
  end.
Definition path_split (p : string) : string * string :=
  match rsplit1 slash p with
  | None => (EmptyString, p)
  | Some (h, t) =>
    let head := (h ++ String slash EmptyString)%string in
    (if all_slashes head then head else rstrip slash head, t)
  end.

Definition subdir_of (path : string) : string :=
  match fst (path_split path) with EmptyString => "."%string | d => d end.

Fixpoint verify_colliding_loop (used : list string) (qs : list string) : unit + names_error :=
  match qs with
  | [] => inl tt
  | q :: qs' =>
    match rsplit1 colon q with
    | None => inr (Unqualified q)
    | Some (path, name) =>
      let key := (subdir_of path ++ String colon name)%string in
      if mem key used then inr (Colliding name (subdir_of path))
      else verify_colliding_loop (used ++ [key]) qs'
    end
  end.
Definition verify_no_colliding_targets (qs : list string) : unit + names_error :=
  verify_colliding_loop [] qs.
