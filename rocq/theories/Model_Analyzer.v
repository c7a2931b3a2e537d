(** Model of the analyzer generator: gyp/pylib/gyp/generator/analyzer.py:318-531
    and 608-715.  Target objects are identified with their qualified names.
    Parameters: [changed t] says whether the build file of [t], or one of its
    sources, is among the changed files (_WasBuildFileModified and
    _ExtractSources, 286-315, 202-231); [ord] is the order in which Python
    happens to iterate over a set. *)
From Verif Require Import Lib Model_Graph Model_Names.

(** What the analyzer reads of a target dict. *)
Record atarget := mk_atarget {
  a_deps : list string;     (* "dependencies", default [] *)
  a_type : string;          (* "type" *)
  a_work : bool             (* has non-empty "actions" or "rules" *)
}.
Definition atargets := list (string * atarget).

(** analyzer.py:330-337 *)
Definition requires_build (a : atarget) : bool := negb (String.eqb (a_type a) "none") || a_work a.

(** ** analyzer.py:340-423: _GenerateTargets *)
Record gstate := mk_g {
  g_created : list string;           (* name_to_target, in order of creation *)
  g_visited : list string;           (* targets with visited = True *)
  g_edges : list (string * string);  (* (t, d): d is in t.deps and t in d.back_deps *)
  g_roots : list string;             (* roots *)
  g_matching : list string;          (* matching_targets *)
  g_own : list string                (* build_file_targets *)
}.

(** 412-421: for dep in dependencies. *)
Definition link_dep (t : string) (st : gstate) (d : string) : gstate :=
  let created := mem d (g_created st) in
  mk_g (if created then g_created st else g_created st ++ [d])
       (g_visited st)
       (g_edges st ++ [(t, d)])
       (if created then filter (fun r => negb (String.eqb r d)) (g_roots st) else g_roots st)
       (g_matching st) (g_own st).

(** 369-421: one iteration; [queue] is targets_to_visit, last element first. *)
Fixpoint generate_loop (fuel : nat) (ts : atargets) (changed : string -> bool) (build_files : list string)
         (queue : list string) (st : gstate) : outcome gstate :=
  match fuel with
  | O => Err OutOfFuel
  | S fuel' =>
    match queue with
    | [] => Ok st
    | t :: queue' =>
      let created := mem t (g_created st) in
      if created && mem t (g_visited st) then generate_loop fuel' ts changed build_files queue' st
      else
        match assoc t ts with
        | None => Err (KeyError t)
        | Some a =>
          let st1 := mk_g (if created then g_created st else g_created st ++ [t])
                          (g_visited st ++ [t]) (g_edges st)
                          (if created then g_roots st else g_roots st ++ [t])
                          (if changed t then g_matching st ++ [t] else g_matching st)
                          (if mem (build_file t) build_files then g_own st ++ [t] else g_own st) in
          generate_loop fuel' ts changed build_files (rev (a_deps a) ++ queue') (fold_left (link_dep t) (a_deps a) st1)
        end
    end
  end.
Definition generate_fuel (ts : atargets) (target_list : list string) : nat :=
  S (length target_list + length (flat_map (fun e => a_deps (snd e)) ts)).
Definition generate_targets (ts : atargets) (target_list : list string) (changed : string -> bool) (build_files : list string) : outcome gstate :=
  generate_loop (generate_fuel ts target_list) ts changed build_files (rev target_list) (mk_g [] [] [] [] [] []).
(** 423: roots & build_file_targets. *)
Definition root_targets (st : gstate) : list string := filter (fun t => mem t (g_own st)) (g_roots st).

(** target.deps and target.back_deps, as iterated. *)
Definition deps_of (ord : list string -> list string) (st : gstate) (t : string) : list string :=
  ord (nodup string_dec (map snd (filter (fun e => String.eqb (fst e) t) (g_edges st)))).
Definition back_deps_of (ord : list string -> list string) (st : gstate) (t : string) : list string :=
  ord (nodup string_dec (map fst (filter (fun e => String.eqb (snd e) t) (g_edges st)))).

(** ** analyzer.py:445-479: searching down from possible targets *)
Inductive status := Matches | MatchesByDependency | DoesntMatch | Tbd.
Definition set_status (st : string -> status) (t : string) (s : status) : string -> status :=
  fun u => if String.eqb u t then s else st u.

(** 445-464: _DoesTargetDependOnMatchingTargets. *)
Fixpoint depends_on_matching (fuel : nat) (deps : string -> list string) (t : string) (st : string -> status)
  : option (bool * (string -> status)) :=
  match fuel with
  | O => None
  | S fuel' =>
    match st t with
    | DoesntMatch => Some (false, st)
    | Matches | MatchesByDependency => Some (true, st)
    | Tbd =>
      (fix go (l : list string) (st : string -> status) : option (bool * (string -> status)) :=
         match l with
         | [] => Some (false, set_status st t DoesntMatch)
         | d :: l' =>
           match depends_on_matching fuel' deps d st with
           | None => None
           | Some (true, st') => Some (true, set_status st' t MatchesByDependency)
           | Some (false, st') => go l' st'
           end
         end) (deps t) st
    end
  end.
(** 467-479: _GetTargetsDependingOnMatchingTargets. *)
Fixpoint targets_depending (fuel : nat) (deps : string -> list string) (possible : list string) (st : string -> status)
  : option (list string) :=
  match possible with
  | [] => Some []
  | t :: possible' =>
    match depends_on_matching fuel deps t st with
    | None => None
    | Some (b, st') => option_map (fun found => if b then t :: found else found) (targets_depending fuel deps possible' st')
    end
  end.

(** ** analyzer.py:482-547: searching up from the changed targets *)
Record cstate := mk_c {
  c_visited : list string;
  c_in_roots : string -> bool;
  c_added : string -> bool;           (* added_to_compile_targets *)
  c_linked : string -> bool;          (* is_or_has_linked_ancestor *)
  c_result : list string
}.
Definition set_flag (f : string -> bool) (t : string) (b : bool) : string -> bool :=
  fun u => if String.eqb u t then b else f u.

(** 494-497, after visiting [b]. *)
Definition inherit (t b : string) (st : cstate) : cstate :=
  mk_c (c_visited st)
       (set_flag (c_in_roots st) t (c_in_roots st t || c_in_roots st b))
       (set_flag (c_added st) t (c_added st t || c_added st b))
       (set_flag (c_linked st) t (c_linked st t || c_linked st b))
       (c_result st).
(** 505-531. *)
Definition add_if_needed (ts : atargets) (add_if_no_ancestor : bool) (t : string) (st : cstate) : outcome cstate :=
  match assoc t ts with
  | None => Err (KeyError t)
  | Some a =>
    let is_executable := String.eqb (a_type a) "executable" in
    let is_static := String.eqb (a_type a) "static_library" in
    if c_in_roots st t &&
       (is_executable || (negb (c_added st t) && (add_if_no_ancestor || requires_build a)) ||
        (is_static && add_if_no_ancestor && negb (c_linked st t)))
    then Ok (mk_c (c_visited st) (c_in_roots st) (set_flag (c_added st) t true) (c_linked st) (oset_add t (c_result st)))
    else Ok st
  end.
(** 482-533: _AddCompileTargets. *)
Fixpoint add_compile_targets (fuel : nat) (ts : atargets) (back : string -> list string) (roots : list string)
         (add_if_no_ancestor : bool) (t : string) (st : cstate) : outcome cstate :=
  match fuel with
  | O => Err OutOfFuel
  | S fuel' =>
    if mem t (c_visited st) then Ok st
    else
      let st1 := mk_c (t :: c_visited st) (set_flag (c_in_roots st) t (mem t roots)) (c_added st) (c_linked st) (c_result st) in
      bind (ofold (fun st b => bind (add_compile_targets fuel' ts back roots false b st) (fun st' => Ok (inherit t b st'))) (back t) st1)
           (add_if_needed ts add_if_no_ancestor t)
  end.
(** 382-384: the initial value of is_or_has_linked_ancestor. *)
Definition is_linked (ts : atargets) (t : string) : bool :=
  match assoc t ts with Some a => mem (a_type a) ["executable"; "shared_library"]%string | None => false end.
(** 536-546: _GetCompileTargets. *)
Definition compile_targets (fuel : nat) (ts : atargets) (back : string -> list string) (roots matching : list string) : outcome (list string) :=
  bind (ofold (fun st t => add_compile_targets fuel ts back roots true t st) matching
              (mk_c [] (fun _ => false) (fun _ => false) (is_linked ts) []))
       (fun st => Ok (c_result st)).

(** ** analyzer.py:426-442: _GetUnqualifiedToTargetMapping: the mapping and
    the names not found. *)
Fixpoint unqualified_mapping (all_targets : list string) (to_find : list string) : list (string * string) * list string :=
  match to_find with
  | [] => ([], [])
  | _ =>
    match all_targets with
    | [] => ([], to_find)
    | q :: all_targets' =>
      let n := target_name_of q in
      if mem n to_find
      then let '(m, missing) := unqualified_mapping all_targets' (filter (fun x => negb (String.eqb x n)) to_find) in ((n, q) :: m, missing)
      else unqualified_mapping all_targets' to_find
    end
  end.
(** 604-607: _LookupTargets. *)
Definition lookup_targets (names : list string) (mapping : list (string * string)) : list string :=
  flat_map (fun n => match assoc n mapping with Some q => [q] | None => [] end) names.

Definition no_all (names : list string) : list string := filter (fun n => negb (String.eqb n "all")) names.

(** 668-715: find_matching_test_target_names; [pick] is list() of a set. *)
Definition matching_test_names (fuel : nat) (deps : string -> list string) (st : string -> status) (pick : list string -> list string)
           (mapping : list (string * string)) (roots tests : list string) : option (list string) :=
  let tests_no_all := lookup_targets (no_all tests) mapping in
  let contains_all := mem "all" tests in
  let candidates := if contains_all then pick (nodup string_dec (tests_no_all ++ roots)) else tests_no_all in
  option_map (fun matching =>
    let matched_all := contains_all && existsb (fun t => mem t roots) matching in
    let matching' := if matched_all then pick (nodup string_dec (filter (fun t => mem t tests_no_all) matching)) else matching in
    map target_name_of matching' ++ (if matched_all then ["all"%string] else []))
  (targets_depending fuel deps candidates st).

(** 717-741: find_matching_compile_target_names. *)
Definition matching_compile_names (fuel : nat) (ts : atargets) (back : string -> list string) (pick : list string -> list string)
           (mapping : list (string * string)) (roots supplied matching : list string) : outcome (list string) :=
  let found := lookup_targets (no_all supplied) mapping in
  let supplied_targets := if mem "all" supplied then pick (nodup string_dec (found ++ roots)) else found in
  bind (compile_targets fuel ts back supplied_targets matching) (fun r => Ok (map target_name_of (pick r))).

(** 784-803: the answer for changed files that are not command-line includes. *)
Record answer := mk_answer { ans_tests : list string; ans_compile : list string; ans_invalid : list string; ans_found : bool }.
Definition initial_status (matching : list string) : string -> status := fun t => if mem t matching then Matches else Tbd.
Definition analyze (ts : atargets) (target_list : list string) (changed : string -> bool) (build_files : list string)
           (ord pick : list string -> list string) (tests additional : list string) : outcome answer :=
  bind (generate_targets ts target_list changed build_files) (fun st =>
  let supplied := nodup string_dec (additional ++ tests) in
  let '(mapping, missing) := unqualified_mapping (g_created st) (no_all supplied) in
  let fuel := S (length ts) in
  match g_matching st with
  | [] => Ok (mk_answer [] [] missing false)
  | _ =>
    match matching_test_names fuel (deps_of ord st) (initial_status (g_matching st)) pick mapping (root_targets st) tests with
    | None => Err OutOfFuel
    | Some test_names =>
      bind (matching_compile_names fuel ts (back_deps_of ord st) pick mapping (root_targets st) supplied (g_matching st)) (fun compile_names =>
      Ok (mk_answer test_names (pick (nodup string_dec (compile_names ++ test_names))) missing
                    (match compile_names, test_names with [], [] => false | _, _ => true end)))
    end
  end).
