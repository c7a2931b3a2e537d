(** Model of the build statements the ninja generator writes, gyp/pylib/gyp/generator/ninja.py:
    the class Target (102-186), the paths (260-357), WriteSpec (379-551) and what it calls,
    and GenerateOutputForConfig (2769-2895).  For flavor linux, so without bundles,
    postbuilds, precompiled headers and Xcode's or Visual Studio's settings.

    The targets are those of [Model_Writer]; [path t] is the directory of the .gyp file
    below the top.  Simplification: every rule has an action.  Of the variables of a
    build statement only "ld" is kept. *)
From Verif Require Import Lib Str Model_Names Model_Path Model_Graph Model_Writer.
Local Open Scope string_scope.

(** What is the same for all targets: the way from the build directory to the top
    (InvertRelativePath, 254), the name of the configuration,
    and the MD5 digest, in hexadecimal, of a qualified target
    (2815-2819). *)
Record setup := { to_top : string; config_name : string; md5 : string -> string }.
(** A build statement. *)
Record edge := { outs : list string; command : string; ins : list string; implicit : list string; order_only : list string; variables : list (string * string) }.

(** ** paths *)
(** 344-346 *)
Definition obj_dir (t : target) : string := if String.eqb (toolset t) "target" then "obj" else "obj." ++ toolset t.
(** GypPathToUniqueOutput("gen"), 279 *)
Definition int_dir (t : target) : string := normpath (path_join_list [obj_dir t; path t; ""; target_name t ++ ".gen"]).
(** 260-289: ExpandSpecial without product_dir *)
Definition special (s : setup) (t : target) (p : string) : string :=
  let p := replace "$!PRODUCT_DIR" "." (replace "$!PRODUCT_DIR\" "" (replace "$!PRODUCT_DIR/" "" p)) in
  replace "$|CONFIGURATION_NAME" (config_name s) (replace "$!INTERMEDIATE_DIR" (int_dir t) p).
(** 301-319: GypPathToNinja; None: an AssertionError *)
Definition build_to_base (s : setup) (t : target) : string := path_join (to_top s) (path t).
Definition to_ninja (s : setup) (t : target) (p : string) : option string :=
  if String.prefix "$!" p then Some (special s t p)
  else let p := if contains "$|" p then special s t p else p in
       if has_char "$" p then None else Some (normpath (path_join (build_to_base s t) p)).
(** 321-357: GypPathToUniqueOutput; None: an AssertionError *)
Definition unique (s : setup) (t : target) (p : string) (qualified : bool) : option string :=
  let p := special s t p in
  if String.prefix "$" p then None
  else let '(d, b) := path_split p in
       if isabs d then None else Some (normpath (path_join_list [obj_dir t; path t; d; if qualified then target_name t ++ "." ++ b else b])).

(** ** what there is of a target: 102-186 *)
Record info := { out_type : kind; preaction_stamp : option string; precompile_stamp : option string; actions_stamp : option string; out_binary : option string; uses_cpp : bool }.
(** Python's or *)
Definition or_ (a b : option string) : option string := match a with Some (String _ _) => a | _ => b end.
Definition linkable (i : info) : bool := match out_type i with Static_library | Shared_library => true | _ => false end.
Definition uses_toc (i : info) : bool := match out_type i with Shared_library | Loadable_module => true | _ => false end.
Definition final_output (i : info) : option string := or_ (out_binary i) (actions_stamp i).
(** the outer None: a TypeError *)
Definition preaction_input (i : info) : option (option string) :=
  if uses_toc i then match final_output i with Some f => Some (Some (f ++ ".TOC")) | None => None end
  else Some (or_ (final_output i) (preaction_stamp i)).
Definition precompile_input (i : info) : option string := or_ (actions_stamp i) (precompile_stamp i).
Definition infos := list (string * info).

(** ** helpers *)
Definition bind {A B} (o : option A) (f : A -> option B) : option B := match o with Some x => f x | None => None end.
Notation "x <- a ;; b" := (bind a (fun x => b)) (at level 61, a at next level, right associativity).
Fixpoint traverse {A B} (f : A -> option B) (l : list A) : option (list B) :=
  match l with [] => Some [] | x :: l' => y <- f x ;; r <- traverse f l' ;; Some (y :: r) end.
Definition as_list (o : option string) : list string := match o with Some s => [s] | None => [] end.
Definition filled (o : option string) : list string := match o with Some (String _ _ as s) => [s] | _ => [] end.
Definition not_empty (s : string) : bool := match s with "" => false | _ => true end.
Definition statement (o : list string) (c : string) (i im oo : list string) : edge := {| outs := o; command := c; ins := i; implicit := im; order_only := oo; variables := [] |}.

(** 359-373: WriteCollapsedDependencies *)
Definition collapse (s : setup) (t : target) (name : string) (l : list string) (order : option string) : option (list edge * option string) :=
  if forallb not_empty l then
    match l, order with
    | [], None => Some ([], None)
    | [], Some _ => None
    | [x], None => Some ([], Some x)
    | _, _ => st <- unique s t (name ++ ".stamp") true ;; Some ([statement [st] "stamp" l [] (as_list order)], Some st)
    end
  else None.

(** 654, 703 and 1921-1928: the name of the ninja rule *)
Definition rule_id (s : setup) (t : target) (name : string) : string :=
  variable_name (target_name t ++ (if String.eqb (toolset t) "target" then ".target" else "") ++ "." ++ name ++ "_" ++ md5 s (qualified t)).
(** 646-685: WriteActions; an edge, and its outputs; [prebuild]: what the target waits
    for *)
Definition write_action (s : setup) (t : target) (prebuild : option string) (a : action) : option edge :=
  i <- traverse (to_ninja s t) (action_inputs a) ;;
  o <- traverse (to_ninja s t) (action_outputs a) ;;
  Some (statement o (rule_id s t (action_name a)) i [] (as_list prebuild)).
(** 291-299: ExpandRuleVariables *)
Definition expand_rule (p root dir source ext name : string) : string :=
  replace "${name}" name (replace "${ext}" ext (replace "${source}" source (replace "${dirname}" dir (replace "${root}" root p)))).
Definition outputs_for (r : rule) (source : string) : list string :=
  let source := normpath source in
  let '(dir, base) := path_split source in
  let '(root, ext) := splitext base in
  map (fun o => expand_rule o root dir source ext base) (rule_outputs r).
(** 758-828 *)
Definition write_rule_source (s : setup) (t : target) (r : rule) (inputs : list string) (prebuild : option string) (source : string) : option edge :=
  o <- traverse (to_ninja s t) (outputs_for r source) ;;
  i <- to_ninja s t (normpath source) ;;
  Some (statement o (rule_id s t (rule_name r)) [i] inputs (as_list prebuild)).
(** 687-830: WriteRules; [prebuild = []] in line 756 is for the rules that follow, too *)
Fixpoint write_rules (s : setup) (t : target) (prebuild : option string) (rs : list rule) : option (list edge * list string) :=
  match rs with
  | [] => Some ([], [])
  | r :: rs' =>
    inputs <- traverse (to_ninja s t) (rule_inputs r) ;;
    collapsed <- (if Nat.ltb 2 (length inputs + length (as_list prebuild)) && Nat.ltb 2 (length (rule_sources r)) then
                    c <- collapse s t (rule_name r) inputs prebuild ;; Some (fst c, as_list (snd c), None)
                  else Some ([], inputs, prebuild)) ;;
    let '(es, inputs, prebuild) := collapsed in
    edges <- traverse (write_rule_source s t r inputs prebuild) (rule_sources r) ;;
    rest <- write_rules s t prebuild rs' ;;
    Some (es ++ edges ++ fst rest, flat_map outs edges ++ snd rest)%list
  end.
(** 832-862: WriteCopies *)
Definition write_copy_file (s : setup) (t : target) (prebuild : option string) (c : copy) (f : string) : option edge :=
  let f := normpath f in
  src <- to_ninja s t f ;;
  dst <- to_ninja s t (path_join (destination c) (snd (path_split f))) ;;
  Some (statement [dst] "copy" [src] [] (as_list prebuild)).
Definition write_copies (s : setup) (t : target) (prebuild : option string) : option (list edge) :=
  l <- traverse (fun c => traverse (write_copy_file s t prebuild c) (copy_files c)) (copies t) ;; Some (concat l).
(** 588-630: WriteActionsRulesCopies *)
Definition write_generated (s : setup) (t : target) (prebuild : option string) : option (list edge * option string) :=
  a <- traverse (write_action s t prebuild) (actions t) ;;
  r <- write_rules s t prebuild (rules t) ;;
  c <- write_copies s t prebuild ;;
  st <- collapse s t "actions_rules_copies" (flat_map outs a ++ snd r ++ flat_map outs c)%list None ;;
  Some (a ++ fst r ++ c ++ fst st, snd st)%list.
(** 673-674, 770-771 *)
Definition sources_made (t : target) : list string :=
  (flat_map (fun a => if outputs_are_sources a then action_outputs a else []) (actions t) ++
   flat_map (fun r => if rule_outputs_are_sources r then flat_map (outputs_for r) (rule_sources r) else []) (rules t))%list.
Definition all_sources (t : target) : list string := (sources_made t ++ sources t)%list.

(** 1212-1243: the command a source is compiled with *)
Definition compiler (source : string) : option string :=
  match snd (splitext source) with
  | ".cc" | ".cpp" | ".cxx" => Some "cxx"
  | ".c" | ".S" => Some "cc"
  | ".s" => Some "cc_s"
  | _ => None
  end.
(** 1244-1268; the outer None: an AssertionError *)
Definition write_source (s : setup) (t : target) (predepends : option string) (source : string) : option (list edge) :=
  match compiler source with
  | None => Some []
  | Some c =>
    i <- to_ninja s t source ;;
    o <- unique s t (fst (splitext source) ++ ".o") true ;;
    Some [statement [o] c [i] [] (as_list predepends)]
  end.
Definition is_cpp (source : string) : bool := match compiler source with Some "cxx" => true | _ => false end.

(** 1792-1841: ComputeOutputFileName *)
Definition output_name (t : target) : string :=
  let '(prefix, ext) := match type t with Executable => ("", "") | Static_library => ("lib", ".a") | Shared_library | Loadable_module => ("lib", ".so") | None_ => ("", "") end in
  let prefix := match product_prefix t with Some p => p | None => prefix end in
  let ext := match product_extension t with Some (String _ _ as e) => "." ++ e | _ => ext end in
  let name := match product_name t with Some n => n | None => if String.eqb prefix "lib" then without_lib (target_name t) else target_name t end in
  match type t with None_ => name ++ ".stamp" | _ => prefix ++ name ++ ext end.
(** 1843-1891: ComputeOutput *)
Definition product (s : setup) (t : target) : option string :=
  match product_dir t with
  | Some d => Some (special s t (path_join d (output_name t)))
  | None =>
    if standalone t then Some (output_name t)
    else match type t with
         | Executable | Loadable_module => Some (output_name t)
         | Shared_library => Some (path_join (if String.eqb (toolset t) "target" then "lib" else path_join "lib" (toolset t)) (output_name t))
         | _ => unique s t (output_name t) false
         end
  end.

(** 1373-1408: what is linked of a dependency, and what is only waited for; None: a
    TypeError *)
Definition dependency_links (i : info) : option (list string * list string) :=
  libs <- (if linkable i then
             if uses_toc i then match out_binary i with Some b => Some ([], [b ++ ".TOC"]) | None => None end
             else match out_binary i with Some b => Some ([b], []) | None => None end
           else Some ([], [])) ;;
  Some (fst libs, snd libs ++ (if linkable i && match final_output i, out_binary i with Some f, Some b => String.eqb f b | _, _ => false end then [] else as_list (final_output i)))%list.
Definition deps_of (outputs : infos) (t : target) : list info := flat_map (fun d => match assoc d outputs with Some i => [i] | None => [] end) (dependencies t).
(** 1350-1571: WriteLinkForArch *)
Definition link_command (k : kind) : string := match k with Executable => "link" | Loadable_module => "solink_module" | _ => "solink" end.
Definition write_link (s : setup) (outputs : infos) (t : target) (cpp : bool) (objects : list string) (compile_deps : option string) : option (edge * string) :=
  l <- traverse dependency_links (deps_of outputs t) ;;
  o <- product s t ;;
  Some ({| outs := match type t with Executable => [o] | _ => [o; append o ".TOC"] end; command := link_command (type t);
           ins := objects ++ unify (flat_map fst l); implicit := sort (unify (flat_map snd l)); order_only := filled compile_deps;
           variables := if cpp then [("ld", "$ldxx")] else [] |}, o)%list.
(** 1573-1646: WriteTarget: the edges, the binary and the type *)
Definition write_target (s : setup) (outputs : infos) (t : target) (cpp : bool) (objects : list string) (compile_deps : option string) : option (list edge * option string * kind) :=
  if match objects with [] => negb (existsb linkable (deps_of outputs t)) | _ => false end then Some ([], compile_deps, None_)
  else match type t with
       | None_ => Some ([], compile_deps, None_)
       | Static_library => b <- product s t ;; Some ([statement [b] (if standalone t then "alink" else "alink_thin") objects [] (filled compile_deps)], Some b, Static_library)
       | k => eb <- write_link s outputs t cpp objects compile_deps ;; Some ([fst eb], Some (snd eb), k)
       end.

(** 379-551: WriteSpec; the outer None: an exception, the inner one: no outputs *)
Definition write_spec (s : setup) (outputs : infos) (t : target) : option (list edge * option info) :=
  let deps := deps_of outputs t in
  pre <- traverse preaction_input deps ;;
  ad <- collapse s t "actions_depends" (flat_map filled pre) None ;;
  cd <- collapse s t "compile_depends" (flat_map filled (map precompile_input deps)) None ;;
  gen <- write_generated s t (snd ad) ;;
  objs <- traverse (write_source s t (or_ (snd gen) (snd cd))) (all_sources t) ;;
  given <- traverse (to_ninja s t) (filter (ends_with ".o") (all_sources t)) ;;
  let objects := (flat_map outs (concat objs) ++ given)%list in
  let compile_deps := or_ (snd gen) (snd ad) in
  let cpp := (existsb uses_cpp deps || existsb is_cpp (all_sources t))%bool in
  let before := (fst ad ++ fst cd ++ fst gen ++ concat objs)%list in
  if match objects, snd gen, snd ad with [], None, None => true | _, _, _ => false end then Some (before, None)
  else
    w <- write_target s outputs t cpp objects compile_deps ;;
    let '(es, b, k) := w in
    Some ((before ++ es)%list,
      match b with
      | Some (String _ _) => Some {| out_type := k; preaction_stamp := snd ad; precompile_stamp := snd cd; actions_stamp := snd gen; out_binary := b; uses_cpp := cpp |}
      | _ => None
      end).

(** ** 2783-2895: GenerateOutputForConfig *)
Fixpoint write_all (s : setup) (outputs : infos) (ts : list target) : option (list edge * list (target * option info)) :=
  match ts with
  | [] => Some ([], [])
  | t :: ts' =>
    w <- write_spec s outputs t ;;
    r <- write_all s (match snd w with Some i => (outputs ++ [(qualified t, i)])%list | None => outputs end) ts' ;;
    Some (fst w ++ fst r, (t, snd w) :: snd r)%list
  end.
(** short names *)
Definition has_short_name (ti : target * option info) : bool :=
  match snd ti with Some i => negb (match final_output i with Some f => String.eqb (target_name (fst ti)) f | None => false end) && String.eqb (toolset (fst ti)) "target" | None => false end.
Definition final_outputs (l : list (target * option info)) : list string := flat_map (fun ti => match snd ti with Some i => as_list (final_output i) | None => [] end) l.
Definition short_names (l : list (target * option info)) : list edge :=
  let l := filter has_short_name l in
  map (fun n => statement [n] "phony" (final_outputs (filter (fun ti => String.eqb (target_name (fst ti)) n) l)) [] []) (sort (unify (map (fun ti => target_name (fst ti)) l))).
Definition is_empty (ti : target * option info) : bool := match snd ti with None => true | Some _ => false end.
Definition empty_names (l : list (target * option info)) : list edge :=
  let full := map (fun ti => target_name (fst ti)) (filter (fun ti => negb (is_empty ti)) l) in
  map (fun n => statement [n] "phony" [] [] []) (sort (unify (filter (fun n => negb (mem n full)) (map (fun ti => target_name (fst ti)) (filter is_empty l))))).
(** [needed]: the target is one of AllTargets of the build files given *)
Definition all_edge (needed : string -> bool) (l : list (target * option info)) : list edge :=
  match sort (unify (final_outputs (filter (fun ti => needed (qualified (fst ti))) l))) with [] => [] | o => [statement ["all"] "phony" o [] []] end.
(** The build statements of build.ninja and of what it includes. *)
Definition build_ninja (s : setup) (needed : string -> bool) (ts : list target) : option (list edge) :=
  w <- write_all s [] ts ;;
  Some (fst w ++ short_names (snd w) ++ empty_names (snd w) ++ all_edge needed (snd w))%list.
