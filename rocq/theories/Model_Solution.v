(** Model of the solutions of Visual Studio: gyp/pylib/gyp/generator/msvs.py:1803-1956 and
    2098-2164 (GenerateOutput), gyp/pylib/gyp/MSVSNew.py (MakeGuid, MSVSFolder,
    MSVSProject, MSVSSolution.Write), gyp/pylib/gyp/common.py:297-319.

    What is not computed here are parameters: the MD5 digest in hexadecimal, RelativePath,
    and [walk], the order in which Python walks through a set. *)
From Verif Require Import Lib Str Model_Path Model_Value Model_Names.
From Verif Require Model_Vcxproj Model_Writer.
Local Open Scope string_scope.

(** ** targets *)
(** [platform]: msvs_configuration_platform; [target_platform]: msvs_target_platform *)
Record config := { platform : option string; target_platform : option string }.
(** [given_guid] and [existing]: msvs_guid and msvs_existing_vcproj of the default
    configuration; [external]: msvs_external_builder is given *)
Record spec := { target_name : string; toolset : string; dependencies : list string; dependencies_original : list string; external : bool;
  configurations : list (string * config); given_guid : option string; existing : option string }.

(** ** configurations: msvs.py:307-320, 2897-2924 *)
Definition config_platform (c : config) : string := match platform c with Some p => p | None => "Win32" end.
Definition base_name (name plat : string) : string :=
  if Model_Writer.ends_with ("_" ++ plat) name then substring 0 (String.length name - String.length plat - 1) name else name.
Definition full_name (name : string) (c : config) : string := base_name name (config_platform c) ++ "|" ++ config_platform c.
(** 1893-1905 *)
Definition overrides (cross : bool) (s : spec) : list (string * string) :=
  fold_left (fun d nc => let '(name, c) := nc in
    let plat := match target_platform c with Some p => p | None => config_platform c end in
    let fixed := if String.eqb (toolset s) "host" && cross then name ++ "|x64" else base_name name (config_platform c) ++ "|" ++ plat in
    set_key (full_name name c) fixed d) (configurations s) [].
(** 2897-2924: the configurations in the project itself *)
Definition project_configurations (s : spec) : list string :=
  map (fun n => let c := match assoc n (configurations s) with Some c => c | None => {| platform := None; target_platform := None |} end in
    let configuration := match rsplit1 "_" n with Some (b, _) => b | None => n end in
    let plat := if String.eqb (toolset s) "host" && String.eqb (config_platform c) "arm64" then "x64" else config_platform c in
    configuration ++ "|" ++ plat) (sort (map fst (configurations s))).

(** ** projects *)
(** MSVSNew.py:31-62 *)
Definition make_guid (md5 : string -> string) (seed name : string) : string :=
  let d := md5 (seed ++ name) in
  "{" ++ substring 0 8 d ++ "-" ++ substring 8 4 d ++ "-" ++ substring 12 4 d ++ "-" ++ substring 16 4 d ++ "-" ++ substring 20 12 d ++ "}".
(** msvs.py:37; a newline at the end is left out *)
Definition guid_char (a : ascii) : bool := let n := N_of_ascii a in ((65 <=? n) && (n <=? 70) || (48 <=? n) && (n <=? 57) || (n =? 45))%N.
Definition valid_guid (s : string) : bool := negb (String.eqb s "") && forallb guid_char (list_ascii_of_string s).
(** 964-986; None: ValueError *)
Definition guid_of (md5 : string -> string) (path : string) (s : spec) : option string :=
  match given_guid s with
  | Some (String _ _ as g) => if valid_guid g then Some ("{" ++ g ++ "}") else None
  | _ => Some (make_guid md5 "msvs_new" path)
  end.
(** ntpath.split *)
Definition split (p : string) : string * string := let '(d, r) := Model_Vcxproj.nt_drive p in let '(h, t) := Model_Vcxproj.nt_split r in (d ++ h, t).
Definition file_name (suffix : string) (s : spec) : string :=
  match existing s with Some (String _ _ as f) => f | _ => target_name s ++ (if String.eqb (toolset s) "host" then "_host" else "") ++ suffix ++ ".vcxproj" end.
(** 1872-1890 *)
Definition path_of (suffix : string) (output : option string) (q : string) (s : spec) : string :=
  let path := Model_Vcxproj.nt_join (fst (split (build_file q))) (file_name suffix s) in
  match output with Some (String _ _ as o) => Model_Vcxproj.nt_join o path | _ => path end.
(** MSVSProject; [needs]: the dependencies by their qualified names *)
Record project := { path : string; name : string; guid : string; needs : list string; config_overrides : list (string * string) }.
(** 1908-1956; None: ValueError, or KeyError *)
Definition create (md5 : string -> string) (suffix : string) (output : option string) (cross : bool) (q : string) (s : spec) : option project :=
  match guid_of md5 (path_of suffix output q s) s with
  | Some g => Some {| path := path_of suffix output q s; name := target_name s ++ (if String.eqb (toolset s) "host" then "_host" else ""); guid := g;
      needs := if external s then [] else dependencies s; config_overrides := overrides cross s |}
  | None => None
  end.
Fixpoint create_all (md5 : string -> string) (suffix : string) (output : option string) (cross : bool) (dicts : list (string * spec)) (targets : list string) : option (list (string * project)) :=
  match targets with
  | [] => Some []
  | q :: l =>
    match assoc q dicts with
    | Some s => match create md5 suffix output cross q s, create_all md5 suffix output cross dicts l with Some p, Some ps => Some ((q, p) :: ps) | _, _ => None end
    | None => None
    end
  end.
(** 1949-1955: each dependency is one of the projects *)
Definition all_known (ps : list (string * project)) : bool := forallb (fun qp => forallb (fun d => mem d (map fst ps)) (needs (snd qp))) ps.

(** ** the targets of a solution: common.py:297-319 *)
Definition union (a b : list string) : list string := fold_left (fun l x => oset_add x l) b a.
(** None: KeyError; [fuel] is enough by [deep_fuel] *)
Fixpoint deep (walk : list string -> list string) (dicts : list (string * spec)) (fuel : nat) (pending seen : list string) : option (list string) :=
  match fuel with
  | O => None
  | S fuel =>
    match walk pending with
    | [] => Some seen
    | r :: rest =>
      if mem r seen then deep walk dicts fuel rest seen
      else match assoc r dicts with
           | Some s => deep walk dicts fuel (union (union rest (dependencies s)) (dependencies_original s)) (seen ++ [r])%list
           | None => None
           end
    end
  end.
Definition weight (s : spec) : nat := S (length (dependencies s) + length (dependencies_original s)).
Definition deep_fuel (dicts : list (string * spec)) (roots : list string) : nat := S (length roots + fold_right (fun qs n => weight (snd qs) + n) 0 dicts).
Definition deep_dependencies (walk : list string -> list string) (dicts : list (string * spec)) (roots : list string) : option (list string) :=
  match deep walk dicts (deep_fuel dicts roots) (union [] roots) [] with
  | Some seen => Some (walk (filter (fun q => negb (mem q roots)) seen))
  | None => None
  end.
Definition build_file_targets (targets : list string) (file : string) : list string := filter (fun q => String.eqb (build_file q) file) targets.

(** ** folders: msvs.py:1803-1869 *)
Inductive node := Leaf (p : project) | Dir (l : list (string * node)).
(** _GetPathDict's walk up the path; None: RecursionError *)
Fixpoint parts (fuel : nat) (p : string) : option (list string) :=
  if String.eqb p "" || Model_Writer.ends_with (String backslash "") p then Some []
  else match fuel with
       | O => None
       | S fuel => let '(parent, folder) := split p in match parts fuel parent with Some l => Some (l ++ [folder])%list | None => None end
       end.
(** None: TypeError, a project where there should be a folder *)
Fixpoint insert_at (folders : list string) (key : string) (p : project) (l : list (string * node)) : option (list (string * node)) :=
  match folders with
  | [] => Some (set_key key (Leaf p) l)
  | f :: fs =>
    match assoc f l with
    | Some (Leaf _) => None
    | Some (Dir d) => match insert_at fs key p d with Some d' => Some (set_key f (Dir d') l) | None => None end
    | None => match insert_at fs key p [] with Some d' => Some (set_key f (Dir d') l) | None => None end
    end
  end.
(** 1855-1861 *)
Definition key_of (q : string) : string := target_name_of q ++ (if Model_Writer.ends_with "#host" q then "_host" else "") ++ ".vcproj".
Definition place_of (q : string) : option (list string) := let d := fst (split (build_file q)) in parts (S (String.length d)) d.
Fixpoint tree (objects : list (string * project)) (qs : list string) (root : list (string * node)) : option (list (string * node)) :=
  match qs with
  | [] => Some root
  | q :: qs' =>
    match place_of q, assoc q objects with
    | Some fs, Some p => match insert_at fs (key_of q) p root with Some root' => tree objects qs' root' | None => None end
    | _, _ => None
    end
  end.
(** 1862-1866 *)
Fixpoint strip_top (n : node) : node := match n with Dir [(_, Dir _ as n')] => strip_top n' | _ => n end.
(** 1837-1848 *)
Fixpoint collapse (parent : string) (n : node) : node :=
  match n with
  | Leaf p => Leaf p
  | Dir l =>
    let l' := map (fun kn => (fst kn, collapse (fst kn) (snd kn))) l in
    match l with
    | [(k, x)] => if String.eqb k (parent ++ ".vcproj") then x else Dir l'
    | _ => Dir l'
    end
  end.
(** MSVSFolder and MSVSProject *)
Inductive entry := Project (p : project) | Folder (folder_path folder_name : string) (entries : list entry).
Definition entry_path (e : entry) : string := match e with Project p => path p | Folder p _ _ => p end.
(** sorted with key=attrgetter("path") *)
Fixpoint insert_entry (e : entry) (l : list entry) : list entry :=
  match l with [] => [e] | x :: l' => if String.leb (entry_path e) (entry_path x) then e :: l else x :: insert_entry e l' end.
Definition sort_entries (l : list entry) : list entry := fold_right insert_entry [] l.
(** 1815-1834 *)
Fixpoint to_entries (flat : bool) (base folder : string) (n : node) : list entry :=
  match n with
  | Leaf p => [Project p]
  | Dir l =>
    let here := Model_Vcxproj.nt_join base folder in
    let children := flat_map (fun kn => to_entries flat here (fst kn) (snd kn)) l in
    if flat then children else [Folder here ("(" ++ folder ++ ")") (sort_entries children)]
  end.
Definition dicts_to_folders (flat : bool) (l : list (string * node)) : list entry := flat_map (fun kn => to_entries flat "" (fst kn) (snd kn)) l.
(** None: an exception; the last one is for a target with no name *)
Definition gather (objects : list (string * project)) (flat : bool) (qs : list string) : option (list entry) :=
  match tree objects qs [] with
  | Some root => match collapse "" (strip_top (Dir root)) with Dir l => Some (dicts_to_folders flat l) | Leaf _ => None end
  | None => None
  end.

(** ** the file: MSVSNew.py:212-365; [Write] walks through the set of all entries *)
Fixpoint all_entries (e : entry) : list entry := match e with Project _ => [e] | Folder _ _ l => e :: flat_map all_entries l end.
Definition quote : string := String (ascii_of_nat 34) "".
Definition tab : string := String (ascii_of_nat 9) "".
Definition project_type : string := "{8BC9CEB8-8B4A-11D0-8D11-00A0C91BC942}".
Definition folder_type : string := "{2150E333-8FDC-42A3-9474-1A3956D46DE8}".
Definition entry_guid (md5 : string -> string) (e : entry) : string := match e with Project p => guid p | Folder p _ _ => make_guid md5 "msvs_folder" p end.
Definition entry_name (e : entry) : string := match e with Project p => name p | Folder _ n _ => n end.
Definition entry_type (e : entry) : string := match e with Project _ => project_type | Folder _ _ _ => folder_type end.
Definition entry_line (md5 relative : string -> string) (e : entry) : string :=
  let file := match replace_char "/" backslash (relative (entry_path e)) with "" => "." | f => f end in
  "Project(" ++ quote ++ entry_type e ++ quote ++ ") = " ++ quote ++ entry_name e ++ quote ++ ", " ++ quote ++ file ++ quote ++ ", " ++ quote ++ entry_guid md5 e ++ quote.
(** [key] = [value] in a section *)
Definition setting_line (key value : string) : string := tab ++ tab ++ key ++ " = " ++ value.
Definition section (kind header : string) (body : list string) : list string := app [tab ++ kind ++ "Section(" ++ header] (app body [tab ++ "End" ++ kind ++ "Section"]).
(** [guids]: get_guid() of the dependencies *)
Definition entry_lines (md5 relative guids : string -> string) (e : entry) : list string :=
  app [entry_line md5 relative e]
   (app (match e with
         | Project p => match needs p with [] => [] | ds => section "Project" "ProjectDependencies) = postProject" (map (fun d => setting_line (guids d) (guids d)) ds) end
         | Folder _ _ _ => []
         end)
    ["EndProject"]).
Definition project_of (e : entry) : list project := match e with Project p => [p] | Folder _ _ _ => [] end.
Definition children (e : entry) : list entry := match e with Project _ => [] | Folder _ _ l => l end.
Definition config_lines (ov : list (string * list (string * string))) (variants : list string) (g : string) : list string :=
  flat_map (fun v => let nv := match assoc g ov with Some o => match assoc v o with Some x => x | None => v end | None => v end in
    [setting_line (g ++ "." ++ v ++ ".ActiveCfg") nv; setting_line (g ++ "." ++ v ++ ".Build.0") nv]) variants.
(** The lines, each of which ends with a carriage return and a newline. *)
Definition solution_lines (md5 : string -> string) (relative guids : string -> string) (header : list string) (variants : list string) (es : list entry) : list string :=
  let projects := flat_map project_of es in
  let ov := fold_left (fun d p => set_key (guid p) (config_overrides p) d) projects [] in
  (header ++
   flat_map (entry_lines md5 relative guids) es ++
   ["Global"] ++
   section "Global" "SolutionConfigurationPlatforms) = preSolution" (map (fun v => setting_line v v) variants) ++
   section "Global" "ProjectConfigurationPlatforms) = postSolution" (flat_map (config_lines ov variants) (sort (map guid projects))) ++
   section "Global" "SolutionProperties) = preSolution" [setting_line "HideSolutionNode" "FALSE"] ++
   (if existsb (fun e => match children e with [] => false | _ => true end) es then
      section "Global" "NestedProjects) = preSolution" (flat_map (fun e => map (fun x => setting_line (entry_guid md5 x) (entry_guid md5 e)) (children e)) es)
    else []) ++
   ["EndGlobal"])%list.

(** ** GenerateOutput: msvs.py:2098-2157 *)
Definition all_configs (cross : bool) (dicts : list (string * spec)) (targets : list string) : list string :=
  fold_left (fun l q => match assoc q dicts with
    | Some s => fold_left (fun l nc => let f := full_name (fst nc) (snd nc) in
        let l := oset_add f l in if String.eqb f "Release|arm64" then oset_add "Release|x64" l else l) (configurations s) l
    | None => l
    end) targets [].
(** What there is besides the targets. *)
Record settings := { md5 : string -> string; relative : string -> string; version : string; description : string; flat_solution : bool; file_suffix : string; generator_output : option string; cross_compiling : bool }.
Record orders := { walk : list string -> list string; walk_entries : list entry -> list entry }.
Definition variants_of (st : settings) (o : orders) (dicts : list (string * spec)) (targets : list string) : list string :=
  let configs := walk o (all_configs (cross_compiling st) dicts targets) in
  match (if cross_compiling st then filter (Model_Writer.ends_with "arm64") configs else configs) with [] => ["Debug|Win32"; "Release|Win32"] | v => v end.
(** The solution of one .gyp file. *)
Definition solution (st : settings) (o : orders) (targets : list string) (dicts : list (string * spec)) (file : string) : option (list string) :=
  match create_all (md5 st) (file_suffix st) (generator_output st) (cross_compiling st) dicts targets with
  | None => None
  | Some objects =>
    if all_known objects then
      let roots := build_file_targets targets file in
      match deep_dependencies (walk o) dicts roots with
      | None => None
      | Some deps =>
        match gather objects (flat_solution st) (roots ++ deps)%list with
        | None => None
        | Some es =>
          let guids d := match assoc d objects with Some p => guid p | None => "" end in
          Some (solution_lines (md5 st) (relative st) guids ["Microsoft Visual Studio Solution File, Format Version " ++ version st; "# " ++ description st] (variants_of st o dicts targets) (sort_entries (walk_entries o (flat_map all_entries es))))
        end
      end
    else None
  end.
