(** Model of the Visual Studio generator, gyp/pylib/gyp/generator/msvs.py: the
    items of a .vcxproj file, 3680-3830 (_GenerateMSBuildProject) and what it calls
    to find the sources and actions.  For Visual Studio 2010 and later, so always
    with MSBuild, and for Python on Windows, where os.path is ntpath.

    Left out: external builders (flavor ninja), rules with msvs_external_rule,
    cross compilation (generator_supports_multiple_toolsets), the settings a file
    gets for precompiled headers (3583-3621); the .filters file is in
    Model_Filters. *)
From Verif Require Import Lib Str Model_Path.
From Verif Require Model_Writer Model_Build.
Local Open Scope string_scope.
Notation backslash := "\"%char.

(** ** ntpath, without paths that begin with two separators *)
(** splitdrive *)
Definition nt_drive (p : string) : string * string :=
  match p with String a (String b r) => if Ascii.eqb b ":" then (String a ":", r) else ("", p) | _ => ("", p) end.
Definition is_sep (a : ascii) : bool := Ascii.eqb a "/" || Ascii.eqb a backslash.
Definition rooted (p : string) : bool := match p with String a _ => is_sep a | "" => false end.
(** isabs, up to Python 3.12; later a path with no drive is not absolute. *)
Definition nt_isabs (p : string) : bool := rooted (snd (nt_drive p)).
Definition ends_sep (p : string) : bool := match rev (list_ascii_of_string p) with a :: _ => is_sep a | [] => false end.
(** join; a second path with the drive of the first would be put behind it. *)
Definition nt_join (a b : string) : string :=
  if rooted b || negb (String.eqb (fst (nt_drive b)) "") then b
  else if String.eqb a "" || ends_sep a then a ++ b else a ++ String backslash b.
(** normpath *)
Definition nt_normpath (p : string) : string :=
  let '(drive, rest) := nt_drive (replace_char "/" backslash p) in
  let comps := rev (norm_comps (rooted rest) [] (split_char backslash rest)) in
  let pre := drive ++ (if rooted rest then String backslash "" else "") in
  match comps with
  | [] => if String.eqb pre "" then "." else pre
  | _ => pre ++ String.concat (String backslash "") comps
  end.
(** The last separator, and what is before and after it. *)
Fixpoint rsplit_sep (p : string) : option (string * string) :=
  match p with
  | "" => None
  | String a p' =>
    match rsplit_sep p' with
    | Some (h, t) => Some (String a h, t)
    | None => if is_sep a then Some (String a "", p') else None
    end
  end.
(** split, for paths with no drive *)
Fixpoint rstrip_sep (p : string) : string :=
  match p with "" => "" | String a p' => match rstrip_sep p' with "" => if is_sep a then "" else String a "" | r => String a r end end.
Definition nt_split (p : string) : string * string :=
  match rsplit_sep p with
  | None => ("", p)
  | Some (h, t) => (match rstrip_sep h with "" => h | h' => h' end, t)
  end.
(** splitext *)
Definition nt_splitext (p : string) : string * string :=
  let '(d, b) := match rsplit_sep p with Some (d, b) => (d, b) | None => ("", p) end in
  match rsplit1 "." b with Some (r, e) => if Model_Writer.only_dots r then (p, "") else (d ++ r, "." ++ e) | None => (p, "") end.

(** ** what is used of a target *)
(** [line] is what _BuildCommandLineForRule (444-457) makes of the action. *)
Record action := { inputs : list string; outputs : list string; as_sources : bool; message : string; line : string }.
Record copy := { destination : string; files : list string }.
(** [has_action]: the rule has a key "action". *)
Record rule := { rule_name : string; extension : string; has_action : bool; rule_sources : list string; rule_inputs : list string; rule_outputs : list string; rule_as_sources : bool }.
(** [precompiled] are the values of precomp_keys (92-95). *)
Record config := { config_name : string; platform : string; precompiled : list string }.
(** [prefix] is fixpath_prefix, with "" for None; [gyp_file] is the name of the .gyp
    file and [build_file] its path. *)
Record project := {
  prefix : string; gyp_file : string; build_file : string; standalone : bool; list_excluded : bool; toolset : string;
  sources : list string; sources_excluded : list string;
  actions : list action; copies : list copy; rules : list rule; configurations : list config }.
(** The exceptions: a failed assert, a call with too few arguments, and the end of
    the model's own bound on the loop, which is never reached. *)
Inductive error := Assertion_error | Type_error | Key_error | Out_of_fuel.

(** s.count(c) *)
Fixpoint count_char (c : ascii) (s : string) : nat := match s with "" => 0 | String a s' => (if Ascii.eqb a c then 1 else 0) + count_char c s' end.
(** 137-152: _NormalizedSource *)
Definition normalized_source (s : string) : string :=
  let n := nt_normpath s in if Nat.eqb (count_char "$" s) (count_char "$" n) then n else s.
(** 181-188: _IsWindowsAbsPath *)
Definition on_drive_c (p : string) : bool := String.prefix "c:" p || String.prefix "C:" p.
(** path[:-1] if path ends with a backslash, 176-177 *)
Fixpoint chop (p : string) : string :=
  match p with "" => "" | String a "" => if Ascii.eqb a backslash then "" else p | String a p' => String a (chop p') end.
(** 155-178: _FixPath, with the separator backslash *)
Definition fix_path (pre path : string) : string :=
  let path := if negb (String.eqb pre "") && negb (String.eqb path "") && negb (nt_isabs path) && negb (String.prefix "$" path) && negb (on_drive_c path)
    then nt_join pre path else path in
  chop (normalized_source (replace_char "/" backslash path)).

(** OrderedSet.update and discard *)
Definition update (s l : list string) : list string := fold_left (fun s x => oset_add x s) l s.
Definition discard (x : string) (s : list string) : list string := filter (fun y => negb (String.eqb x y)) s.

(** 1485-1525: _PrepareListOfSources *)
Definition prepare_action (se : list string * list string) (a : action) : list string * list string :=
  let '(s, e) := se in
  let i := map normalized_source (inputs a) in
  let s := update s i in
  let e := update e i in
  (if as_sources a then update s (map normalized_source (outputs a)) else s, e).
Definition prepare (p : project) : list string * list string :=
  let s := update [] (map normalized_source (sources p)) in
  let s := if standalone p then s else oset_add (gyp_file p) s in
  let '(s, e) := fold_left prepare_action (actions p) (s, []) in
  (fold_left (fun s c => update s (map normalized_source (files c))) (copies p) s, e).

(** 560-578: _RuleExpandPath *)
Definition rule_expand (path input : string) : string :=
  let name := snd (nt_split input) in
  let path := Model_Writer.replace "$(InputName)" (fst (nt_splitext name)) path in
  let path := Model_Writer.replace "$(InputDir)" (fst (nt_split input)) path in
  let path := Model_Writer.replace "$(InputExt)" (snd (nt_splitext name)) path in
  let path := Model_Writer.replace "$(InputFileName)" name path in
  Model_Writer.replace "$(InputPath)" input path.
(** 593-611: _RuleInputsAndOutputs *)
Definition rule_io (pre : string) (r : rule) (trigger : string) : list string * list string :=
  (update [trigger] (map (fun i => rule_expand (fix_path pre i) trigger) (rule_inputs r)),
   update [] (map (fun o => rule_expand (fix_path pre o) trigger) (rule_outputs r))).
(** 925-944: _AdjustSourcesForRules with is_msbuild; inputs.remove() raises a
    KeyError if it is not there, which it always is. *)
Definition adjust_trigger (pre : string) (r : rule) (se : list string * list string) (trigger : string) : list string * list string :=
  let '(s, e) := se in
  let e := discard (fix_path pre trigger) e in
  if rule_as_sources r then
    let '(i, o) := rule_io pre r trigger in
    let i := discard (fix_path pre trigger) (update [] (map (fix_path pre) i)) in
    (update (update s i) (update [] (map (fix_path pre) o)), e)
  else (s, e).
Definition adjust_rules (p : project) (se : list string * list string) : list string * list string :=
  fold_left (fun se r => fold_left (adjust_trigger (prefix p) r) (rule_sources r) se) (rules p) se.

(** 2317-2351: the rules that take the files with an extension; the last one wins. *)
Definition rule_extension (r : rule) : string := if String.prefix "." (extension r) then extension r else "." ++ extension r.
Definition handling_rules (p : project) : list rule :=
  filter (fun r => has_action r || match rule_sources r with [] => false | _ => true end) (rules p).
Definition extension_to_rule (p : project) (ext : string) : option string :=
  assoc ext (rev (map (fun r => (rule_extension r, rule_name r)) (handling_rules p))).
(** 2330-2331, 2402-2410; ConvertVCMacrosToMSBuild changes nothing in a path with no
    dollar sign, and is left out. *)
Definition rule_dependencies (p : project) : list string :=
  flat_map (fun r => split_char ";" (String.concat ";" (map (fix_path (prefix p)) (rule_inputs r)))) (handling_rules p).

(** ** the hierarchy of folders *)
Inductive tree := File (name : string) | Filter (name : string) (contents : list tree).
Definition join_bs : list string -> string := String.concat (String backslash "").
(** 196-267: _ConvertSourcesToFilterHierarchy for MSBuild, for one source below the
    top; [pre] is prefix. *)
Fixpoint convert_below (excluded : list string) (listed : bool) (pre comps : list string) : list tree :=
  match comps with
  | [] => []
  | x :: rest =>
    match rest with
    | [] => let f := normalized_source (join_bs (pre ++ [x])) in
            if mem f excluded then (if listed then [Filter "_excluded_files" [File f]] else []) else [File f]
    | _ :: _ => [Filter x (convert_below excluded listed (pre ++ [x]) rest)]
    end
  end.
(** ... and for all of them, at the top. *)
Definition convert_top (excluded : list string) (listed : bool) (comps : list string) : list tree :=
  match comps with
  | [x] => if mem (normalized_source x) excluded then [] else [File (normalized_source x)]
  | _ => convert_below excluded listed [] comps
  end.
Definition top_excluded (excluded : list string) (comps : list string) : list string :=
  match comps with [x] => if mem (normalized_source x) excluded then [normalized_source x] else [] | _ => [] end.
Definition convert (excluded : list string) (listed : bool) (l : list (list string)) : list tree :=
  let folder := flat_map (top_excluded excluded) l in
  (flat_map (convert_top excluded listed) l ++
   match folder with [] => [] | _ => if listed then [Filter "_excluded_files" (map File folder)] else [] end)%list.

(** 1568-1577: the loop that takes away folders that hold everything *)
Definition folder_name (t : tree) : option string := match t with Filter n _ => Some n | File _ => None end.
Definition one_folder (l : list tree) : bool :=
  match l with
  | Filter n _ :: l' => forallb (fun t => match folder_name t with Some m => String.eqb m n | None => false end) l'
  | _ => false
  end.
Fixpoint prune (fuel : nat) (l : list tree) : list tree + error :=
  if one_folder l then
    match fuel with
    | O => inr Out_of_fuel
    | S fuel =>
      if forallb (fun t => match t with Filter _ [_] => true | _ => false end) l
      then prune fuel (flat_map (fun t => match t with Filter _ c => c | File _ => [] end) l)
      else inr Assertion_error
    end
  else inl l.
Fixpoint depth (t : tree) : nat := match t with File _ => 0 | Filter _ c => S (fold_right (fun t n => Nat.max (depth t) n) 0 c) end.
Definition deepest (l : list tree) : nat := fold_right (fun t n => Nat.max (depth t) n) 0 l.
(** What _AddSources2 (3545-3636) finds in the hierarchy. *)
Fixpoint leaves (t : tree) : list string := match t with File f => [f] | Filter _ c => flat_map leaves c end.

(** 1528-1585: _AdjustSourcesAndConvertToFilterHierarchy; excluded_idl is empty if
    there are no external rules.  The files as _AddSources2 meets them, and the
    excluded ones. *)
Definition hierarchy (p : project) (se : list string * list string) : (list string * list string) + error :=
  let '(s, e) := se in
  let e := update e (update [] (sources_excluded p)) in
  let s := update s e in
  let s := map (fix_path (prefix p)) s in
  let e := map (fix_path (prefix p)) e in
  let related := flat_map (fun c => map (fix_path (prefix p)) (filter (fun f => negb (String.eqb f "")) (precompiled c))) (configurations p) in
  let fully := filter (fun i => negb (mem i related)) e in
  let t := convert fully (list_excluded p) (map (split_char backslash) s) in
  match prune (deepest t) t with
  | inl t => inl (flat_map leaves t, e)
  | inr err => inr err
  end.

(** ** actions *)
Record job := { job_inputs : list string; job_outputs : list string; job_message : string; job_line : string }.
(** 460-492: _AddActionStep; the assertion that there is an input holds as it is
    called. *)
Fixpoint attach (to : string) (s : job) (d : list (string * list job)) : list (string * list job) :=
  match d with
  | [] => [(to, [s])]
  | (k, l) :: d' => if String.eqb to k then (k, (l ++ [s])%list) :: d' else (k, l) :: attach to s d'
  end.
(** 1706-1730: _AddActions *)
Definition job_of (p : project) (a : action) : job :=
  {| job_inputs := match inputs a with [] => [build_file p] | i => i end; job_outputs := outputs a; job_message := message a; job_line := line a |}.
(** 1767-1800: _GetCopies *)
Definition ends_slash (s : string) : bool := match rev (list_ascii_of_string s) with a :: _ => Ascii.eqb a "/" | [] => false end.
Definition quoted (s : string) : string := """" ++ s ++ """".
Definition copy_job (p : project) (c : copy) (src : string) : job :=
  let dst := nt_join (destination c) (snd (nt_split src)) in
  if ends_slash src then
    let bare := substring 0 (String.length src - 1) src in
    let base := Model_Path.dirname bare in
    let outer := snd (Model_Names.path_split bare) in
    let full := quoted (fix_path (prefix p) dst ++ String backslash (outer ++ String backslash "")) in
    {| job_inputs := [src]; job_outputs := ["dummy_copies"; dst]; job_message := "Copying " ++ src ++ " to " ++ fix_path (prefix p) dst;
       job_line := "mkdir " ++ full ++ " 2>nul & cd " ++ quoted (fix_path (prefix p) base) ++ " && xcopy /e /f /y " ++ quoted outer ++ " " ++ full |}
  else
    {| job_inputs := [src]; job_outputs := [dst]; job_message := "Copying " ++ src ++ " to " ++ fix_path (prefix p) (destination c);
       job_line := "mkdir " ++ quoted (fix_path (prefix p) (destination c)) ++ " 2>nul & set ERRORLEVEL=0 & copy /Y " ++ quoted (fix_path (prefix p) src) ++ " " ++ quoted (fix_path (prefix p) dst) |}.
Definition jobs (p : project) : list job :=
  (map (job_of p) (actions p) ++ flat_map (fun c => map (copy_job p c) (files c)) (copies p))%list.
Definition attached (p : project) : list (string * list job) :=
  fold_left (fun d s => attach (hd "" (job_inputs s)) s d) (jobs p) [].

(** 3887-3981: _GenerateActionsForMSBuild and _AddMSBuildAction.  Each command is a
    line of the batch file that MSBuild runs, joined by \r\n; ConvertVCMacrosToMSBuild
    is [convert_macros], and msbuild_use_call is never set. *)
Definition crlf : string := String "013" (String "010" "").
Record custom := { attached_to : string; command : string; description : string; outputs_of : string; additional_inputs : string }.
Definition check : string := "if %errorlevel% neq 0 exit /b %errorlevel%".
Definition script (l : list job) : string := String.concat crlf (map (fun s => "call " ++ job_line s ++ crlf ++ check) l).
Definition custom_of (convert_macros : string -> string) (p : project) (kl : string * list job) : custom :=
  let '(k, l) := kl in
  let primary := fix_path (prefix p) k in
  let i := map (fix_path (prefix p)) (fold_left (fun s x => update s (update [] (job_inputs x))) l []) in
  let o := map (fix_path (prefix p)) (fold_left (fun s x => update s (update [] (job_outputs x))) l []) in
  {| attached_to := primary; command := convert_macros (script l);
     description := String.concat ", and also " (map job_message l);
     outputs_of := String.concat ";" o;
     additional_inputs := String.concat ";" (filter (fun x => negb (String.eqb x primary)) i) |}.

(** ** the items *)
Inductive group := G_none | G_masm | G_midl | G_include | G_compile | G_resource | G_rule | G_dependency.
(** 2274-2314: _MapFileToMsBuildSourceType *)
Definition source_type (p : project) (source : string) : group * string :=
  let ext := Model_Build.to_lower (snd (nt_splitext source)) in
  match extension_to_rule p ext with
  | Some r => (G_rule, r)
  | None =>
    if mem ext [".cc"; ".cpp"; ".c"; ".cxx"; ".mm"] then (G_compile, "ClCompile")
    else if mem ext [".h"; ".hxx"] then (G_include, "ClInclude")
    else if String.eqb ext ".rc" then (G_resource, "ResourceCompile")
    else if mem ext [".s"; ".asm"] then
      (G_masm, if mem "arm64" (map platform (configurations p)) && String.eqb (toolset p) "target" then "MARMASM" else "MASM")
    else if String.eqb ext ".idl" then (G_midl, "Midl")
    else if mem source (rule_dependencies p) then (G_dependency, "CustomBuild")
    else (G_none, "None")
  end.
(** 3624-3632: re.sub for the name of the object *)
Fixpoint skip_ups (fuel : nat) (s : string) : string :=
  match fuel, s with
  | S fuel, String a (String b (String c s')) => if Ascii.eqb a "." && Ascii.eqb b "." && Ascii.eqb c backslash then skip_ups fuel s' else s
  | _, _ => s
  end.
(** ^\$\([^)]+\)\\ *)
Fixpoint to_paren (s : string) : option (string * string) :=
  match s with "" => None | String a s' => if Ascii.eqb a ")" then Some ("", s') else match to_paren s' with Some (x, r) => Some (String a x, r) | None => None end end.
Definition skip_macro (s : string) : string :=
  match s with
  | String a (String b s') =>
    if Ascii.eqb a "$" && Ascii.eqb b "(" then
      match to_paren s' with
      | Some (x, String c r) => if negb (String.eqb x "") && Ascii.eqb c backslash then r else s
      | _ => s
      end
    else s
  | _ => s
  end.
Definition object_file (source : string) : string :=
  let name := fst (nt_splitext source) ++ ".obj" in
  "$(IntDir)\" ++ (if String.prefix "..\" name then skip_ups (String.length name) name
                   else if String.prefix "$(" name then skip_macro name else name).
(** [excluded]: the item has ExcludedFromBuild. *)
Record item := { element : string; include : string; excluded : bool; object_name : option string }.
(** 1627-1645: in how many of the configurations a file is excluded *)
Definition excluded_in (p : project) (e : list string) (f : string) : list config :=
  if mem f e then filter (fun c => negb (mem f (map (fix_path (prefix p)) (precompiled c)))) (configurations p) else [].
(** 3568-3636: one file.  _GetConfigurationCondition is called with two arguments
    out of three if the file is excluded in some configurations and not in all. *)
Definition item_of (p : project) (e : list string) (f : string) : (group * item) + error :=
  let x := excluded_in p e f in
  let '(g, el) := source_type p f in
  let obj := match g with G_compile => if nt_isabs f then None else Some (object_file f) | _ => None end in
  if Nat.eqb (length x) (length (configurations p)) then inl (g, {| element := el; include := f; excluded := true; object_name := obj |})
  else match x with
       | [] => inl (g, {| element := el; include := f; excluded := false; object_name := obj |})
       | _ => inr Type_error
       end.
Fixpoint items_of (p : project) (e : list string) (l : list string) : list (group * item) + error :=
  match l with
  | [] => inl []
  | f :: l' =>
    match item_of p e f with
    | inr err => inr err
    | inl i => match items_of p e l' with inl r => inl (i :: r) | inr err => inr err end
    end
  end.
Definition groups : list group := [G_none; G_masm; G_midl; G_include; G_compile; G_resource; G_rule; G_dependency].
Definition group_eqb (a b : group) : bool :=
  match a, b with
  | G_none, G_none | G_masm, G_masm | G_midl, G_midl | G_include, G_include | G_compile, G_compile
  | G_resource, G_resource | G_rule, G_rule | G_dependency, G_dependency => true
  | _, _ => false
  end.
(** 3680-3760, 3502-3542: the items of the project, by group, and those of the
    actions.  _FilterActionsFromExcluded is 947-957. *)
Definition generate (convert_macros : string -> string) (p : project) : (list item * list custom) + error :=
  match hierarchy p (adjust_rules p (prepare p)) with
  | inr err => inr err
  | inl (l, e) =>
    let must_keep := map (fix_path (prefix p)) (map fst (attached p)) in
    let e := filter (fun s => negb (mem s must_keep)) e in
    let customs := map (custom_of convert_macros p) (attached p) in
    let l := filter (fun s => negb (mem s (map attached_to customs))) l in
    match items_of p e l with
    | inr err => inr err
    | inl gi => inl (flat_map (fun g => map snd (filter (fun x => group_eqb g (fst x)) gi)) groups, customs)
    end
  end.
