(** Model of the settings of the compiler and linker in Visual Studio projects,
    gyp/pylib/gyp/generator/msvs.py: _FinalizeMSBuildSettings (3341-3445),
    _GetMSBuildToolSettingsSections (3318-3338) and what they call.

    The settings the user gives for the tools are taken as they are after
    MSVSSettings.ConvertToMSBuildSettings, or as in msbuild_settings; warnings are left
    out. *)
From Verif Require Import Lib Str Model_Path Model_Value Model_Vcxproj Model_Cmdline.
From Verif Require Model_Writer.
Local Open Scope string_scope.

Inductive setting_value := Text (s : string) | Items (l : list string).
Definition settings := list (string * setting_value).
Definition tools := list (string * settings).
Inductive settings_error := Appending | Float_times_str | Several_def_files.

(** Python's truth *)
Definition is_set (v : setting_value) : bool := match v with Text s => negb (String.eqb s "") | Items l => match l with [] => false | _ => true end end.
(** 276-300: _ToolSetOrAppend *)
Definition with_backslashes (setting : string) (v : setting_value) : setting_value :=
  if Model_Writer.contains "Directories" setting || Model_Writer.contains "Dependencies" setting then
    match v with Text s => Text (replace_char "/" backslash s) | Items l => Items (map (replace_char "/" backslash) l) end
  else v.
Definition tool_settings (t : tools) (tool : string) : settings := match assoc tool t with Some s => s | None => [] end.
Definition set_or_append (t : tools) (tool setting : string) (v : setting_value) (only_if_unset : bool) : tools + settings_error :=
  let v := with_backslashes setting v in
  let s := tool_settings t tool in
  if String.eqb setting "CompileAsWinRT" then inl (set_key tool s t)
  else
    match assoc setting s with
    | Some old =>
      if is_set old then
        if only_if_unset then inl (set_key tool s t)
        else match old, v with
             | Items a, Items b => inl (set_key tool (set_key setting (Items (a ++ b)%list) s) t)
             | _, _ => inr Appending
             end
      else inl (set_key tool (set_key setting v s) t)
    | None => inl (set_key tool (set_key setting v s) t)
    end.
(** 270-273: _ToolAppend *)
Definition tool_append (t : tools) (tool setting : string) (v : setting_value) (only_if_unset : bool) : tools + settings_error :=
  if is_set v then set_or_append t tool setting v only_if_unset else inl t.

(** ** what is used of a target and of a configuration; a define is its parts, which
    are strings or have been made so by str() *)
Record configuration := {
  include_dirs : list string; system_include_dirs : list string; midl_include_dirs : list string; resource_include_dirs : option (list string);
  library_dirs : list string; defines : list (list string); disabled_warnings : list string; precompiled_header : option string;
  msbuild_toolset : option string; prebuild : setting_value; postbuild : setting_value }.
Record target := {
  kind : string; libraries : list string; target_sources : list string; standalone_static_library : bool; auto_output_file : bool;
  product_dir : option string; product_prefix : string; product_name : option string; product_extension : option string;
  requires_importlibrary : bool }.

(** 1374-1387: _GetDefines *)
Definition get_defines (c : configuration) : list string := map (String.concat "=") (defines c).
(** 1249-1273: _GetIncludeDirs *)
Definition get_include_dirs (pre : string) (c : configuration) : list string * list string * list string :=
  let i := (include_dirs c ++ system_include_dirs c)%list in
  let m := (midl_include_dirs c ++ system_include_dirs c)%list in
  (map (fix_path pre) i, map (fix_path pre) m, map (fix_path pre) (match resource_include_dirs c with Some l => l | None => i end)).
(** 1289-1313: _GetLibraries *)
Definition library (entry : string) : string :=
  let l := if String.prefix "-l" entry then substring 2 (String.length entry - 2) entry else entry in
  if String.eqb (snd (nt_splitext l)) "" then l ++ ".lib" else l.
Definition get_libraries (t : target) : list string :=
  rev (fold_left (fun found e => let l := library e in if mem l found then found else (found ++ [l])%list) (rev (libraries t)) []).
(** 1316-1355: _GetOutputFilePathAndTool with msbuild *)
Definition output_file_map (kind : string) : option (string * string) :=
  if mem kind ["executable"; "shared_library"; "loadable_module"; "windows_driver"] then Some ("Link", "$(OutDir)")
  else if String.eqb kind "static_library" then Some ("Lib", "$(OutDir)lib\") else None.
Definition output_file (t : target) : string * string :=
  match output_file_map (kind t) with
  | Some (tool, dir) =>
    if auto_output_file t then
      let dir := if standalone_static_library t then "$(OutDir)" else dir in
      let dir := match product_dir t with Some d => d | None => dir end in
      let suffix := match product_extension t with Some e => if String.eqb e "" then "$(TargetExt)" else "." ++ e | None => "$(TargetExt)" end in
      let name := match product_name t with Some n => n | None => "$(ProjectName)" end in
      (nt_join dir (product_prefix t ++ name ++ suffix), tool)
    else ("", "")
  | None => ("", "")
  end.
(** 1358-1371: _GetOutputTargetExt; None is "" *)
Definition target_ext (t : target) : string := match product_extension t with Some e => if String.eqb e "" then "" else "." ++ e | None => "" end.
(** 1394-1411: _GetModuleDefinition *)
Definition ends_def (s : string) : bool := match rev (list_ascii_of_string s) with c :: b :: a :: d :: _ => Ascii.eqb d "." && Ascii.eqb a "d" && Ascii.eqb b "e" && Ascii.eqb c "f" | _ => false end.
Definition module_definition (pre : string) (t : target) : string + settings_error :=
  if mem (kind t) ["shared_library"; "loadable_module"; "executable"; "windows_driver"] then
    match filter ends_def (target_sources t) with [] => inl "" | [d] => inl (fix_path pre d) | _ => inr Several_def_files end
  else inl "".

(** 744-758: _EscapeEnvironmentVariableExpansion *)
Fixpoint map_chars (f : ascii -> string) (s : string) : string := match s with "" => "" | String a s' => f a ++ map_chars f s' end.
Definition double_percents : string -> string := map_chars (fun a => if Ascii.eqb a "%" then "%%" else String a "").
(** 856-867: _EscapeCommandLineArgumentForMSBuild; in Python 3 the number of
    backslashes, divided by two, is a float, and cannot be multiplied with a string *)
Definition escape_argument (s : string) : string + settings_error := if Model_Writer.contains "\""" s then inr Float_times_str else inl s.
(** 870-881: _EscapeMSBuildSpecialCharacters *)
Definition special (a : ascii) : string :=
  if Ascii.eqb a "%" then "%25" else if Ascii.eqb a "$" then "%24" else if Ascii.eqb a "@" then "%40" else if Ascii.eqb a "'" then "%27"
  else if Ascii.eqb a ";" then "%3B" else if Ascii.eqb a "?" then "%3F" else if Ascii.eqb a "*" then "%2A" else String a "".
(** 884-893: _EscapeCppDefineForMSBuild *)
Definition escape_define (s : string) : string + settings_error :=
  match escape_argument (double_percents s) with
  | inr e => inr e
  | inl s => inl (map_chars (fun a => if Ascii.eqb a "#" then "\043" else String a "") (map_chars special s))
  end.
Fixpoint escape_defines (l : list string) : list string + settings_error :=
  match l with
  | [] => inl []
  | d :: l' => match escape_define d with inr e => inr e | inl x => match escape_defines l' with inl r => inl (x :: r) | inr e => inr e end end
  end.

(** One call of _ToolAppend, or of _ToolSetOrAppend if [even_if_empty]. *)
Record step := { step_tool : string; step_setting : string; step_value : setting_value; only_if_unset : bool; even_if_empty : bool }.
Definition append_step (tool setting : string) (v : setting_value) : step := {| step_tool := tool; step_setting := setting; step_value := v; only_if_unset := false; even_if_empty := false |}.
Fixpoint run_steps (l : list step) (t : tools) : tools + settings_error :=
  match l with
  | [] => inl t
  | s :: l' =>
    match (if even_if_empty s then set_or_append else tool_append) t (step_tool s) (step_setting s) (step_value s) (only_if_unset s) with
    | inl t' => run_steps l' t'
    | inr e => inr e
    end
  end.
Definition opt_text (o : option string) : string := match o with Some s => s | None => "" end.
(** 3382-3445 *)
Definition steps (pre : string) (t : target) (c : configuration) (defs : list string) (def_file : string) : list step :=
  let '(i, m, r) := get_include_dirs pre c in
  let '(out, out_tool) := output_file t in
  let pch := opt_text (precompiled_header c) in
  let pch := match msbuild_toolset c with Some ts => if String.eqb ts "ClangCL" then pch else snd (nt_split pch) | None => snd (nt_split pch) end in
  ([append_step "ClCompile" "AdditionalIncludeDirectories" (Items i);
    append_step "Midl" "AdditionalIncludeDirectories" (Items m);
    append_step "ResourceCompile" "AdditionalIncludeDirectories" (Items r);
    {| step_tool := "Link"; step_setting := "AdditionalDependencies"; step_value := Items (get_libraries t); only_if_unset := false; even_if_empty := true |};
    append_step "Link" "AdditionalLibraryDirectories" (Items (map (fix_path pre) (library_dirs c)));
    {| step_tool := out_tool; step_setting := "OutputFile"; step_value := Text out; only_if_unset := true; even_if_empty := false |};
    {| step_tool := out_tool; step_setting := "TargetExt"; step_value := Text (target_ext t); only_if_unset := true; even_if_empty := false |};
    append_step "ClCompile" "PreprocessorDefinitions" (Items defs);
    append_step "ResourceCompile" "PreprocessorDefinitions" (Items defs);
    append_step "ClCompile" "DisableSpecificWarnings" (Items (disabled_warnings c))] ++
   (match precompiled_header c with
    | Some (String _ _) => [append_step "ClCompile" "PrecompiledHeader" (Text "Use"); append_step "ClCompile" "PrecompiledHeaderFile" (Text pch); append_step "ClCompile" "ForcedIncludeFiles" (Items [pch])]
    | _ => [append_step "ClCompile" "PrecompiledHeader" (Text "NotUsing")]
    end) ++
   [append_step "ClCompile" "CompileAsWinRT" (Text "false")] ++
   (if requires_importlibrary t then [append_step "" "IgnoreImportLibrary" (Text "false")] else []) ++
   (if String.eqb (kind t) "loadable_module" then [append_step "" "IgnoreImportLibrary" (Text "true")] else []) ++
   [append_step "Link" "ModuleDefinitionFile" (Text def_file); append_step "PreBuildEvent" "Command" (prebuild c); append_step "PostBuildEvent" "Command" (postbuild c)])%list.
(** 3341-3445; [converted]: the configuration has no msbuild_settings. *)
Definition finalize (pre : string) (converted : bool) (user : tools) (t : target) (c : configuration) : tools + settings_error :=
  let d := get_defines c in
  let d := if converted then filter (fun d => negb (String.eqb d "_HAS_TR1=0")) d else d in
  match escape_defines d with
  | inr e => inr e
  | inl defs =>
    match module_definition pre t with
    | inr e => inr e
    | inl def_file => run_steps (steps pre t c defs def_file) user
    end
  end.

(** MSVSSettings.py:422-442: ConvertVCMacrosToMSBuild *)
Definition convert_macros (s : string) : string :=
  if has_char "$" s then
    fix_macro_slashes (fold_left (fun s on => Model_Writer.replace (fst on) (snd on) s)
      [("$(ConfigurationName)", "$(Configuration)"); ("$(InputDir)", "%(RelativeDir)"); ("$(InputExt)", "%(Extension)"); ("$(InputFileName)", "%(Filename)%(Extension)");
       ("$(InputName)", "%(Filename)"); ("$(InputPath)", "%(Identity)"); ("$(ParentName)", "$(ProjectFileName)"); ("$(PlatformName)", "$(Platform)"); ("$(SafeInputName)", "%(Filename)")] s)
  else s.
(** 3448-3474: _GetValueFormattedForMSBuild.  The list is changed by it: where two
    tools have the same list, what is appended for the first is there for the second,
    too, which is so for the definitions of ClCompile and ResourceCompile if none of
    the two had any.  That they are then inherited twice is left out. *)
Definition inherited : list string := ["AdditionalIncludeDirectories"; "AdditionalLibraryDirectories"; "AdditionalOptions"; "DelayLoadDLLs"; "DisableSpecificWarnings"; "PreprocessorDefinitions"].
Definition formatted (tool name : string) (v : setting_value) : string :=
  match v with
  | Items l =>
    let l := if mem name inherited then (l ++ [("%(" ++ name ++ ")")%string])%list else l in
    String.concat (if mem tool ["ClCompile"; "Link"; "Lib"] && String.eqb name "AdditionalOptions" then " " else ";") (map convert_macros l)
  | Text s => convert_macros s
  end.
(** 3318-3338: for one configuration *)
Definition sections (t : tools) : list (string * list (string * string)) :=
  flat_map (fun tool => let s := tool_settings t tool in
    if String.eqb tool "" then [] else match s with [] => [] | _ => [(tool, map (fun n => (n, formatted tool n (match assoc n s with Some v => v | None => Items [] end))) (sort (map fst s)))] end) (sort (map fst t)).
