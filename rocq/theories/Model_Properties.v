(** Model of the properties in Visual Studio projects,
    gyp/pylib/gyp/generator/msvs.py: _AddConditionalProperty (3238-3255),
    _GetMSBuildPropertyGroup (3262-3315), _GetMSBuildAttributes (3128-3182) and
    _GetMSBuildConfigurationGlobalProperties (3185-3235). *)
From Verif Require Import Lib Str Model_Path Model_Value Model_Vcxproj Model_TopoSort Model_Tools.
From Verif Require Model_Writer.
Local Open Scope string_scope.

(** ** the group *)
(** name, value, conditions *)
Definition properties := list (string * list (string * list string)).
Definition values_of (p : properties) (name : string) : list (string * list string) := match assoc name p with Some v => v | None => [] end.
Definition conditions_of (v : list (string * list string)) (value : string) : list string := match assoc value v with Some c => c | None => [] end.
(** 3238-3255 *)
Definition add_property (condition name value : string) (p : properties) : properties :=
  let v := values_of p name in set_key name (set_key value (conditions_of v value ++ [condition])%list v) p.
(** 2905-2908 *)
Definition condition (configuration platform : string) : string := "'$(Configuration)|$(Platform)'=='" ++ configuration ++ "|" ++ platform ++ "'".

(** 3258-3259: MSVS_VARIABLE_REFERENCE.findall; [skip] characters are part of the
    reference that was found last. *)
Definition is_upper_or_lower (a : ascii) : bool := let n := N_of_ascii a in (N.leb 65 n && N.leb n 90) || (N.leb 97 n && N.leb n 122).
Definition starts_name (a : ascii) : bool := is_upper_or_lower a || Ascii.eqb a "_".
Definition in_name (a : ascii) : bool := starts_name a || (let n := N_of_ascii a in N.leb 48 n && N.leb n 57).
Fixpoint name_tail (s : string) : option string :=
  match s with
  | "" => None
  | String a s' => if Ascii.eqb a ")" then Some "" else if in_name a then match name_tail s' with Some n => Some (String a n) | None => None end else None
  end.
Definition name_at (s : string) : option string :=
  match s with
  | String a (String b (String c s')) => if Ascii.eqb a "$" && Ascii.eqb b "(" && starts_name c then match name_tail s' with Some n => Some (String c n) | None => None end else None
  | _ => None
  end.
Fixpoint references (skip : nat) (s : string) : list string :=
  match s with
  | "" => []
  | String a s' =>
    match skip with
    | S k => references k s'
    | O => match name_at s with Some n => n :: references (2 + String.length n) s' | None => references 0 s' end
    end
  end.
(** 3277-3298: GetEdges; [set_order] is the order in which a set is walked through. *)
Definition edges (set_order : list string -> list string) (p : properties) (node : string) : list string :=
  set_order (filter (fun v => mem v (map fst p) && negb (String.eqb v node)) (flat_map (references 0) (sort (map fst (values_of p node))))).
(** 3300-3315: name, condition if it has one, value *)
Definition entry := (string * option string * string)%type.
Definition entries_of (num : nat) (p : properties) (name : string) : list entry :=
  let v := values_of p name in
  flat_map (fun value => let c := conditions_of v value in
    if Nat.eqb (length c) num then [(name, None, value)] else map (fun x => (name, Some x, value)) c) (sort (map fst v)).
Definition property_group (set_order : list string -> list string) (num : nat) (p : properties) : topo (list entry) :=
  match topologically_sorted (S (length p)) (map fst p) (edges set_order p) with
  | Sorted l => Sorted (flat_map (entries_of num p) (rev l))
  | CycleError v => CycleError v
  | TopoOutOfFuel => TopoOutOfFuel
  end.
(** The properties of some configurations, each with its condition, in the order of
    _AddConditionalProperty. *)
Definition added (l : list (string * list (string * string))) : properties :=
  fold_left (fun p c => fold_left (fun p nv => add_property (fst c) (fst nv) (snd nv) p) (snd c) p) l [].

(** ** what is in it *)
(** Of a configuration: msvs_configuration_attributes, without property sheets, and
    msvs_configuration_platform. *)
Record attributes := { output_directory : option string; intermediate_directory : option string; platform_of : string }.
Definition with_backslash (s : string) : string := match rev (list_ascii_of_string s) with a :: _ => if Ascii.eqb a "\" then s else s ++ "\" | [] => "\" end.
(** 1471-1481, 3094-3098 *)
Definition out_dir (pre : string) (a : attributes) : string :=
  with_backslash (convert_macros (fix_path pre (match output_directory a with Some d => d | None => "$(SolutionDir)$(ConfigurationName)" end) ++ "\")).
Definition int_dir (pre : string) (a : attributes) : string :=
  with_backslash (convert_macros (match intermediate_directory a with Some d => Model_Cmdline.fix_macro_slashes (fix_path pre d ++ "\") | None => fix_path pre "$(ConfigurationName)\obj\$(ProjectName)" ++ "\" end)).
(** 3164-3180: the tool is looked up with [], which raises a KeyError; a setting that
    is a list would raise another error. *)
Inductive property_error := No_tool | Setting_is_list.
Definition tool_text (s : settings) (name : string) : string + property_error :=
  match assoc name s with Some (Text x) => inl x | Some (Items []) | None => inl "" | Some (Items _) => inr Setting_is_list end.
Definition attribute_properties (pre : string) (t : target) (a : attributes) (finalized : tools) : list (string * string) + property_error :=
  let name := product_prefix t ++ match product_name t with Some n => n | None => "$(ProjectName)" end in
  let ext := match product_extension t with Some e => Some ("." ++ e) | None => None end in
  let tool := if mem (kind t) ["executable"; "shared_library"; "loadable_module"; "windows_driver"] then Some "Link" else if String.eqb (kind t) "static_library" then Some "Lib" else None in
  let dirs := [("IntDir", int_dir pre a); ("OutDir", out_dir pre a); ("TargetName", name)] in
  let rest (path : string) (ext : option string) :=
    (dirs ++ (match ext with Some e => [("TargetExt", e)] | None => [] end) ++ (if String.eqb path "" then [] else [("TargetPath", path)]) ++
     (match ext with Some e => if String.eqb e "" then [] else [("TargetExt", e)] | None => [] end))%list in
  match tool with
  | None => inl (rest "" ext)
  | Some tool =>
    match assoc tool finalized with
    | None => inr No_tool
    | Some s =>
      match tool_text s "OutputFile", tool_text s "TargetExt" with
      | inl f, inl e => inl (rest (if String.eqb f "" then "" else fix_path pre f) (if String.eqb e "" then ext else Some e))
      | inr e, _ | _, inr e => inr e
      end
    end
  end.
(** 3186-3199: [cygwin] is msvs_cygwin_dirs[0] *)
Definition executable_path (pre cygwin : string) : list (string * string) :=
  if String.eqb cygwin "" then []
  else let p := "$(MSBuildProjectDirectory)\" ++ fix_path pre cygwin ++ "\bin\" in
       [("ExecutablePath", "$(ExecutablePath);" ++ p ++ ";" ++ Model_Writer.replace "cygwin\bin" "python_26" p)].
(** 3201-3235: for one configuration *)
Definition global_properties (pre cygwin : string) (t : target) (a : attributes) (finalized : tools) : list (string * string) + property_error :=
  match attribute_properties pre t a finalized with
  | inr e => inr e
  | inl l =>
    let s := tool_settings finalized "" in
    inl (l ++ executable_path pre cygwin ++ map (fun n => (n, formatted "" n (match assoc n s with Some v => v | None => Items [] end))) (sort (map fst s)))%list
  end.
(** 3201-3235 and 3341-3445: for all configurations.  A configuration has the name
    without its platform, and the settings its user gives; [converted] as for
    [finalize]. *)
Record case := { case_name : string; case_attributes : attributes; case_converted : bool; case_user : tools; case_configuration : configuration }.
Inductive project_error := Settings (e : settings_error) | Property (e : property_error).
Fixpoint project_properties (pre cygwin : string) (t : target) (cases : list case) : list (string * list (string * string)) + project_error :=
  match cases with
  | [] => inl []
  | c :: cases' =>
    match finalize pre (case_converted c) (case_user c) t (case_configuration c) with
    | inr e => inr (Settings e)
    | inl s =>
      match global_properties pre cygwin t (case_attributes c) s with
      | inr e => inr (Property e)
      | inl g => match project_properties pre cygwin t cases' with inl r => inl ((condition (case_name c) (platform_of (case_attributes c)), g) :: r) | inr e => inr e end
      end
    end
  end.
