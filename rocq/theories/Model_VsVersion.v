(** Model of gyp/pylib/gyp/MSVSVersion.py: which version of Visual Studio projects are
    written for, and the script that sets up the environment of its compiler.

    The registry, the files and the environment are functions.  Simplifications: Python
    on Windows, where os.path is ntpath (as in Model_Vcxproj) and winreg can be imported,
    not cygwin; values of the registry are strings. *)
From Verif Require Import Lib Str Model_Path Model_Vcxproj.
Local Open Scope string_scope.

(** 19-46: VisualStudioVersion; [None] is Python's. *)
Record vs := { short_name : string; description : string; solution_version : string; project_version : string; flat_sln : bool;
  uses_vcxproj : bool; path : option string; sdk_based : bool; default_toolset : option string; compatible_sdks : list string }.
(** 271-423: the table of _CreateVersion; the SDKs are sorted from high to low (44-46) *)
Definition versions : list (string * (string * string * string * bool * bool * option string * list string)) :=
  [("2022", ("Visual Studio 2022", "12.00", "17.0", false, true, Some "v143", ["v10.0"; "v8.1"]));
   ("2019", ("Visual Studio 2019", "12.00", "16.0", false, true, Some "v142", ["v10.0"; "v8.1"]));
   ("2017", ("Visual Studio 2017", "12.00", "15.0", false, true, Some "v141", ["v10.0"; "v8.1"]));
   ("2015", ("Visual Studio 2015", "12.00", "14.0", false, true, Some "v140", []));
   ("2013", ("Visual Studio 2013", "13.00", "12.0", false, true, Some "v120", []));
   ("2013e", ("Visual Studio 2013", "13.00", "12.0", true, true, Some "v120", []));
   ("2012", ("Visual Studio 2012", "12.00", "4.0", false, true, Some "v110", []));
   ("2012e", ("Visual Studio 2012", "12.00", "4.0", true, true, Some "v110", []));
   ("2010", ("Visual Studio 2010", "11.00", "4.0", false, true, None, []));
   ("2010e", ("Visual C++ Express 2010", "11.00", "4.0", true, true, None, []));
   ("2008", ("Visual Studio 2008", "10.00", "9.00", false, false, None, []));
   ("2008e", ("Visual Studio 2008", "10.00", "9.00", true, false, None, []));
   ("2005", ("Visual Studio 2005", "9.00", "8.00", false, false, None, []));
   ("2005e", ("Visual Studio 2005", "9.00", "8.00", true, false, None, []))].
(** 262-424: _CreateVersion; [None] is a KeyError (424) *)
Definition create_version (name : string) (path : option string) (sdk : bool) : option vs :=
  match assoc name versions with
  | None => None
  | Some (d, s, p, f, u, t, k) =>
    Some {| short_name := name; description := d; solution_version := s; project_version := p; flat_sln := f; uses_vcxproj := u;
            path := match path with Some "" => Some "" | Some q => Some (nt_normpath q) | None => None end; sdk_based := sdk; default_toolset := t; compatible_sdks := k |}
  end.

(** 454-464 *)
Definition version_to_year : list (string * string) :=
  [("8.0", "2005"); ("9.0", "2008"); ("10.0", "2010"); ("11.0", "2012"); ("12.0", "2013"); ("14.0", "2015"); ("15.0", "2017"); ("16.0", "2019"); ("17.0", "2022")].
Record machine := { registry : string -> string -> option string; exists_path : string -> bool; exists_glob : string -> bool }.
(** The values that are not missing and not empty: 477-479, 508-510. *)
Definition value_of (m : machine) (key value : string) : option string :=
  match registry m key value with Some "" => None | v => v end.
(** 470-498: what the first keys give *)
Definition install_keys (version : string) : list string :=
  ["HKLM\Software\Microsoft\VisualStudio\" ++ version; "HKLM\Software\Wow6432Node\Microsoft\VisualStudio\" ++ version;
   "HKLM\Software\Microsoft\VCExpress\" ++ version; "HKLM\Software\Wow6432Node\Microsoft\VCExpress\" ++ version].
Definition up (n : nat) (p : string) : string := Nat.iter n (fun p => nt_join p "..") p.
Definition one (x : option vs) : option (list vs) := match x with Some v => Some [v] | None => None end.
Definition year_of (version : string) : string := match assoc version version_to_year with Some y => y | None => "" end.
Definition from_install (m : machine) (express : bool) (version key : string) : option (list vs) :=
  match value_of m key "InstallDir" with
  | None => Some []
  | Some p =>
    if negb express && exists_path m (nt_join p "devenv.exe") then one (create_version (year_of version) (Some (up 2 p)) false)
    else if exists_glob m (nt_join p "*express.exe") then one (create_version (year_of version ++ "e") (Some (up 2 p)) false)
    else Some []
  end.
(** 500-522: ... and those for installations of the SDK alone *)
Definition sdk_keys : list string :=
  ["HKLM\Software\Microsoft\VisualStudio\SxS\VC7"; "HKLM\Software\Wow6432Node\Microsoft\VisualStudio\SxS\VC7";
   "HKLM\Software\Microsoft\VisualStudio\SxS\VS7"; "HKLM\Software\Wow6432Node\Microsoft\VisualStudio\SxS\VS7"].
Definition from_sdk (m : machine) (version key : string) : option (list vs) :=
  match value_of m key version with
  | None => Some []
  | Some p =>
    if String.eqb version "15.0" then (if exists_path m p then one (create_version "2017" (Some p) false) else Some [])
    else if negb (String.eqb version "14.0") then one (create_version (year_of version ++ "e") (Some (up 1 p)) true)
    else Some []
  end.
Fixpoint all {A : Type} (f : A -> option (list vs)) (l : list A) : option (list vs) :=
  match l with
  | [] => Some []
  | x :: l' => match f x with None => None | Some a => match all f l' with None => None | Some b => Some (a ++ b)%list end end
  end.
(** 435-524: _DetectVisualStudioVersions *)
Definition detect_one (m : machine) (express : bool) (version : string) : option (list vs) :=
  match all (from_install m express version) (install_keys version) with
  | None => None
  | Some a => match all (from_sdk m version) sdk_keys with None => None | Some b => Some (a ++ b)%list end
  end.
Definition detect (m : machine) (express : bool) (versions : list string) : option (list vs) := all (detect_one m express) versions.

(** 527-574: SelectVisualStudioVersion; [env] is os.environ.get *)
Inductive selection := Selected (x : vs) | Key_error | Value_error (message : string).
Definition version_map : list (string * list string) :=
  [("auto", ["17.0"; "16.0"; "15.0"; "14.0"; "12.0"; "10.0"; "9.0"; "8.0"; "11.0"]);
   ("2005", ["8.0"]); ("2005e", ["8.0"]); ("2008", ["9.0"]); ("2008e", ["9.0"]); ("2010", ["10.0"]); ("2010e", ["10.0"]);
   ("2012", ["11.0"]); ("2012e", ["11.0"]); ("2013", ["12.0"]); ("2013e", ["12.0"]); ("2015", ["14.0"]); ("2017", ["15.0"]);
   ("2019", ["16.0"]); ("2022", ["17.0"])].
Definition created (x : option vs) : selection := match x with Some v => Selected v | None => Key_error end.
Definition select (m : machine) (env : string -> option string) (version : string) (allow_fallback : bool) : selection :=
  let version := if String.eqb version "auto" then match env "GYP_MSVS_VERSION" with Some v => v | None => "auto" end else version in
  let override := match env "GYP_MSVS_OVERRIDE_PATH" with Some p => p | None => "" end in
  if negb (String.eqb override "") then
    match env "GYP_MSVS_VERSION" with
    | None | Some "" => Value_error "GYP_MSVS_OVERRIDE_PATH requires GYP_MSVS_VERSION to be set to a particular version (e.g. 2010e)."
    | Some v => created (create_version v (Some override) true)
    end
  else
    match assoc version version_map with
    | None => Key_error
    | Some l =>
      match detect m (has_char "e" version) l with
      | None => Key_error
      | Some (x :: _) => Selected x
      | Some [] =>
        if negb allow_fallback then Value_error "Could not locate Visual Studio installation."
        else if String.eqb version "auto" then created (create_version "2005" None false)
        else created (create_version version None false)
      end
    end.

(** 87-151: _SetupScriptInternal and SetupScript; JoinPath is at 15-16; joining to None raises a TypeError *)
Inductive script := Runs (command : list string) | Assertion | Type_err | Missing (script_path : string).
Definition join_path (l : list string) : string := match l with [] => "" | a :: l' => nt_normpath (fold_left nt_join l' a) end.
Definition setup_internal (m : machine) (env : string -> option string) (x : vs) (target : string) : script :=
  if negb (mem target ["x86"; "x64"]) then Assertion
  else
    let sdk_dir := match env "WindowsSDKDir" with Some d => d | None => "" end in
    let setup_path := join_path [sdk_dir; "Bin"; "SetEnv.Cmd"] in
    if sdk_based x && negb (String.eqb sdk_dir "") && exists_path m setup_path then Runs [setup_path; "/" ++ target]
    else
      let is64 (v : string) := match env v with Some a => String.eqb a "AMD64" | None => false end in
      let host64 := is64 "PROCESSOR_ARCHITECTURE" || is64 "PROCESSOR_ARCHITEW6432" in
      match path x with
      | None => Type_err
      | Some p =>
        let express := match rev (list_ascii_of_string (short_name x)) with c :: _ => Ascii.eqb c "e" | [] => false end in
        if String.leb "2017" (short_name x) then
          let host := if host64 then "amd64" else "x86" in
          let goal := if String.eqb target "x64" then "amd64" else "x86" in
          Runs [join_path [p; "VC"; "Auxiliary"; "Build"; "vcvarsall.bat"]; if String.eqb host goal then host else host ++ "_" ++ goal]
        else
          let vcvarsall := join_path [p; "VC"; "vcvarsall.bat"] in
          if String.eqb target "x86" then
            if String.leb "2013" (short_name x) && negb express && host64 then Runs [vcvarsall; "amd64_x86"]
            else Runs [join_path [p; "Common7"; "Tools"; "vsvars32.bat"]]
          else Runs [vcvarsall; if negb express && host64 then "amd64" else "x86_amd64"]
      end.
Definition setup_script (m : machine) (env : string -> option string) (x : vs) (target : string) : script :=
  match setup_internal m env x target with
  | Runs (s :: l) => if exists_path m s then Runs (s :: l) else Missing s
  | r => r
  end.

(** lib/configure.js:121-122: the variables that are set for gyp; years have four digits,
    so the smaller number is also the smaller string. *)
Definition configure_env (year dir : string) (env : string -> option string) : string -> option string :=
  fun k => if String.eqb k "GYP_MSVS_VERSION" then Some (if String.leb year "2015" then year else "2015")
           else if String.eqb k "GYP_MSVS_OVERRIDE_PATH" then Some dir else env k.
