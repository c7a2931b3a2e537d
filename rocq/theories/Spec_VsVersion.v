(** What is said about the versions of Visual Studio. *)
From Verif Require Import Lib Str Model_Path Model_Vcxproj Model_VsVersion.
Local Open Scope string_scope.

(** The numbers of the versions. *)
Definition numbers : list (string * string) :=
  [("2022", "17.0"); ("2019", "16.0"); ("2017", "15.0"); ("2015", "14.0"); ("2013", "12.0"); ("2012", "11.0"); ("2010", "10.0"); ("2008", "9.0"); ("2005", "8.0")].
(** In what order versions are preferred *)
Definition preference : list string := ["2022"; "2019"; "2017"; "2015"; "2013"; "2010"; "2008"; "2005"; "2012"].
(** The years that are looked for when a version is asked for, and whether only express editions will do *)
Inductive sought : string -> list string -> bool -> Prop :=
| sought_auto : sought "auto" preference false
| sought_full year : In year preference -> sought year [year] false
| sought_express year : In year ["2005"; "2008"; "2010"; "2012"; "2013"] -> sought (year ++ "e") [year] true.
(** What is asked for: the parameter, or else the variable *)
Definition asked (env : string -> option string) (version : string) : string :=
  if String.eqb version "auto" then match env "GYP_MSVS_VERSION" with Some v => v | None => "auto" end else version.
(** No path is given in the environment. *)
Definition no_override (env : string -> option string) : Prop := env "GYP_MSVS_OVERRIDE_PATH" = None \/ env "GYP_MSVS_OVERRIDE_PATH" = Some "".
(** The names of the versions there are *)
Definition known : list string :=
  ["2022"; "2019"; "2017"; "2015"; "2013"; "2013e"; "2012"; "2012e"; "2010"; "2010e"; "2008"; "2008e"; "2005"; "2005e"].
(** The registry has [v] under one of the keys. *)
Definition registered (m : machine) (keys : list string) (value v : string) : Prop := v <> "" /\ exists k, In k keys /\ registry m k value = Some v.
Definition visual_studio_keys (number : string) : list string :=
  ["HKLM\Software\Microsoft\VisualStudio\" ++ number; "HKLM\Software\Wow6432Node\Microsoft\VisualStudio\" ++ number;
   "HKLM\Software\Microsoft\VCExpress\" ++ number; "HKLM\Software\Wow6432Node\Microsoft\VCExpress\" ++ number].
Definition side_by_side_keys : list string :=
  ["HKLM\Software\Microsoft\VisualStudio\SxS\VC7"; "HKLM\Software\Wow6432Node\Microsoft\VisualStudio\SxS\VC7";
   "HKLM\Software\Microsoft\VisualStudio\SxS\VS7"; "HKLM\Software\Wow6432Node\Microsoft\VisualStudio\SxS\VS7"].
(** Visual Studio [name], of the year [year], is installed in [where_]; the last is
    whether this is known from the key of its SDK. *)
Inductive installed (m : machine) (express : bool) (year : string) : string -> string -> bool -> Prop :=
| full_edition number d : In (year, number) numbers -> registered m (visual_studio_keys number) "InstallDir" d -> express = false ->
    exists_path m (nt_join d "devenv.exe") = true -> installed m express year year (nt_join (nt_join d "..") "..") false
| express_edition number d : In (year, number) numbers -> registered m (visual_studio_keys number) "InstallDir" d ->
    express = true \/ exists_path m (nt_join d "devenv.exe") = false ->
    exists_glob m (nt_join d "*express.exe") = true -> installed m express year (year ++ "e") (nt_join (nt_join d "..") "..") false
| studio_2017 d : year = "2017" -> registered m side_by_side_keys "15.0" d -> exists_path m d = true -> installed m express year "2017" d false
| sdk_alone number d : In (year, number) numbers -> year <> "2015" -> year <> "2017" -> registered m side_by_side_keys number d -> installed m express year (year ++ "e") (nt_join d "..") true.
(** [x] is the version [name] at [where_]: projects are .vcxproj from 2010 on, the
    solutions of express editions have no folders, and the toolset is that of the year. *)
Definition toolsets : list (string * string) :=
  [("2022", "v143"); ("2019", "v142"); ("2017", "v141"); ("2015", "v140"); ("2013", "v120"); ("2013e", "v120"); ("2012", "v110"); ("2012e", "v110")].
(** The versions that are written in solutions and projects *)
Definition formats : list (string * (string * string)) :=
  [("2005", ("9.00", "8.00")); ("2008", ("10.00", "9.00")); ("2010", ("11.00", "4.0")); ("2012", ("12.00", "4.0")); ("2013", ("13.00", "12.0"));
   ("2015", ("12.00", "14.0")); ("2017", ("12.00", "15.0")); ("2019", ("12.00", "16.0")); ("2022", ("12.00", "17.0"))].
Record is_version (x : vs) (name : string) (where_ : option string) (sdk : bool) : Prop := {
  named : short_name x = name;
  placed : path x = option_map nt_normpath where_;
  sdk_only : sdk_based x = sdk;
  project_files : uses_vcxproj x = negb (mem name ["2005"; "2005e"; "2008"; "2008e"]);
  flat : flat_sln x = mem name ["2005e"; "2008e"; "2010e"; "2012e"; "2013e"];
  toolset : default_toolset x = assoc name toolsets;
  written : exists year, (name = year \/ name = year ++ "e") /\ In (year, (solution_version x, project_version x)) formats }.

(** ** the script that sets up the compiler, and its argument: from the host to the target *)
Definition in_dir (dir : string) (names : list string) : string := nt_normpath (fold_left nt_join names dir).
Definition script_for (name : string) (host64 : bool) (target dir : string) : list string :=
  if mem name ["2017"; "2019"; "2022"] then
    [in_dir dir ["VC"; "Auxiliary"; "Build"; "vcvarsall.bat"];
     if host64 then (if String.eqb target "x64" then "amd64" else "amd64_x86") else (if String.eqb target "x64" then "x86_amd64" else "x86")]
  else if String.eqb target "x64" then
    [in_dir dir ["VC"; "vcvarsall.bat"]; if host64 && mem name ["2005"; "2008"; "2010"; "2012"; "2013"; "2015"] then "amd64" else "x86_amd64"]
  else if host64 && mem name ["2013"; "2015"] then [in_dir dir ["VC"; "vcvarsall.bat"]; "amd64_x86"]
  else [in_dir dir ["Common7"; "Tools"; "vsvars32.bat"]].
(** The machine has 64 bits, also if the program has 32. *)
Definition sixty_four (env : string -> option string) : Prop := env "PROCESSOR_ARCHITECTURE" = Some "AMD64" \/ env "PROCESSOR_ARCHITEW6432" = Some "AMD64".
(** The script of the Windows SDK is there. *)
Definition has_setenv (m : machine) (env : string -> option string) (script : string) : Prop :=
  exists d, d <> "" /\ env "WindowsSDKDir" = Some d /\ script = in_dir d ["Bin"; "SetEnv.Cmd"] /\ exists_path m script = true.
(** The outcome when a script has to be there *)
Definition provided (m : machine) (command : list string) : script :=
  match command with [] => Runs [] | s :: _ => if exists_path m s then Runs command else Missing s end.
