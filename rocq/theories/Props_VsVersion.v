(** C110: the version of Visual Studio that projects are written for. *)
From Verif Require Import Lib Str Model_Path Model_Vcxproj Model_VsVersion Spec_VsVersion Proof_VsVersion Proof_VsVersion2.
Local Open Scope string_scope.

(** Run by node-gyp, gyp writes projects for the installation that node-gyp found,
    in the format of its year or of 2015 if that is later, whatever is installed and
    whatever version is asked for in other ways. *)
Theorem C110_configured : forall m env version fallback year dir, In year ["2013"; "2015"; "2017"; "2019"; "2022"] -> dir <> "" ->
  exists x, select m (configure_env year dir env) version fallback = Selected x /\
    is_version x (if String.eqb year "2013" then "2013" else "2015") (Some dir) true.
Proof. exact configured. Qed.
Print Assumptions C110_configured.

(** The variables name the version and its directory; a version that is not known is an error. *)
Theorem C110_override : forall m env version fallback name dir, env "GYP_MSVS_OVERRIDE_PATH" = Some dir -> dir <> "" -> env "GYP_MSVS_VERSION" = Some name -> name <> "" ->
  if (mem name known : bool) then exists x, select m env version fallback = Selected x /\ is_version x name (Some dir) true
  else select m env version fallback = Key_error.
Proof. exact overridden. Qed.
Print Assumptions C110_override.
Definition found_at (s : selection) : option (string * option string * bool) := match s with Selected x => Some (short_name x, path x, uses_vcxproj x) | _ => None end.
Example C110_override_witness :
  let m := {| registry := fun _ _ => Some "C:\Other"; exists_path := fun _ => true; exists_glob := fun _ => true |} in
  found_at (select m (configure_env "2022" "C:\VS\2022\" (fun _ => None)) "2013" false) = Some ("2015", Some "C:\VS\2022", true) /\
  found_at (select m (configure_env "2008" "C:\VS9" (fun _ => None)) "auto" false) = Some ("2008", Some "C:\VS9", false) /\
  select m (configure_env "2011" "C:\VS" (fun _ => None)) "auto" true = Key_error.
Proof. repeat split. Qed.

(** Otherwise the version is installed and no version that is preferred to it is; a
    version that only the key of an SDK names is chosen only if its year is not
    installed otherwise.  If nothing is installed it is the version that was asked
    for, or 2005, with no directory, and only where this is allowed. *)
Theorem C110_selected : forall m env version fallback x, no_override env -> select m env version fallback = Selected x ->
  exists years express, sought (asked env version) years express /\
  ((exists better year worse name dir sdk, years = (better ++ year :: worse)%list /\ installed m express year name dir sdk /\ is_version x name (Some dir) sdk /\
      (sdk = true -> forall name' dir', ~ installed m express year name' dir' false) /\
      forall year' name' dir' sdk', In year' better -> ~ installed m express year' name' dir' sdk') \/
   fallback = true /\ (forall year name dir sdk, In year years -> ~ installed m express year name dir sdk) /\
   is_version x (if String.eqb (asked env version) "auto" then "2005" else asked env version) None false).
Proof. exact selected. Qed.
Print Assumptions C110_selected.
(** Visual Studio 2015 and 2012 are installed, and Visual C++ Express 2013. *)
Definition some_machine : machine := {|
  registry := fun k v =>
    if String.eqb k "HKLM\Software\Microsoft\VisualStudio\14.0" && String.eqb v "InstallDir" then Some "C:\VS14\Common7\IDE\"
    else if String.eqb k "HKLM\Software\Microsoft\VisualStudio\11.0" && String.eqb v "InstallDir" then Some "C:\VS11\Common7\IDE"
    else if String.eqb k "HKLM\Software\Wow6432Node\Microsoft\VCExpress\12.0" && String.eqb v "InstallDir" then Some "C:\VS12\Common7\IDE"
    else None;
  exists_path := fun p => mem p ["C:\VS14\Common7\IDE\devenv.exe"; "C:\VS11\Common7\IDE\devenv.exe"];
  exists_glob := fun p => String.eqb p "C:\VS12\Common7\IDE\*express.exe" |}.
Definition name_and_path (s : selection) : option (string * option string) := match s with Selected x => Some (short_name x, path x) | _ => None end.
Example C110_selected_witness :
  no_override (fun _ => None) /\
  name_and_path (select some_machine (fun _ => None) "auto" true) = Some ("2015", Some "C:\VS14") /\
  name_and_path (select some_machine (fun _ => None) "2013" true) = Some ("2013e", Some "C:\VS12") /\
  name_and_path (select some_machine (fun _ => None) "2012" true) = Some ("2012", Some "C:\VS11") /\
  name_and_path (select some_machine (fun _ => None) "2019" true) = Some ("2019", None) /\
  name_and_path (select some_machine (fun _ => None) "2019" false) = None.
Proof. split; [left; reflexivity|]. repeat split. Qed.

(** That nothing is installed is reported exactly if so and nothing else may be taken. *)
Theorem C110_absent : forall m env version fallback, no_override env ->
  ((exists s, select m env version fallback = Value_error s) <->
   fallback = false /\ exists years express, sought (asked env version) years express /\ forall year name dir sdk, In year years -> ~ installed m express year name dir sdk).
Proof. exact value_error. Qed.
Print Assumptions C110_absent.
(** A directory without a version is refused. *)
Theorem C110_override_needs : forall m env version fallback dir, env "GYP_MSVS_OVERRIDE_PATH" = Some dir -> dir <> "" ->
  env "GYP_MSVS_VERSION" = None \/ env "GYP_MSVS_VERSION" = Some "" -> exists s, select m env version fallback = Value_error s.
Proof. exact override_needs. Qed.
Print Assumptions C110_override_needs.

(** The lookup fails exactly if a version is asked for that is not known, or if one is
    found that is not. *)
Theorem C110_key_error : forall m env version fallback, no_override env -> (select m env version fallback = Key_error <->
  (forall years express, ~ sought (asked env version) years express) \/
  exists years express year name dir sdk, sought (asked env version) years express /\ In year years /\ installed m express year name dir sdk /\ ~ In name known).
Proof. exact key_error. Qed.
Print Assumptions C110_key_error.

(** An installation does not mean that a version is found: if the registry has
    a value 16.0 (2019) or 17.0 (2022) under one of the keys SxS\VC7 and SxS\VS7,
    gyp/pylib/gyp/MSVSVersion.py:515-522 takes it for the SDK of an express edition and
    fails with KeyError: '2019e', although a full edition is installed too.  node-gyp
    itself is not affected, since it sets GYP_MSVS_OVERRIDE_PATH. *)
Theorem C110_newer_refuted : ~ (forall m env version fallback years express year name dir, no_override env -> sought (asked env version) years express -> In year years ->
  installed m express year name dir false -> In name known -> exists x, select m env version fallback = Selected x).
Proof.
  intros H.
  pose (m := {| registry := fun k v => if String.eqb k "HKLM\Software\Microsoft\VisualStudio\17.0" && String.eqb v "InstallDir" then Some "C:\VS17\Common7\IDE"
                                       else if String.eqb k "HKLM\Software\Microsoft\VisualStudio\SxS\VS7" && String.eqb v "16.0" then Some "C:\VS16" else None;
                exists_path := fun p => String.eqb p "C:\VS17\Common7\IDE\devenv.exe"; exists_glob := fun _ => false |}).
  destruct (H m (fun _ => None) "auto" true preference false "2022" "2022" (nt_join (nt_join "C:\VS17\Common7\IDE" "..") "..")) as [x X].
  - left; reflexivity.
  - exact sought_auto.
  - left; reflexivity.
  - apply (full_edition m false "2022" "17.0" "C:\VS17\Common7\IDE"); [left; reflexivity| |reflexivity|reflexivity].
    split; [discriminate|]. exists "HKLM\Software\Microsoft\VisualStudio\17.0". split; [left; reflexivity|reflexivity].
  - left; reflexivity.
  - vm_compute in X. discriminate X.
Qed.
Print Assumptions C110_newer_refuted.

(** The compiler is set up with the script of the version, from the host to the target,
    and a script that is not there is an error; with no directory there is none. *)
Theorem C110_script : forall m env x target host64, In target ["x86"; "x64"] -> In (short_name x) known -> (host64 = true <-> sixty_four env) ->
  sdk_based x = false \/ (forall s, ~ has_setenv m env s) ->
  setup_script m env x target = match path x with None => Type_err | Some dir => provided m (script_for (short_name x) host64 target dir) end.
Proof. exact script_plain. Qed.
Print Assumptions C110_script.
(** The script of the Windows SDK comes first where the version is known from it, or from the variables. *)
Theorem C110_setenv : forall m env x target s, In target ["x86"; "x64"] -> sdk_based x = true -> has_setenv m env s ->
  setup_script m env x target = Runs [s; "/" ++ target].
Proof. exact script_sdk. Qed.
Print Assumptions C110_setenv.
(** Other targets are refused. *)
Theorem C110_targets : forall m env x target, ~ In target ["x86"; "x64"] -> setup_script m env x target = Assertion.
Proof. exact script_bad. Qed.
Print Assumptions C110_targets.
Definition w64 (k : string) : option string := if String.eqb k "PROCESSOR_ARCHITEW6432" then Some "AMD64" else None.
Definition one_file (s : string) : machine := {| registry := fun _ _ => None; exists_path := String.eqb s; exists_glob := fun _ => false |}.
Definition scripts (name : string) (m : machine) (env : string -> option string) (target : string) : option script :=
  option_map (fun x => setup_script m env x target) (create_version name (Some "C:\VS") true).
Example C110_script_witness :
  sixty_four w64 /\ (forall m s, ~ has_setenv m w64 s) /\
  scripts "2019" (one_file "C:\VS\VC\Auxiliary\Build\vcvarsall.bat") w64 "x86" = Some (Runs ["C:\VS\VC\Auxiliary\Build\vcvarsall.bat"; "amd64_x86"]) /\
  scripts "2013e" (one_file "C:\VS\Common7\Tools\vsvars32.bat") w64 "x86" = Some (Runs ["C:\VS\Common7\Tools\vsvars32.bat"]) /\
  scripts "2010" (one_file "") w64 "x64" = Some (Missing "C:\VS\VC\vcvarsall.bat").
Proof. split; [right; reflexivity|]. split; [intros m s [d [_ [E _]]]; discriminate E|]. repeat split. Qed.
Example C110_setenv_witness : let env k := if String.eqb k "WindowsSDKDir" then Some "C:\SDK\" else None in
  has_setenv (one_file "C:\SDK\Bin\SetEnv.Cmd") env "C:\SDK\Bin\SetEnv.Cmd" /\
  scripts "2010e" (one_file "C:\SDK\Bin\SetEnv.Cmd") env "x64" = Some (Runs ["C:\SDK\Bin\SetEnv.Cmd"; "/x64"]).
Proof. split; [exists "C:\SDK\"; repeat split; discriminate|reflexivity]. Qed.

(** With the variables that node-gyp sets, the script of Visual Studio 2017 and later is
    not found although it is there: lib/configure.js:121 gives 2015 as the year, so
    gyp/pylib/gyp/MSVSVersion.py:121 looks for VC\vcvarsall.bat, not for
    VC\Auxiliary\Build\vcvarsall.bat.  This concerns the ninja generator
    (gyp/pylib/gyp/msvs_emulation.py:1192); the default one does not use the script. *)
Theorem C110_ninja_refuted : ~ (forall m env year dir x target, In year ["2017"; "2019"; "2022"] -> In target ["x86"; "x64"] -> (forall s, ~ has_setenv m env s) ->
  exists_path m (in_dir dir ["VC"; "Auxiliary"; "Build"; "vcvarsall.bat"]) = true ->
  select m (configure_env year dir env) "auto" true = Selected x -> exists command, setup_script m (configure_env year dir env) x target = Runs command).
Proof.
  intros H.
  destruct (H (one_file "C:\VS\VC\Auxiliary\Build\vcvarsall.bat") w64 "2022" "C:\VS" _ "x64" ltac:(cbn; tauto) ltac:(cbn; tauto)
    (fun s E => match E with ex_intro _ d (conj _ (conj F _)) => ltac:(discriminate F) end) eq_refl eq_refl) as [c C].
  vm_compute in C. discriminate C.
Qed.
Print Assumptions C110_ninja_refuted.
