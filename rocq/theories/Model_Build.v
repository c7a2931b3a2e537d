(** Model of lib/build.js: what node-gyp build runs. *)
From Coq Require Import ZArith.
From Verif Require Import Lib Str Spec_Text Model_Vs Model_Json Model_Gypi.
Local Open Scope string_scope.

(** What the build depends on besides the arguments: process.platform, the
    options, MAKE and JOBS in the environment, what is in build/config.gypi, the
    build/*.sln files in the order they are found, whether there is a Makefile
    or a *.mk in build/, whether the log is verbose, the number of processors,
    and which commands can be found. *)
Record machine := { platform : string; options : obj; env_make : option string; env_jobs : option string; config_data : option string;
  solutions : list string; has_makefile : bool; verbose : bool; cpus : Z; found : string -> bool }.

Inductive failure := Not_configured | Bad_config | No_solution | No_msbuild | Not_found.
Inductive outcome := Fails (f : failure) | Runs (command : string) (arguments : list string).

Definition win (m : machine) : bool := String.eqb (platform m) "win32".
(** s.indexOf(p) !== -1 *)
Fixpoint starts (p s : string) : bool :=
  match p, s with
  | EmptyString, _ => true
  | String a p', String b s' => Ascii.eqb a b && starts p' s'
  | _, EmptyString => false
  end.
Fixpoint includes (p s : string) : bool := starts p s || match s with EmptyString => false | String _ s' => includes p s' end.
(** 12-17 *)
Definition platform_make (m : machine) : string :=
  if String.eqb (platform m) "aix" then "gmake" else if String.eqb (platform m) "os400" then "gmake" else if includes "bsd" (platform m) then "gmake" else "make".
(** 18-22; the platforms before that are not Windows *)
Definition targets (m : machine) (argv : list string) : list string :=
  if String.eqb (platform_make m) "gmake" then argv else if win m then map (fun t => "/t:" ++ t) argv else argv.
(** a || b, for options and variables that are strings.  Simplification: make,
    jobs and solution are never given as anything else. *)
Definition or_else (a b : option string) : option string := match a with Some (String _ _) => a | _ => match b with Some (String _ _) => b | _ => None end end.
Definition text_option (k : string) (opts : obj) : option string := match assoc k opts with Some (JStr s) => Some s | _ => None end.
(** 24, 26 *)
Definition make_command (m : machine) : string := match or_else (text_option "make" (options m)) (env_make m) with Some c => c | None => platform_make m end.
Definition jobs (m : machine) : option string := or_else (text_option "jobs" (options m)) (env_jobs m).

(** An entry of an object; the outer None where undefined is asked for an
    entry, which throws *)
Definition field (k : string) (v : option json) : option (option json) :=
  match v with None | Some JNull => None | Some (JObj d) => Some (assoc k d) | Some _ => Some None end.
(** s.toUpperCase() === 'MAX', and s.toLowerCase(): ASCII only *)
Definition lower (a : ascii) : ascii := let n := N_of_ascii a in if N.leb 65 n && N.leb n 90 then ascii_of_N (n + 32) else a.
Fixpoint to_lower (s : string) : string := match s with EmptyString => "" | String a s' => String (lower a) (to_lower s') end.
Definition is_max (s : string) : bool := String.eqb (to_lower s) "max".
(** 160-167, 173-182 *)
Definition job_arguments (m : machine) (say : Z -> list string) : list string :=
  match jobs m with
  | None => []
  | Some j => match parse_int j with
              | Some n => if Z.ltb 0 n then say n else if is_max j then say (cpus m) else []
              | None => if is_max j then say (cpus m) else []
              end
  end.
(** 152-158 *)
Definition msbuild_platform (arch : string) : string :=
  let a := to_lower arch in if String.eqb a "x64" then "x64" else if String.eqb a "arm" then "ARM" else if String.eqb a "arm64" then "ARM64" else "Win32".
(** path.win32.extname *)
Definition win_sep (a : ascii) : bool := Ascii.eqb a "/" || Ascii.eqb a "\".
Fixpoint drop_seps (s : string) : string :=
  match s with
  | EmptyString => ""
  | String a s' => match drop_seps s' with EmptyString => if win_sep a then "" else String a "" | r => String a r end
  end.
Fixpoint base_of (s : string) : string :=
  match s with EmptyString => "" | String a s' => if win_sep a then base_of s' else if negb (includes "/" s' || includes "\" s') then s else base_of s' end.
Definition letter (a : ascii) : bool := let n := N_of_ascii (lower a) in N.leb 97 n && N.leb n 122.
Definition win_extname (p : string) : string :=
  let p := match p with String a (String ":" r) => if letter a then r else p | _ => p end in
  match rsplit1 "." (base_of (drop_seps p)) with
  | Some (EmptyString, _) | None => ""
  | Some (".", EmptyString) => ""
  | Some (_, e) => String "." e
  end.

(** 127-197 *)
Definition build_arguments (m : machine) (msvs : bool) (argv : list string) (build_type arch : string) : list string :=
  let argv := (targets m argv ++ (if negb msvs && verbose m then ["V=1"] else []) ++ (if msvs && negb (verbose m) then ["/clp:Verbosity=minimal"] else []) ++ (if msvs then ["/nologo"] else []))%list in
  if msvs then
    let argv := (argv ++ ["/p:Configuration=" ++ build_type ++ ";Platform=" ++ msbuild_platform arch]%string ++ job_arguments m (fun n => ["/m:" ++ rendering n]%string))%list in
    if existsb (fun a => String.eqb (win_extname a) ".sln") argv then argv
    else (match or_else (text_option "solution" (options m)) (hd_error (solutions m)) with Some s => s | None => "" end) :: argv
  else (argv ++ ["BUILDTYPE=" ++ build_type; "-C"; "build"]%string ++ job_arguments m (fun n => ["--jobs"; rendering n]))%list.

(** 41-69.  Simplification: build type, architecture and the path of MSBuild
    are strings where they are not falsy. *)
Definition text_of (v : option json) : option string := match v with Some (JStr s) => if String.eqb s "" then None else Some s | _ => None end.
Definition build (m : machine) (argv : list string) : outcome :=
  match config_data m with
  | None => Fails Not_configured
  | Some data =>
    match load_config data with
    | None => Fails Bad_config
    | Some config =>
      match field "target_defaults" (Some config), field "variables" (Some config) with
      | Some defaults, Some variables =>
        match field "default_configuration" defaults, field "target_arch" variables, field "msbuild_path" variables with
        | Some configured, Some arch, Some msbuild =>
          let build_type := match assoc "debug" (options m) with
                            | Some v => if truthy (Some v) then "Debug" else "Release"
                            | None => match text_of configured with Some t => t | None => "Release" end
                            end in
          let run := fun (msvs : bool) (command : string) =>
            if msvs then
              match text_of msbuild, arch with
              | None, _ => Fails No_msbuild
              | Some path, Some (JStr a) => Runs path (build_arguments m true argv build_type a)
              | Some _, _ => Fails Bad_config
              end
            else if found m command then Runs command (build_arguments m false argv build_type "") else Fails Not_found in
          if win m then
            match solutions m with
            | [] => if has_makefile m then run false (make_command m) else Fails No_solution
            | _ :: _ => run true ""
            end
          else run false (make_command m)
        | _, _, _ => Fails Bad_config
        end
      | _, _ => Fails Bad_config
      end
    end
  end.
(** 211-225: the build succeeds if the process ends by itself with status 0 *)
Definition succeeds (code : option Z) (signal : option string) : bool :=
  match code, signal with Some 0%Z, None => true | _, _ => false end.
