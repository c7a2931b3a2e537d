(** Model of lib/find-python.js: the search for a Python to use.  Logging is
    left out. *)
From Verif Require Import Lib Str Js.
Local Open Scope string_scope.

(** What util.execFile gives (lib/util.js:8-12): it throws at once, or resolves
    to the error (if any) and the standard output. *)
Inductive ran := Threw | Ran (failed : bool) (stdout : string).
(** Running a program: name, arguments, whether through a shell. *)
Definition programs := string -> list string -> bool -> ran.

(** this.env, this.win, the option --python, the launcher and the default
    locations; an empty string stands for a setting that is not there. *)
Record settings := { force_python : string; config_python : string; env_python : string; win : bool; py_launcher : string; locations : list string }.

(** find-python.js:44-45 *)
Definition args_executable : list string := ["-c"; "import sys; sys.stdout.buffer.write(sys.executable.encode('utf-8'));"].
Definition args_version : list string := ["-c"; "import sys; print(""%s.%s.%s"" % sys.version_info[:3]);"].

Section Finder.
Variable programs : programs.
(** range.test of semver on the output, false if it throws *)
Variable in_range : string -> bool.
Variable s : settings.

(** find-python.js:256-274: run.  The error is not looked at.  trim takes off
    ASCII white space only here. *)
Definition run_prog (exec : string) (args : list string) (shell : bool) : option string :=
  match programs exec args shell with Threw => None | Ran _ out => Some (js_trim out) end.
(** find-python.js:221-253 *)
Definition check_exec_path (p : string) : option string :=
  match run_prog p args_version false with
  | None => None
  | Some version => if in_range version then Some p else None
  end.
Definition dquoted (x : string) : string := """" ++ x ++ """".
(** find-python.js:170-194 *)
Definition check_command (command : string) : option string :=
  match (if win s then run_prog (dquoted command) (map dquoted args_executable) true else run_prog command args_executable false) with
  | None => None
  | Some p => check_exec_path p
  end.
(** find-python.js:206-217 *)
Definition check_py_launcher : option string :=
  match run_prog (py_launcher s) ("-3" :: args_executable) false with
  | None => None
  | Some p => check_exec_path p
  end.

(** A check: whether [before] says to skip it, and what it finds. *)
Definition check := (bool * (unit -> option string))%type.
Definition is_set (x : string) : bool := negb (String.eqb x "").
(** find-python.js:72-147 *)
Definition to_check : list check :=
  if is_set (force_python s) then [(false, fun _ => check_command (force_python s))]
  else ([(negb (is_set (config_python s)), fun _ => check_command (config_python s));
         (negb (is_set (env_python s)), fun _ => check_command (env_python s))]
        ++ (if win s then [(false, fun _ => check_py_launcher)] else [])
        ++ [(false, fun _ => check_command "python3"); (false, fun _ => check_command "python")]
        ++ (if win s then map (fun l => (false, fun _ => check_exec_path l)) (locations s) else []))%list.
(** find-python.js:149-164; None is the error of fail *)
Fixpoint run_checks (l : list check) : option string :=
  match l with
  | [] => None
  | (skip, f) :: l' => if skip then run_checks l' else match f tt with Some p => Some p | None => run_checks l' end
  end.
Definition find_python : option string := run_checks to_check.
End Finder.
