(** Which Python is wanted. *)
From Verif Require Import Lib Str Js Model_Python.
Local Open Scope string_scope.

(** A candidate: a command to be asked for its path, the launcher, or a path. *)
Inductive candidate := Command (c : string) | Launcher | At (path : string).

(** The candidates in order of priority: a forced command is the only one;
    otherwise the command line, then the environment, then (Windows) the
    launcher, then python3 and python, then (Windows) the usual places. *)
Definition candidates (s : settings) : list candidate :=
  let given x := match x with "" => [] | _ => [Command x] end in
  match force_python s with
  | "" => (given (config_python s) ++ given (env_python s) ++ (if win s then [Launcher] else []) ++ [Command "python3"; Command "python"] ++ (if win s then map At (locations s) else []))%list
  | f => [Command f]
  end.

(** [says programs exec args shell out]: the program can be started and prints
    [out], white space around it not counted. *)
Definition says (programs : programs) exec args shell out : Prop := exists failed text, programs exec args shell = Ran failed text /\ out = js_trim text.
(** the path [p] is that of a program which prints a supported version *)
Definition supported programs (in_range : string -> bool) (p : string) : Prop := exists v, says programs p ["-c"; "import sys; print(""%s.%s.%s"" % sys.version_info[:3]);"] false v /\ in_range v = true.
(** the candidate stands for the path *)
Definition stands_for programs (s : settings) (c : candidate) (p : string) : Prop :=
  match c with
  | Command x => if win s then says programs ("""" ++ x ++ """") ["""-c"""; """import sys; sys.stdout.buffer.write(sys.executable.encode('utf-8'));"""] true p
                 else says programs x ["-c"; "import sys; sys.stdout.buffer.write(sys.executable.encode('utf-8'));"] false p
  | Launcher => says programs (py_launcher s) ["-3"; "-c"; "import sys; sys.stdout.buffer.write(sys.executable.encode('utf-8'));"] false p
  | At x => p = x
  end.
Definition acceptable programs in_range s c p : Prop := stands_for programs s c p /\ supported programs in_range p.
