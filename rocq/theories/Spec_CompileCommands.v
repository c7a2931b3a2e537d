(** What a compilation database must say (the JSON Compilation Database of
    Clang: a list of objects with command, directory and file). *)
From Verif Require Import Lib Str Model_Json Spec_Quote Spec_Path Model_CompileCommands.
Local Open Scope string_scope.

(** The sources a database lists, by their names. *)
Definition c_source (s : string) : Prop := exists a, s = a ++ ".c".
Definition cc_source (s : string) : Prop := exists a, s = a ++ ".cc" \/ s = a ++ ".cpp" \/ s = a ++ ".cxx".
(** Those of a list, in its order. *)
Inductive listed : list string -> list string -> Prop :=
| listed_nil : listed [] []
| listed_yes s l r : c_source s \/ cc_source s -> listed l r -> listed (s :: l) (s :: r)
| listed_no s l r : ~ c_source s -> ~ cc_source s -> listed l r -> listed (s :: l) r.
(** Include directories below make's object directory are left out. *)
Inductive kept : list string -> list string -> Prop :=
| kept_nil : kept [] []
| kept_yes d l r : (forall t, d <> "$(obj)" ++ t) -> kept l r -> kept (d :: l) (d :: r)
| kept_no t l r : kept l r -> kept (("$(obj)" ++ t) :: l) r.

(** [path] is the absolute path of the place that [p] names in the directory of
    [build], for a process in [place].  A path that begins with two slashes keeps
    them (POSIX 4.13). *)
Definition two_slashes (p : string) : Prop := exists t, p = "//" ++ t.
Definition names (place : list string) (build p path : string) : Prop :=
  let dir := Model_Path.dirname build in
  path = absolute (locate (locate place dir) p) \/
  (path = "/" ++ absolute (locate (locate place dir) p) /\ (two_slashes p \/ two_slashes dir)).

(** One job: compiling a source of a target in a configuration. *)
Record job := { job_target : target; job_config : string; job_settings : config; job_source : string }.
(** The jobs of a configuration: for each target that has it, in order, its
    sources in order. *)
Inductive jobs (name : string) : list target -> list job -> Prop :=
| jobs_nil : jobs name [] []
| jobs_has t c srcs ts js : In (name, c) (configurations t) -> listed (sources t) srcs -> jobs name ts js ->
    jobs name (t :: ts) (map (fun s => {| job_target := t; job_config := name; job_settings := c; job_source := s |}) srcs ++ js)
| jobs_lacks t ts js : ~ In name (map fst (configurations t)) -> jobs name ts js -> jobs name (t :: ts) js.

(** The words of the compiler's command line. *)
Inductive words_for (place : list string) (given : target -> string -> config -> flags) (j : job) (path : string) : list string -> Prop :=
| words_c dirs incs : c_source (job_source j) -> kept (include_dirs (job_settings j)) dirs ->
    Forall2 (fun d w => exists p, w = "-I" ++ p /\ names place (build_file (job_target j)) d p) dirs incs ->
    words_for place given j path
      ("cc" :: map (append "-D") (defines (job_settings j)) ++ incs
       ++ any_flags (given (job_target j) (job_config j) (job_settings j)) ++ c_flags (given (job_target j) (job_config j) (job_settings j)) ++ ["-c"; path])%list
| words_cc dirs incs : cc_source (job_source j) -> kept (include_dirs (job_settings j)) dirs ->
    Forall2 (fun d w => exists p, w = "-I" ++ p /\ names place (build_file (job_target j)) d p) dirs incs ->
    words_for place given j path
      ("c++" :: map (append "-D") (defines (job_settings j)) ++ incs
       ++ any_flags (given (job_target j) (job_config j) (job_settings j)) ++ cc_flags (given (job_target j) (job_config j) (job_settings j)) ++ ["-c"; path])%list.

(** An object of the database describes a job: a shell reads its command as
    those words, in which a dollar sign starts an expansion. *)
Definition describes (place : list string) (given : target -> string -> config -> flags) (dir : string) (v : json) (j : job) : Prop :=
  exists cmd path ws, v = JObj [("command", JStr cmd); ("directory", JStr dir); ("file", JStr path)] /\
    names place (build_file (job_target j)) (job_source j) path /\ words_for place given j path ws /\ sh_words cmd = Some (map with_dollars ws).

(** The flags of the target itself, as on every system but macOS. *)
Definition own_flags (t : target) (name : string) (c : config) : flags :=
  {| any_flags := cflags c; c_flags := cflags_c c; cc_flags := cflags_cc c |}.
Definition given_flags (mac : option (target -> string -> flags)) (t : target) (name : string) (c : config) : flags :=
  match mac with Some f => f t name | None => own_flags t name c end.

(** The directory named in the entries, and the one the databases are stored
    below: the option --generator-output, else the flag output_dir, else "out". *)
Definition commands_dir (flag : option string) : string := match flag with Some o => o | None => "out" end.
Definition output_base (gen flag : option string) : string := match gen with Some (String a s) => String a s | _ => commands_dir flag end.
(** [path] is compile_commands.json in the configuration's directory there. *)
Definition stored_at (place : list string) (gen flag : option string) (name path : string) : Prop :=
  locate place path = ("compile_commands.json" :: locate (locate place (output_base gen flag)) name)%list.
(** [text] is a database of exactly the configuration's jobs. *)
Definition database (place : list string) (mac : option (target -> string -> flags)) (flag : option string) (ts : list target) (name text : string) : Prop :=
  exists vs js, json_parse text = Some (JArr vs) /\ jobs name ts js /\ Forall2 (describes place (given_flags mac) (commands_dir flag)) vs js.
(** Some target has the configuration. *)
Definition has_config (name : string) (ts : list target) : Prop := exists t c, In t ts /\ In (name, c) (configurations t).
(** Configurations are a dictionary: no name twice. *)
Definition dictionaries (ts : list target) : Prop := Forall (fun t => NoDup (map fst (configurations t))) ts.
