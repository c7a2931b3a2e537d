(** Model of gyp/pylib/gyp/generator/compile_commands_json.py: the compilation
    database, one compile_commands.json for every configuration.

    Simplifications: a character is one with a code below 256; paths are POSIX
    paths; a configuration without a list has an empty one (the .get(..., [])
    of the code); a target comes with the build file that
    ParseQualifiedTarget finds in its name (gyp/pylib/gyp/common.py:39-54, C01);
    on a Mac the flags are whatever XcodeSettings answers (C96). *)
From Verif Require Import Lib Str Model_Quote Model_Path Model_Value Model_Json.
From Verif Require Model_Writer.
Local Open Scope string_scope.

Record config := { cflags : list string; cflags_c : list string; cflags_cc : list string; defines : list string; include_dirs : list string }.
Record target := { build_file : string; sources : list string; configurations : list (string * config) }.
Record flags := { any_flags : list string; c_flags : list string; cc_flags : list string }.
Record entry := { command : string; directory : string; file : string }.

(** os.path.abspath (Lib/posixpath.py), for a process in the directory [here]. *)
Definition abspath (here p : string) : string := normpath (if isabs p then p else path_join here p).

Section Run.
  (** os.getcwd(); on a Mac, what GetCflags, GetCflagsC and GetCflagsCC of the
      target's XcodeSettings answer for a configuration. *)
  Variable here : string.
  Variable mac : option (target -> string -> flags).

  (** compile_commands_json.py:46-58. *)
  Definition flags_for (t : target) (name : string) (c : config) : flags :=
    match mac with
    | Some f => f t name
    | None => {| any_flags := cflags c; c_flags := cflags_c c; cc_flags := cflags_cc c |}
    end.
  (** compile_commands_json.py:64-65: s.endswith((".c", ".cc", ".cpp", ".cxx")). *)
  Definition is_source (s : string) : bool := existsb (fun e => Model_Writer.ends_with e s) [".c"; ".cc"; ".cpp"; ".cxx"].
  (** compile_commands_json.py:67-68. *)
  Definition resolve (cwd filename : string) : string := abspath here (path_join cwd filename).

  (** compile_commands_json.py:44-96: what AddCommandsForTarget appends for one
      configuration; [out] is the generator flag output_dir, or "out". *)
  Definition commands_for (out : string) (t : target) (name : string) (c : config) : list entry :=
    let cwd := dirname (build_file t) in
    let f := flags_for t name c in
    let flags_c := (any_flags f ++ c_flags f)%list in
    let flags_cc := (any_flags f ++ cc_flags f)%list in
    let defs := map (fun s => "-D" ++ s) (defines c) in
    let srcs := filter is_source (sources t) in
    let dirs := filter (fun s => negb (String.prefix "$(obj)" s)) (include_dirs c) in
    let incs := map (fun s => "-I" ++ resolve cwd s) dirs in
    map (fun source =>
      let path := resolve cwd source in
      let isc := Model_Writer.ends_with ".c" source in
      {| command := join_with " "
           [(if isc then "cc" else "c++"); encode_posix_shell_list defs; encode_posix_shell_list incs;
            encode_posix_shell_list (if isc then flags_c else flags_cc); "-c"; encode_posix_shell_argument path];
         directory := out; file := path |}) srcs.

  (** compile_commands_json.py:80, 96: per_config_commands.setdefault(name, []),
      to which the entries are appended. *)
  Definition add (name : string) (es : list entry) (d : list (string * list entry)) : list (string * list entry) :=
    set_key name (match assoc name d with Some l => l | None => [] end ++ es)%list d.
  (** compile_commands_json.py:44-96: AddCommandsForTarget. *)
  Definition add_commands_for_target (out : string) (d : list (string * list entry)) (t : target) : list (string * list entry) :=
    fold_left (fun d e => add (fst e) (commands_for out t (fst e) (snd e)) d) (configurations t) d.

  (** json.dump(commands, fp, indent=0): Lib/json/encoder.py, py_encode_basestring_ascii
      and _make_iterencode. *)
  Definition py_escape_char (a : ascii) : string :=
    let n := N_of_ascii a in
    if N.eqb n 34 then String "\" (String a "") else if N.eqb n 92 then String "\" (String a "")
    else if N.eqb n 8 then "\b" else if N.eqb n 9 then "\t" else if N.eqb n 10 then "\n" else if N.eqb n 12 then "\f" else if N.eqb n 13 then "\r"
    else if N.leb 32 n && N.leb n 126 then String a ""
    else "\u00" ++ String (hex_digit (N.div n 16)) (String (hex_digit (N.modulo n 16)) "").
  Fixpoint py_escape (s : string) : string := match s with EmptyString => "" | String a s' => py_escape_char a ++ py_escape s' end.
  Definition py_quoted (s : string) : string := String quote (py_escape s ++ String quote "").
  Definition dump_entry (e : entry) : string :=
    "{" ++ nl ++ py_quoted "command" ++ ": " ++ py_quoted (command e) ++ "," ++ nl ++ py_quoted "directory" ++ ": " ++ py_quoted (directory e)
    ++ "," ++ nl ++ py_quoted "file" ++ ": " ++ py_quoted (file e) ++ nl ++ "}".
  Definition dump (es : list entry) : string :=
    match es with
    | [] => "[]"
    | e :: es' => "[" ++ nl ++ dump_entry e ++ fold_right (fun e s => "," ++ nl ++ dump_entry e ++ s) (nl ++ "]") es'
    end.

  (** compile_commands_json.py:99-123: GenerateOutput, as the files it writes.
      [generator_output] is the option, None when it is missing or not set;
      [out_flag] is the generator flag output_dir. *)
  Definition generate_output (generator_output out_flag : option string) (targets : list target) : list (string * string) :=
    let out := match out_flag with Some o => o | None => "out" end in
    let per_config := fold_left (add_commands_for_target out) targets [] in
    let output_dir := match generator_output with Some o => if String.eqb o "" then out else o | None => out end in
    map (fun e => (path_join (path_join output_dir (fst e)) "compile_commands.json", dump (snd e))) per_config.
End Run.
