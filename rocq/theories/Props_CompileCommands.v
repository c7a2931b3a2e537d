(** Property C99. *)
From Verif Require Import Lib Str Model_Json Model_Path Spec_Quote Spec_Path Model_CompileCommands Spec_CompileCommands Proof_CompileCommands.
Local Open Scope string_scope.

(** C99: every file written is the database of a configuration that some target
    has: read as JSON it is a list of objects, one for each C and C++ source of
    each target with that configuration, in order; the command of each, read by
    a shell, runs cc or c++ on that file with the configuration's defines,
    include directories and flags. *)
Theorem C99_files : forall place mac gen flag ts path text, place_ok place -> dictionaries ts ->
  In (path, text) (generate_output (absolute place) mac gen flag ts) ->
  exists name, has_config name ts /\ stored_at place gen flag name path /\ database place mac flag ts name text.
Proof. intros place mac gen flag ts path text P D. exact (file_says place P mac gen flag ts D path text). Qed.
Print Assumptions C99_files.

(** C99: every configuration of a target gets its database. *)
Theorem C99_every : forall place mac gen flag ts name, place_ok place -> dictionaries ts -> has_config name ts ->
  exists path text, In (path, text) (generate_output (absolute place) mac gen flag ts) /\ stored_at place gen flag name path /\ database place mac flag ts name text.
Proof. intros place mac gen flag ts name P D. exact (file_there place P mac gen flag ts D name). Qed.
Print Assumptions C99_every.

(** C99: the jobs of a configuration are determined, and when the names of the
    configurations are proper directory names no file is written twice. *)
Theorem C99_determined : forall name ts js js', dictionaries ts -> jobs name ts js -> jobs name ts js' -> js = js'.
Proof. exact jobs_fun. Qed.
Print Assumptions C99_determined.

Theorem C99_once : forall place mac gen flag ts, dictionaries ts -> (forall name, has_config name ts -> name_ok name) ->
  NoDup (map (fun f => locate place (fst f)) (generate_output (absolute place) mac gen flag ts)).
Proof. intros place mac gen flag ts D. exact (one_each place mac gen flag ts D). Qed.
Print Assumptions C99_once.

(** Not so: an include directory below the product directory, written
    <(PRODUCT_DIR)/gen in a .gyp file, is kept in the command as
    "$(builddir)/gen" after the directory of the build file
    (compile_commands_json.py:17-34, 71-73), because only directories that begin
    with $(obj) are left out.  A shell that reads the command runs a program
    called builddir there. *)
Definition generated : list target :=
  [{| build_file := "binding.gyp"; sources := ["a.cc"]; configurations := [("Release", {| cflags := []; cflags_c := []; cflags_cc := []; defines := []; include_dirs := ["$(builddir)/gen"] |})] |}].
Theorem C99_product_dir_refuted : ~ (forall place mac gen flag ts path text cmd dir file, place_ok place -> dictionaries ts ->
  In (path, text) (generate_output (absolute place) mac gen flag ts) ->
  json_parse text = Some (JArr [JObj [("command", JStr cmd); ("directory", JStr dir); ("file", JStr file)]]) ->
  exists ws, sh_words cmd = Some (map literal ws)).
Proof.
  intros H. assert (D : dictionaries generated) by (repeat constructor; cbn; tauto). assert (P : place_ok ["w"]) by (repeat constructor; discriminate).
  destruct (H ["w"] None None None generated "out/Release/compile_commands.json" _ _ _ _ P D (or_introl eq_refl) eq_refl) as (ws & E).
  apply (f_equal live) in E. rewrite literal_dead in E. vm_compute in E. discriminate.
Qed.
Print Assumptions C99_product_dir_refuted.

(** A target with two configurations, sources of both kinds, a header, and
    arguments with blanks and quotes. *)
Definition addon : list target :=
  [{| build_file := "sub/binding.gyp"; sources := ["src/a.c"; "src/a.h"; "../b b.cxx"];
      configurations :=
        [("Release", {| cflags := ["-O2"]; cflags_c := ["-std=c11"]; cflags_cc := ["-std=c++17"]; defines := ["V=""1 2"""]; include_dirs := ["$(obj)/gen"; "include"; "/usr/include/x"] |});
         ("Debug", {| cflags := ["-O0"]; cflags_c := []; cflags_cc := []; defines := []; include_dirs := [] |})] |};
   {| build_file := "x.gyp"; sources := ["x.cc"]; configurations := [("Debug", {| cflags := []; cflags_c := []; cflags_cc := []; defines := []; include_dirs := [] |})] |}].
Example C99_witness : dictionaries addon /\ place_ok ["p"; "home"] /\
  map fst (generate_output (absolute ["p"; "home"]) None None None addon) = ["out/Release/compile_commands.json"; "out/Debug/compile_commands.json"] /\
  (exists vs, map (fun f => json_parse (snd f)) (generate_output (absolute ["p"; "home"]) None None None addon) = map (fun l => Some (JArr l)) vs /\ map (@length json) vs = [2; 3]) /\
  exists cmd, option_map (fun v => match v with JArr (JObj ((_, JStr c) :: _) :: _) => c | _ => "" end) (json_parse (snd (hd ("", "") (generate_output (absolute ["p"; "home"]) None None None addon)))) = Some cmd /\
    sh_words cmd = Some (map literal ["cc"; "-DV=""1 2"""; "-I/home/p/sub/include"; "-I/usr/include/x"; "-O2"; "-std=c11"; "-c"; "/home/p/sub/src/a.c"]).
Proof.
  split; [repeat constructor; cbn; intuition discriminate|]. split; [repeat constructor; discriminate|]. split; [vm_compute; reflexivity|]. split.
  - eexists [_; _]. split; vm_compute; reflexivity.
  - eexists. split; vm_compute; reflexivity.
Qed.
