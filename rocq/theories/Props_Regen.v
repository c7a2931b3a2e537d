(** C68: how a Makefile remakes itself. *)
From Coq Require Import ZArith.
From Verif Require Import Lib Str LibFacts Model_Path Spec_Path Model_Args Spec_Args Proof_Args Proof_Args2 Model_Configure Spec_Configure Proof_Configure Proof_Regen Model_Quote Spec_Quote Proof_Regen2.
Local Open Scope string_scope.

(** C68: the command with which a Makefile remakes itself, run in the top
    directory under any environment, comes to the same as the run that made it:
    the same files and include files, directories, variables, generator flags and
    settings. *)
Theorem C68_regenerates : forall cwd default_format default_format' env env' args es r d t,
  place_ok cwd -> says args es -> repeatable cwd env es ->
  gyp default_format env args = Some r -> run_depth r = Some d -> run_toplevel r = Some t -> locate cwd d = locate cwd t ->
  exists again r', regeneration (plain_realpath cwd) default_format env args = Some again /\ gyp default_format' env' again = Some r' /\
    run_formats r' = ["make"] /\ comes_to_the_same cwd (locate cwd t) r r'.
Proof. exact regenerates. Qed.
Print Assumptions C68_regenerates.

(** C68: it arrives, through make and the shell, as it is meant. *)
Theorem C68_arrives : forall words, (forall w a, In w words -> In a ["010"; "#"; "$"]%char -> has_char a w = false) ->
  exists text, make_value (encode_posix_shell_list words) = Some text /\ sh_words text = Some (map literal words).
Proof. exact makefile_keeps. Qed.
Print Assumptions C68_arrives.

Definition an_environment : environment := {| env_config_dir := None; env_output := None; env_defines := ["a=1"; "b=2"; "a=1"]; env_flags := []; env_generators := [] |}.
Definition some_arguments : list string := ["mod.gyp"; "--depth"; "sub"; "-Db=3"; "-I"; "x/y.gypi"; "--generator-output=out"].
Example C68_regenerates_witness :
  exists es r, says some_arguments es /\ place_ok ["mod"; "home"] /\ repeatable ["mod"; "home"] an_environment es /\ gyp "make" an_environment some_arguments = Some r /\
  run_depth r = Some "sub" /\ run_toplevel r = Some "sub" /\
  regeneration (plain_realpath ["mod"; "home"]) "make" an_environment some_arguments =
    Some ["-fmake"; "--ignore-environment"; "-Db=2"; "-Da=1"; "-Db=3"; "--depth=."; "--generator-output=../out"; "-I../x/y.gypi"; "--toplevel-dir=."; "../mod.gyp"].
Proof.
  eexists _, _. split; [apply parse_iff; vm_compute; reflexivity|]. split; [repeat constructor; discriminate|]. split; [|split; [vm_compute; reflexivity|repeat split]].
  assert (A : forall v, In v ["b=3"; "a=1"; "b=2"] -> attachable v) by (intros v I; cbn in I; destruct I as [<-|[<-|[<-|[]]]]; (split; [discriminate|intros (t & E); discriminate])).
  repeat split.
  - intros ->. cbn in H. intuition discriminate.
  - intros (t & ->). cbn in H. intuition discriminate.
  - intros ->. cbn in H0. intuition discriminate.
  - intros (t & ->). cbn in H0. intuition discriminate.
  - intros ->. apply chosen_iff in H. discriminate.
  - intros (t & ->). apply chosen_iff in H. discriminate.
  - intros v c I J (t & ->). cbn in I. destruct I as [<-|[]]. vm_compute in J. intuition discriminate.
  - intros v c I J (t & ->). cbn in I. destruct I as [<-|[]]. vm_compute in J. intuition discriminate.
Qed.
Example C68_arrives_witness : make_value (encode_posix_shell_list ["-Dx=a b"; "-I../x.gypi"]) = Some (String "034" ("-Dx=a b" ++ String "034" " -I../x.gypi")).
Proof. reflexivity. Qed.

(** C68 is false of --no-parallel (which node-gyp always passes): remaking uses
    worker processes. *)
Theorem C68_parallel_refuted : ~ (forall cwd f env args r again r', place_ok cwd -> gyp f env args = Some r ->
  regeneration (plain_realpath cwd) f env args = Some again -> gyp f env again = Some r' -> run_parallel r' = run_parallel r).
Proof. exact lost_parallel. Qed.
Print Assumptions C68_parallel_refuted.
(** C68 is false of --no-circular-check: build files that were accepted with it
    can be refused when the Makefile is remade. *)
Theorem C68_circular_refuted : ~ (forall cwd f env args r again r', place_ok cwd -> gyp f env args = Some r ->
  regeneration (plain_realpath cwd) f env args = Some again -> gyp f env again = Some r' -> run_circular_check r' = run_circular_check r).
Proof. exact lost_circular. Qed.
Print Assumptions C68_circular_refuted.
(** C68 is false of --config-dir, which is not made relative to where the command
    runs. *)
Theorem C68_config_dir_refuted : ~ (forall cwd f env args r t again r', place_ok cwd -> gyp f env args = Some r -> run_toplevel r = Some t ->
  regeneration (plain_realpath cwd) f env args = Some again -> gyp f env again = Some r' ->
  both (same_place cwd (locate cwd t)) (run_config_dir r) (run_config_dir r')).
Proof. exact lost_config_dir. Qed.
Print Assumptions C68_config_dir_refuted.
(** C68 is false of an empty definition: the Makefile's command is an error. *)
Theorem C68_empty_refuted : ~ (forall cwd f env args r again, place_ok cwd -> gyp f env args = Some r ->
  regeneration (plain_realpath cwd) f env args = Some again -> gyp f env again <> None).
Proof. exact lost_empty. Qed.
Print Assumptions C68_empty_refuted.
(** C68 is false where --toplevel-dir is not --depth: paths are made relative to
    the one, and the command runs in the other. *)
Theorem C68_toplevel_refuted : ~ (forall cwd f env args r t again r', place_ok cwd -> gyp f env args = Some r -> run_toplevel r = Some t ->
  regeneration (plain_realpath cwd) f env args = Some again -> gyp f env again = Some r' ->
  Forall2 (same_place cwd (locate cwd t)) (run_includes r) (run_includes r')).
Proof. exact lost_toplevel. Qed.
Print Assumptions C68_toplevel_refuted.
(** C68 is false of what configure passes under --nodedir: the $(Configuration) in
    node_lib_file is expanded by make. *)
Theorem C68_nodedir_refuted : ~ (forall p here argv args again, place_ok here -> configure_arguments p argv = Some args ->
  regeneration (plain_realpath here) "make" no_environment args = Some again ->
  exists text, make_value (encode_posix_shell_list again) = Some text /\ sh_words text = Some (map literal again)).
Proof. exact nodedir_dollar. Qed.
Print Assumptions C68_nodedir_refuted.
