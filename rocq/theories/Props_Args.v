(** C66 and C67: gyp's command line, and what configure puts there. *)
From Coq Require Import ZArith.
From Verif Require Import Lib Str LibFacts Model_Path Model_Args Spec_Args Proof_Args Proof_Args2 Model_Configure Spec_Configure Proof_Configure.
Local Open Scope string_scope.

(** C66: a command line is understood as gyp's help describes it: gyp goes on
    exactly with the lines that say something, and then does what they say. *)
Theorem C66_command_line : forall default_format env args,
  (forall r, gyp default_format env args = Some r -> exists es, says args es /\ means default_format env es r) /\
  (forall es, says args es -> exists r, gyp default_format env args = Some r /\ means default_format env es r).
Proof. exact gyp_reads. Qed.
Print Assumptions C66_command_line.

(** C66: it never says two things. *)
Theorem C66_determined : forall args es es', says args es -> says args es' -> es = es'.
Proof. exact says_unique. Qed.
Print Assumptions C66_determined.

Example C66_command_line_witness :
  says ["binding.gyp"; "-f"; "make"; "-Dx=1"; "--gen=out"; "--depth"; "."; "-Dx=two"; "--check"]
    [Left "binding.gyp"; Given Format "make"; Given Define "x=1"; Given Output "out"; Given Depth "."; Given Define "x=two"; On Check] /\
  exists r, gyp "make" no_environment ["binding.gyp"; "-f"; "make"; "-Dx=1"; "--gen=out"; "--depth"; "."; "-Dx=two"; "--check"] = Some r /\
    assoc "x" (run_defines r) = Some (Text "two") /\ run_output r = Some "out" /\ run_toplevel r = Some "." /\ run_check r = true.
Proof. split; [apply parse_iff; vm_compute; reflexivity|]. eexists. split; [vm_compute; reflexivity|]. repeat split. Qed.
Example C66_rejected_witness : (forall es, ~ says ["--no-"; "binding.gyp"] es) /\ (forall es, ~ says ["-D"; "--check"] es) /\ (forall es, ~ says ["--check=1"] es).
Proof. repeat split; intros es H; apply parse_iff in H; vm_compute in H; discriminate. Qed.

(** C66 is false as: an option gyp does not know is an error.  It is taken for
    the name of a build file. *)
Theorem C66_unknown_option_refuted :
  ~ (forall default_format env args r w, gyp default_format env args = Some r -> In w args -> dashed w -> ~ In w (run_files r)).
Proof. exact unknown_option. Qed.
Print Assumptions C66_unknown_option_refuted.

(** C66 is false as: the value of -D NAME=VALUE keeps its text.  What Python can
    read as a number becomes one: 007 and 0_7 are both 7. *)
Theorem C66_text_refuted :
  ~ (forall default_format env k t t' r r', has_char "=" k = false -> t <> t' ->
       gyp default_format env ["-D"; k ++ "=" ++ t] = Some r -> gyp default_format env ["-D"; k ++ "=" ++ t'] = Some r' ->
       assoc k (run_defines r) <> assoc k (run_defines r')).
Proof. exact number_text. Qed.
Print Assumptions C66_text_refuted.

(** C67: configure runs gyp for binding.gyp with the user's arguments and its own:
    the variables node-gyp defines and the directories it chooses prevail, its
    include files come after the user's, the format is the platform's unless one
    is asked for, and everything else is as the user asked. *)
Theorem C67_configure : forall p default_format env argv args es r0,
  says argv es -> ~ In "--" argv -> gyp default_format env argv = Some r0 ->
  (forall d f, full (resolve p d f)) -> full (config_gypi p) ->
  configure_arguments p argv = Some args ->
  exists r, gyp default_format env args = Some r /\ handed p argv es r0 r.
Proof. exact configure_handed. Qed.
Print Assumptions C67_configure.

(** C67: it stops only where a platform's exported symbols or zoslib's headers are
    needed and missing. *)
Theorem C67_stops : forall p argv, configure_arguments p argv = None <-> cannot_configure p.
Proof. exact configure_stops. Qed.
Print Assumptions C67_stops.

Example C67_configure_witness :
  exists args r, configure_arguments example_place ["-Dx=1"; "-Dlibrary=static_library"; "--depth=.."; "-I"; "more.gypi"] = Some args /\
  says ["-Dx=1"; "-Dlibrary=static_library"; "--depth=.."; "-I"; "more.gypi"] [Given Define "x=1"; Given Define "library=static_library"; Given Depth ".."; Given Include "more.gypi"] /\
  (forall d f, full (resolve example_place d f)) /\ full (config_gypi example_place) /\
  gyp "make" no_environment args = Some r /\
  run_files r = ["binding.gyp"] /\ run_formats r = ["make"] /\ run_depth r = Some "." /\ run_output r = Some "build" /\
  assoc "library" (run_defines r) = Some (Text "shared_library") /\ assoc "x" (run_defines r) = Some (Number 1) /\
  run_includes r = ["more.gypi"; "/mod/build/config.gypi"; "//mod/common.gypi"; "//gyp/addon.gypi"; "//headers/include/node/common.gypi"].
Proof.
  eexists _, _. split; [vm_compute; reflexivity|]. split; [apply parse_iff; vm_compute; reflexivity|]. split; [intros d f; eexists _, _; split; [reflexivity|discriminate]|]. split; [eexists _, _; split; [reflexivity|discriminate]|]. split; [vm_compute; reflexivity|]. repeat split.
Qed.
Example C67_stops_witness : cannot_configure aix_place /\ ~ cannot_configure example_place.
Proof. exact stops_example. Qed.

(** C67 is false as: where the user chooses a format, only that is generated.  The
    spellings -fninja and --format=ninja are overlooked and the platform's own is
    generated besides. *)
Theorem C67_format_refuted :
  ~ (forall p default_format env argv args es r, says argv es -> ~ In "--" argv -> (forall d f, full (resolve p d f)) -> full (config_gypi p) ->
       configure_arguments p argv = Some args -> gyp default_format env args = Some r -> values Format es <> [] -> run_formats r = values Format es).
Proof. exact format_overlooked. Qed.
Print Assumptions C67_format_refuted.

(** C67 is false as: the user's arguments cannot keep node-gyp's from counting.
    After -- its definitions and directories are taken for build files. *)
Theorem C67_dashes_refuted :
  ~ (forall p default_format env argv args r, (forall d f, full (resolve p d f)) -> full (config_gypi p) ->
       configure_arguments p argv = Some args -> gyp default_format env args = Some r -> assoc "node_root_dir" (run_defines r) <> None).
Proof. exact dashes_hide. Qed.
Print Assumptions C67_dashes_refuted.
