(** C111: the steps that the Makefiles run by way of a tool of gyp's. *)
From Coq Require Import ZArith Lia.
From Verif Require Import Lib Str Model_MacTool Spec_MacTool Proof_MacTool.
Local Open Scope string_scope.

(** Making a static library on macOS: all that libtool writes to standard error is shown,
    in its order, but the warnings about files and libraries without symbols; the step
    succeeds exactly if libtool does and the library can be touched; and only then it is
    touched, and no other file is. *)
Theorem C111_libtool : forall can_touch cmd err c out touched status, code c -> mac_filter_libtool can_touch cmd err c = (out, touched, status) ->
  shows err out /\
  (status = 0%Z <-> c = 0%Z /\ forall f, library cmd f -> can_touch f = true) /\
  (forall f, In f touched <-> c = 0%Z /\ library cmd f /\ can_touch f = true).
Proof. exact libtool_step. Qed.
Print Assumptions C111_libtool.
Example C111_libtool_witness :
  let cmd := ["libtool"; "-static"; "-o"; "Release/x.a"; "a.o"; "b.o"] in
  let err := ["/usr/bin/libtool: file: a.o has no symbols"; "libtool: can't open file: b.o"; "libtool: for architecture: arm64 file: b.o has no symbols";
              "libtool: for architecture: arm64 v8 file: b.o has no symbols"; "libtool: file: a.o has no symbols in it"] in
  let out := ["libtool: can't open file: b.o"; "libtool: for architecture: arm64 v8 file: b.o has no symbols"; "libtool: file: a.o has no symbols in it"] in
  code 0 /\ code (-9) /\
  mac_filter_libtool (fun _ => true) cmd err 0 = (out, ["Release/x.a"], 0%Z) /\
  mac_filter_libtool (fun _ => true) cmd err 1 = (out, [], 1%Z) /\
  mac_filter_libtool (fun _ => true) cmd err (-9) = (out, [], 247%Z) /\
  mac_filter_libtool (fun _ => false) cmd err 0 = (out, [], 1%Z).
Proof. cbv zeta. unfold code. repeat split; lia. Qed.

(** A command run under the lock of gyp-mac-tool succeeds exactly if the command does. *)
Theorem C111_mac_flock : forall c, code c -> (mac_flock c = 0%Z <-> c = 0%Z).
Proof. exact status_zero. Qed.
Print Assumptions C111_mac_flock.

(** Under that of gyp-flock-tool, of AIX, OS/400 and Solaris, it succeeds also if the
    command fails: gyp/pylib/gyp/flock_tool.py:18 and 30 drop the exit code that
    ExecFlock returns (51).  The tool is put beside the Makefile
    (gyp/pylib/gyp/generator/make.py:2632), but no command that gyp itself writes there
    uses it. *)
Theorem C111_flock_tool_refuted : ~ (forall c, code c -> flock_tool c = 0%Z -> c = 0%Z).
Proof. intros H. specialize (H 1%Z ltac:(unfold code; lia) eq_refl). discriminate H. Qed.
Print Assumptions C111_flock_tool_refuted.
