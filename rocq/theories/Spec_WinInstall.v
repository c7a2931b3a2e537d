(** What is to hold while several installs run at the same time on Windows. *)
From Verif Require Import Lib Str Model_WinInstall.
From Coq Require Import ZArith.
Local Open Scope string_scope.

(** Every run has all headers and its node.lib to copy, and no header is listed after
    installVersion (it is in "include", and readdir lists "include" first). *)
Definition orderly (headers : list string) (r : run) : Prop :=
  (exists before after, all r = before ++ "installVersion" :: after /\ incl headers before /\ ~ In "installVersion" before)%list /\
  In (lib r) (all r) /\ In (lib r) (rest r).
(** Before: no run has begun, a directory that is marked as installed has all headers, and
    a node.lib that is there is whole. *)
Definition begin (runs : nat -> run) (headers : list string) (needed : Z) (whole : string -> string) (w : world) : Prop :=
  (forall i, phases w i = Ready) /\ ((needed <= version_of (contents w))%Z -> forall f, In f headers -> contents w f = Some (whole f)) /\
  (forall i x, contents w (lib (runs i)) = Some x -> x = whole (lib (runs i))).
(** A run is in the middle of writing a file. *)
Definition writes (w : world) (i : nat) (f : string) : Prop := exists k todo, phases w i = Writing f k todo.
Definition idle (w : world) : Prop := forall i, phases w i = Ready \/ phases w i = Done.
(** Steps of one run alone. *)
Inductive alone (runs : nat -> run) (needed : Z) (attempts : nat) (whole : string -> string) (i : nat) (w : world) : world -> Prop :=
| rests : alone runs needed attempts whole i w w
| goes_on v u : alone runs needed attempts whole i w v -> step runs needed attempts whole i v u -> alone runs needed attempts whole i w u.
