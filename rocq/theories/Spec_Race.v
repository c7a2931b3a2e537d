(** What is to hold while several installs run at the same time. *)
From Verif Require Import Lib Str Model_Race.
From Coq Require Import ZArith.
Local Open Scope string_scope.

(** Every run asks for the same version and gets the genuine archive. *)
Definition all_genuine (runs : nat -> run) (headers : list (string * string)) : Prop := forall i, archive (runs i) = headers /\ sound (runs i) = true.
(** An archive of headers: at least one, each once, and none called installVersion. *)
Definition plain_archive (headers : list (string * string)) : Prop := headers <> [] /\ NoDup (map fst headers) /\ ~ In "installVersion" (map fst headers).
(** Before: no run has begun, and a directory that is marked as installed is complete. *)
Definition accepted (needed : Z) (w : world) : Prop := there w = true /\ (needed <= version_of (contents w))%Z.
Definition complete (headers : list (string * string)) (w : world) : Prop := forall f c, In (f, c) headers -> contents w f = Some c.
Definition begin (headers : list (string * string)) (needed : Z) (w : world) : Prop :=
  (forall i, phases w i = Ready) /\ ((needed <= version_of (contents w))%Z -> complete headers w).
(** A run is in the middle of writing a file. *)
Definition writes (w : world) (i : nat) (f : string) : Prop := exists l c k b, phases w i = Extracting l /\ In (f, c, Writing k b) l.
Definition idle (w : world) : Prop := forall i, phases w i = Ready \/ phases w i = Done.
(** Steps of one run alone. *)
Inductive alone (runs : nat -> run) (needed : Z) (i : nat) (w : world) : world -> Prop :=
| rests : alone runs needed i w w
| goes_on v u : alone runs needed i w v -> step runs needed i v u -> alone runs needed i w u.
