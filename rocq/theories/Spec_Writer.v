(** What is expected of the Makefile: in which order things are made. *)
From Verif Require Import Lib Str Model_Writer.
Local Open Scope string_scope.

(** make may do things in any order, several at a time, as long as a file is begun
    after all its prerequisites are done, the order-only ones among them. *)
Definition prerequisite (rs : list written) (x y : string) : Prop := exists r, In r rs /\ In x (heads r) /\ In y (needs r ++ orders r).
Definition made (rs : list written) (x : string) : Prop := exists r, In r rs /\ In x (heads r).
Definition schedule (rs : list written) (order : list string) : Prop :=
  forall done x later, order = (done ++ x :: later)%list -> forall y, prerequisite rs x y -> made rs y -> In y done.
Definition first (order : list string) (y x : string) : Prop := forall done later, order = (done ++ x :: later)%list -> In y done.
(** What "make x" makes. *)
Inductive asked (rs : list written) (x : string) : string -> Prop :=
| asked_itself : asked rs x x
| asked_for y z : asked rs x y -> prerequisite rs y z -> asked rs x z.

(** The files that are made by the commands of a target other than linking: what
    an action, or a rule for one of its sources, makes if that is a single file; a
    copy; an object. *)
Inductive step (t : target) : string -> Prop :=
| step_action a o : In a (actions t) -> action_outputs a = [o] -> step t (output t o)
| step_rule r s o : In r (rules t) -> In s (rule_sources r) -> rule_outputs_for r s = [o] -> step t (output t o)
| step_copy c f : In c (copies t) -> In f (copy_files c) -> step t (copy_output t c f)
| step_object s : In s (sources t ++ extra_sources t) -> compilable s = true -> step t (object_of t s).
(** The files it generates. *)
Inductive makes (t : target) : string -> Prop :=
| makes_action a o : In a (actions t) -> In o (action_outputs a) -> makes t (output t o)
| makes_rule r s o : In r (rules t) -> In s (rule_sources r) -> In o (rule_outputs_for r s) -> makes t (output t o)
| makes_copy c f : In c (copies t) -> In f (copy_files c) -> makes t (copy_output t c f).
Definition compiles (t : target) (x : string) : Prop := exists s, In s (sources t ++ extra_sources t) /\ compilable s = true /\ x = object_of t s.
Definition links (t : target) : Prop := type t <> None_.
Definition depends (ts : list target) (t d : target) : Prop := In t ts /\ In d ts /\ In (qualified d) (dependencies t).
(** A target in whose making something takes part that can wait for others: a
    stamp, an object that is linked, a generated file. *)
Definition solid (t : target) : Prop := type t = None_ \/ (exists x, compiles t x) \/ (exists x, makes t x).
(** Dependence through others, all of them solid. *)
Inductive through (ts : list target) (t : target) : target -> Prop :=
| through_one d : depends ts t d -> through ts t d
| through_more d e : through ts t d -> solid d -> depends ts d e -> through ts t e.
