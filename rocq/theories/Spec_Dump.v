(** What is said about the graph of dependencies. *)
From Verif Require Import Lib.

Section Spec.
Variable dicts : list (string * option (list string)).
(** [t] has the dependencies [l]; a target that lists none has none. *)
Definition depends_on (t : string) (l : list string) : Prop :=
  assoc t dicts = Some (Some l) \/ assoc t dicts = Some None /\ l = [].
(** The targets that are asked for, and all that they need *)
Inductive needed (targets : list string) : string -> Prop :=
| needed_target t : In t targets -> needed targets t
| needed_by t l d : needed targets t -> depends_on t l -> In d l -> needed targets d.
End Spec.
