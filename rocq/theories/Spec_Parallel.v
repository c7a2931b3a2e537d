(** What loading build files means, whatever the order. *)
From Verif Require Import Lib Model_Parallel.

Section Spec.
Context {A : Type}.
Variable load : string -> option (A * list string).
Variable roots : list string.

(** The file [x] has a target that depends on a target of the file [y]. *)
Definition refers (x y : string) : Prop := exists d new, load x = Some (d, new) /\ In y new.
(** The files to load. *)
Definition wanted (x : string) : Prop := exists r, In r roots /\ clos_refl_trans string refers r x.
(** There are finitely many of them. *)
Definition finite_project : Prop := exists files, forall x, wanted x -> In x files.
(** Some file to load cannot be loaded. *)
Definition broken : Prop := exists x, wanted x /\ load x = None.
(** [data] holds the contents of the files to load, once each, and nothing else. *)
Definition all_loaded (data : list (string * A)) : Prop :=
  NoDup (map fst data) /\ forall x d, In (x, d) data <-> wanted x /\ exists new, load x = Some (d, new).
End Spec.

(** What can happen: executions of the program. *)
Definition reachable {A : Type} (load : string -> option (A * list string)) (workers : nat) (roots : list string) (st : pstate (A := A)) : Prop :=
  clos_refl_trans _ (par_step load workers) (par_init roots) st.
(** The program has ended. *)
Definition ended {A : Type} (st : pstate (A := A)) : Prop := p_main st = Returned \/ p_main st = Exited1 \/ p_main st = Crashed.
