(** What is expected of a build: after any history the result is that of a build
    from scratch. *)
From Verif Require Import Lib Str Model_Make.
Local Open Scope string_scope.

(** A build from scratch: every command once, in order; the outputs of an earlier
    build are not there. *)
Definition outs (rules : list rule) : list string := map out rules.
Definition bare (rules : list rule) (fs : string -> option string) : string -> option string := fun x => if mem x (outs rules) then None else fs x.
Fixpoint run_all (exec : tool) (rules : list rule) (fs : string -> option string) : option (string -> option string) :=
  match rules with
  | [] => Some fs
  | r :: rs => match exec (command r) fs with Some (c, _) => run_all exec rs (fun x => if String.eqb x (out r) then Some c else fs x) | None => None end
  end.
Definition from_scratch (exec : tool) (rules : list rule) (fs : string -> option string) := run_all exec rules (bare rules fs).

(** A command depends on nothing but the files it says it has read. *)
Definition honest (exec : tool) : Prop :=
  forall c f g r, exec c f = Some r -> (forall x, In x (snd r) -> g x = f x) -> exec c g = Some r.
(** What has to be built before. *)
Inductive before (rules : list rule) : rule -> string -> Prop :=
| before_direct r x : In x (inputs r ++ after r) -> before rules r x
| before_through r s x : In s rules -> In (out s) (inputs r ++ after r) -> before rules s x -> before rules r x.
(** Written so that make takes it as it is meant: not empty, no number sign, no
    line end, no blank at the start, no backslash at the end. *)
Definition plain (c : string) : Prop :=
  c <> "" /\ has_char "#" c = false /\ has_char "010" c = false /\ (forall a t, c = String a t -> is_space a = false) /\ (forall a, c <> a ++ "\").
(** The rules of one Makefile, in the order in which they are gone through:
    prerequisites first, each target once.  A generated file that is read must be
    among what has to be built before, even if only so that it is read in the
    right state; and what is read without being tracked must be a prerequisite. *)
Record proper (exec : tool) (tracked : string -> bool) (rules : list rule) : Prop := {
  once : NoDup (outs rules);
  in_order : forall a r b x, rules = (a ++ r :: b)%list -> In x (inputs r ++ after r) -> ~ In x (outs (r :: b));
  declared : forall r f c reads x, In r rules -> exec (command r) f = Some (c, reads) -> In x reads -> In x (outs rules) -> before rules r x;
  prerequisites : forall r f c reads x, In r rules -> tracked (command r) = false -> exec (command r) f = Some (c, reads) -> In x reads -> In x (inputs r) }.
Definition fed (rules : list rule) : Prop := forall r, In r rules -> inputs r <> [].
Definition plainly (rules : list rule) : Prop := forall r, In r rules -> plain (command r).
Definition good (exec : tool) (tracked : string -> bool) (rules : list rule) : Prop := proper exec tracked rules /\ fed rules /\ plainly rules.
(** A command succeeds only if it finds what it reads and its prerequisites. *)
Definition finds (exec : tool) (rules : list rule) : Prop :=
  forall r f c reads x, In r rules -> exec (command r) f = Some (c, reads) -> In x (inputs r ++ reads) -> f x <> None.

(** Histories: files that are no targets are changed; any file, and any depfile,
    may be removed; Makefiles, changing from time to time, are run to the end or up
    to some rule or until a command fails. *)
Inductive history (exec : tool) (tracked : string -> bool) : state -> Prop :=
| untouched st : (forall f, saved st f = None) -> (forall f e, files st f = Some e -> time e <= clock st) -> history exec tracked st
| edited st f c : history exec tracked st -> saved st f = None -> history exec tracked (write st f c)
| removed st f : history exec tracked st -> history exec tracked (remove st f)
| forgotten st f : history exec tracked st -> history exec tracked (record st f None)
| built st rules rest : history exec tracked st -> good exec tracked (rules ++ rest) -> history exec tracked (fst (make exec tracked rules st))
| killed st r rules st' : history exec tracked st -> good exec tracked rules -> In r rules -> killed_before_depfile exec st r = Some st' ->
    tracked (command r) = false -> saved_command st (out r) = command r -> history exec tracked st'.
