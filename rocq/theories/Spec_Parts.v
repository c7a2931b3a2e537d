(** What is expected of the rules: that files are made from what is said. *)
From Verif Require Import Lib Str Spec_Path Model_Writer Spec_Remake Spec_Suffix.
Local Open Scope string_scope.

(** x is made from y, perhaps by way of a file in between. *)
Definition made_from (rs : list written) (x y : string) : Prop := feeds rs x y \/ exists z, feeds rs x z /\ feeds rs z y.
(** An output and an input of an action, or of a rule for one of its sources. *)
Inductive uses (t : target) : string -> string -> Prop :=
| uses_action a o i : In a (actions t) -> In o (action_outputs a) -> In i (action_inputs a) -> uses t o i
| uses_source r s o : In r (rules t) -> In s (rule_sources r) -> In o (rule_outputs_for r s) -> uses t o s
| uses_input r s o i : In r (rules t) -> In s (rule_sources r) -> In o (rule_outputs_for r s) -> In i (rule_inputs r) -> uses t o i.
(** Something is run. *)
Definition runs_something (r : written) : Prop := exists l, In l (recipe r) /\ l <> No_op.
(** Where a copy of a file with the name [n] goes: in a directory of the build, or of
    the source tree relative to the build file. *)
Inductive goes (t : target) (n : string) : string -> string -> Prop :=
| goes_slash p : has_char "$" p = false -> goes t n ("$(builddir)" ++ p ++ "/") ("$(builddir)" ++ p ++ "/" ++ n)
| goes_plain p : has_char "$" p = false -> (forall q, p <> q ++ "/") -> goes t n ("$(builddir)" ++ p) ("$(builddir)" ++ p ++ "/" ++ n)
| goes_tree d q : has_char "$" d = false -> (forall r, d <> String "/" r) -> (forall r, q <> String "/" r) ->
    (forall here, locate here q = locate (locate (locate here (path t)) d) n) -> goes t n d ("$(srcdir)/" ++ q).
(** A file with the name [n], in the tree or generated. *)
Definition file_named (n f : string) : Prop :=
  plain_name n /\ exists d, (d = "" \/ exists e, d = e ++ "/") /\ f = d ++ n /\ ((has_char "$" d = false /\ forall r, d <> String "/" r) \/ exists r, d = "$(" ++ r).
Definition plain_destination (d : string) : Prop := (has_char "$" d = false /\ forall r, d <> String "/" r) \/ exists p, d = "$(builddir)" ++ p /\ has_char "$" p = false.
