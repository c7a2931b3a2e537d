(** C112: the graph of dependencies in dump.json. *)
From Verif Require Import Lib Model_Dump Spec_Dump Proof_Dump.
Local Open Scope string_scope.

(** The graph holds the targets and all that they need, each once and with all its
    dependencies, and nothing else. *)
Theorem C112_graph : forall dicts targets fuel edges, generate_dump fuel dicts targets = Some (Graph edges) ->
  NoDup (map fst edges) /\ forall t l, In (t, l) edges <-> needed dicts targets t /\ depends_on dicts t l.
Proof. exact graph. Qed.
Print Assumptions C112_graph.
(** d is not needed; a and b need each other. *)
Definition some_dicts : list (string * option (list string)) := [("a", Some ["b"; "c"]); ("b", Some ["a"]); ("c", None); ("d", Some ["a"])].
Example C112_graph_witness : generate_dump 9 some_dicts ["b"] = Some (Graph [("b", ["a"]); ("a", ["b"; "c"]); ("c", [])]).
Proof. reflexivity. Qed.

(** It is written exactly if all targets that are needed are there; otherwise the error
    names one that is not. *)
Theorem C112_written : forall dicts targets fuel r, generate_dump fuel dicts targets = Some r ->
  ((exists edges, r = Graph edges) <-> forall t, needed dicts targets t -> assoc t dicts <> None).
Proof. exact complete_dump. Qed.
Print Assumptions C112_written.
Theorem C112_unknown : forall dicts targets fuel t, generate_dump fuel dicts targets = Some (Unknown t) -> needed dicts targets t /\ assoc t dicts = None.
Proof. exact unknown. Qed.
Print Assumptions C112_unknown.
Example C112_unknown_witness : generate_dump 9 [("a", Some ["b"; "x"]); ("b", None)] ["a"] = Some (Unknown "x").
Proof. reflexivity. Qed.

(** The search ends, also if targets need each other. *)
Theorem C112_ends : forall dicts targets, exists n, forall fuel, n <= fuel -> exists r, generate_dump fuel dicts targets = Some r.
Proof. exact ends_dump. Qed.
Print Assumptions C112_ends.
