(** Property theorems: included files (C21) and checked literals (C43). *)
From Verif Require Import Model_Value Model_Load Spec_Load Proof_Load.
Local Open Scope string_scope.

(** C21: the list starts with the file itself, has no duplicates and consists
    of exactly the files reachable through includes. *)
Theorem C21_closure : forall aux fuel f l, included_build_files fuel aux f [] = Val l ->
  NoDup l /\ (exists r, l = f :: r) /\ forall x, In x l <-> includes_star aux f x.
Proof. exact included_closure. Qed.
Print Assumptions C21_closure.

(** C21: circular includes or not, it returns once every reachable file is
    known, with recursion no deeper than the number of files. *)
Theorem C21_total : forall aux fuel f, length aux < fuel ->
  (forall x, includes_star aux f x -> In x (map fst aux)) -> exists l, included_build_files fuel aux f [] = Val l.
Proof. exact included_total. Qed.
Print Assumptions C21_total.

Example C21_witness : included_build_files 4 [("a", ["b"; "c"]); ("b", ["a"; "c"]); ("c", ["b"])] "a" [] = Val ["a"; "b"; "c"].
Proof. reflexivity. Qed.

(** C43: a literal loads, to the value it denotes, exactly if it denotes one;
    otherwise loading fails, because of a repeated key, a key that is no string
    literal, or an expression that is no dict, list or string. *)
Theorem C43_value : forall n v, check_node n = Val v <-> denotes n v.
Proof. exact check_denotes. Qed.
Print Assumptions C43_value.

Theorem C43_rejects : forall n, (exists e, check_node n = Exn e) <-> (forall v, ~ denotes n v).
Proof. exact check_rejects. Qed.
Print Assumptions C43_rejects.

Theorem C43_reason : forall n e, check_node n = Exn e ->
  (exists d k, e = GypError k /\ occurs (NDict d) n /\ repeats d k) \/
  (exists d k v, e = AssertionError "key" /\ occurs (NDict d) n /\ In (k, v) d /\ forall s, k <> Some (NStr s)) \/
  (exists c, e = TypeError c /\ occurs (NOther c) n).
Proof. exact check_reason. Qed.
Print Assumptions C43_reason.

Example C43_witness :
  check_node (NDict [(Some (NStr "a"), NList [NStr "x"; NDict [(Some (NStr "a"), NStr "y")]])]) = Val (VDict [("a", VList [VStr "x"; VDict [("a", VStr "y")]])]) /\
  check_node (NList [NDict [(Some (NStr "a"), NStr "x"); (Some (NStr "b"), NStr "x"); (Some (NStr "a"), NStr "y")]]) = Exn (GypError "a").
Proof. split; reflexivity. Qed.
