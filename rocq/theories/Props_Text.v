(** Property theorems: canonical integers (C24), brackets (C25) and
    stringification (C42). *)
From Verif Require Import Model_Value Model_Text Spec_Text Proof_Text.
Local Open Scope string_scope.

(** C24: recognised exactly when of the documented shape: 0, or an optional
    minus, a non-zero digit and more digits. *)
Theorem C24_shape : forall s, is_str_canonical_int s = true <-> canonical_shape s.
Proof. exact canonical_iff_shape. Qed.
Print Assumptions C24_shape.

(** C24: recognised exactly when converting and rendering gives it back. *)
Theorem C24_round_trip : forall s, is_str_canonical_int s = true <-> exists z, reads_as s z /\ rendering z = s.
Proof. exact canonical_round_trip. Qed.
Print Assumptions C24_round_trip.

Example C24_witness : map is_str_canonical_int ["0"; "-17"; "905"; "-0"; "007"; "+3"; "-"; ""; " 1"; "1a"] =
  [true; true; true; false; false; false; false; false; false; false].
Proof. reflexivity. Qed.

(** C25: the bracket search finds exactly the group the first bracket opens,
    and fails exactly when there is none. *)
Theorem C25_group : forall s i j,
  (find_enclosing_bracket_group s = (i, j) /\ (i, j) <> (-1, -1)%Z) <-> first_group s i j.
Proof. exact bracket_group. Qed.
Print Assumptions C25_group.

Theorem C25_failure : forall s, find_enclosing_bracket_group s = (-1, -1)%Z <-> (forall i j, ~ first_group s i j).
Proof. exact bracket_none. Qed.
Print Assumptions C25_failure.

Example C25_witness : find_enclosing_bracket_group "<(foo <([bar])) blah" = (1, 15)%Z /\ find_enclosing_bracket_group "a(b]" = (-1, -1)%Z.
Proof. split; reflexivity. Qed.

(** C42: integers are rendered canonically, everything else is as it was, and
    no integer is left. *)
Theorem C42_stringified : forall v, stringified v (turn_int v).
Proof. exact turn_int_stringified. Qed.
Print Assumptions C42_stringified.

Theorem C42_no_integers : forall v, int_free (turn_int v).
Proof. exact turn_int_free. Qed.
Print Assumptions C42_no_integers.

Theorem C42_nothing_to_do : forall v, int_free v -> turn_int v = v.
Proof. exact turn_int_id. Qed.
Print Assumptions C42_nothing_to_do.

Example C42_witness : turn_int (VDict [("a", VList [VInt (-12); VStr "x"; VDict [("b", VInt 0)]])]) =
  VDict [("a", VList [VStr "-12"; VStr "x"; VDict [("b", VStr "0")]])].
Proof. reflexivity. Qed.
