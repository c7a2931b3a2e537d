(** Specification vocabulary for brackets (C25), canonical integers (C24) and
    stringification (C42). *)
From Coq Require Import Decimal DecimalString.
From Verif Require Import Model_Value.
Local Open Scope string_scope.

Definition pair_of_brackets (o c : ascii) : Prop := In (o, c) [("{", "}"); ("[", "]"); ("(", ")")]%char.
Definition bracket (a : ascii) : Prop := In a ["{"; "["; "("; "}"; "]"; ")"]%char.

(** Text with every bracket closed by its own kind. *)
Inductive balanced : string -> Prop :=
| bal_nil : balanced ""
| bal_other a s : ~ bracket a -> balanced s -> balanced (String a s)
| bal_group o inner c s : pair_of_brackets o c -> balanced inner -> balanced s ->
    balanced (String o (inner ++ String c s)).
Inductive no_brackets : string -> Prop :=
| nb_nil : no_brackets ""
| nb_cons a s : ~ bracket a -> no_brackets s -> no_brackets (String a s).

(** The first bracket of [s] opens a group that spans positions [i] to [j]. *)
Definition first_group (s : string) (i j : Z) : Prop :=
  exists before_ o inner c after, s = before_ ++ String o (inner ++ String c after) /\
    no_brackets before_ /\ pair_of_brackets o c /\ balanced inner /\
    i = Z.of_nat (String.length before_) /\ j = (i + Z.of_nat (String.length inner) + 2)%Z.

(** The standard library's reading of a decimal numeral, and its canonical
    rendering. *)
Definition reads_as (s : string) (z : Z) : Prop := option_map Z.of_int (NilZero.int_of_string s) = Some z.
Definition rendering (z : Z) : string := NilZero.string_of_int (Z.to_int z).

(** The documented shape of a canonical integer. *)
Definition digit (a : ascii) : Prop := In a ["0"; "1"; "2"; "3"; "4"; "5"; "6"; "7"; "8"; "9"]%char.
Inductive digits : string -> Prop :=
| digits_nil : digits ""
| digits_cons a s : digit a -> digits s -> digits (String a s).
Definition canonical_shape (s : string) : Prop :=
  s = "0" \/ exists sign a rest, s = sign ++ String a rest /\ In sign [""; "-"] /\ digit a /\ a <> "0"%char /\ digits rest.

(** [v'] is [v] with every integer rendered; strings, keys and nesting as
    they were. *)
Inductive stringified : value -> value -> Prop :=
| sf_str s : stringified (VStr s) (VStr s)
| sf_int z s : reads_as s z -> canonical_shape s -> stringified (VInt z) (VStr s)
| sf_list l l' : Forall2 stringified l l' -> stringified (VList l) (VList l')
| sf_dict d d' : Forall2 (fun e e' => fst e = fst e' /\ stringified (snd e) (snd e')) d d' -> stringified (VDict d) (VDict d')
| sf_true : stringified (VOther "true") (VStr "True")
| sf_false : stringified (VOther "false") (VStr "False")
| sf_other c : c <> "true" -> c <> "false" -> stringified (VOther c) (VOther c).

(** No integer anywhere. *)
Inductive int_free : value -> Prop :=
| if_str s : int_free (VStr s)
| if_list l : Forall int_free l -> int_free (VList l)
| if_dict d : Forall (fun e => int_free (snd e)) d -> int_free (VDict d)
| if_other c : c <> "true" -> c <> "false" -> int_free (VOther c).
