(** Model of gyp/pylib/gyp/input.py:670-689 (FindEnclosingBracketGroup), 692-714
    (IsStrCanonicalInt) and 2838-2866 (TurnIntIntoStrInDict/InList).
    Simplifications: strings are ASCII for isdigit(); dict keys are strings (an
    int key would be replaced while the dict is iterated over, which depends on
    the internals of Python's dict). *)
From Coq Require Import DecimalString.
From Verif Require Import Model_Value.
Local Open Scope string_scope.

(** input.py:670-671. *)
Definition is_open (a : ascii) : bool := existsb (Ascii.eqb a) ["{"; "["; "("]%char.
Definition opener (a : ascii) : option ascii :=
  if Ascii.eqb a "}" then Some "{"%char else if Ascii.eqb a "]" then Some "["%char
  else if Ascii.eqb a ")" then Some "("%char else None.

(** The loop at 677-688; [start] is -1 until the first opening bracket. *)
Fixpoint scan (stack : list ascii) (start : Z) (index : Z) (s : string) : Z * Z :=
  match s with
  | EmptyString => (-1, -1)%Z
  | String a s' =>
    if is_open a then scan (a :: stack) (if Z.eqb start (-1) then index else start) (index + 1)%Z s'
    else match opener a with
         | Some o =>
           match stack with
           | [] => (-1, -1)%Z
           | top :: stack' =>
             if negb (Ascii.eqb top o) then (-1, -1)%Z
             else match stack' with
                  | [] => (start, index + 1)%Z
                  | _ => scan stack' start (index + 1)%Z s'
                  end
           end
         | None => scan stack start (index + 1)%Z s'
         end
  end.
(** input.py:674-689. *)
Definition find_enclosing_bracket_group (s : string) : Z * Z := scan [] (-1)%Z 0%Z s.

(** str.isdigit() on ASCII: non-empty and all digits. *)
Definition is_digit (a : ascii) : bool := let n := N_of_ascii a in N.leb 48 n && N.leb n 57.
Fixpoint all_digits (s : string) : bool :=
  match s with EmptyString => true | String a s' => is_digit a && all_digits s' end.
Definition isdigit (s : string) : bool := negb (String.eqb s "") && all_digits s.

(** input.py:692-714. *)
Definition is_str_canonical_int (s : string) : bool :=
  match s with
  | EmptyString => false
  | String a s' =>
    if String.eqb s "0" then true
    else
      let t := if Ascii.eqb a "-" then s' else s in
      match t with
      | EmptyString => false
      | String b _ => if N.leb 49 (N_of_ascii b) && N.leb (N_of_ascii b) 57 then isdigit t else false
      end
  end.

(** Python's str(int). *)
Definition int_str (z : Z) : string := NilZero.string_of_int (Z.to_int z).

(** input.py:2838-2866; bools are ints in Python. *)
Fixpoint turn_int (v : value) : value :=
  match v with
  | VStr s => VStr s
  | VInt z => VStr (int_str z)
  | VList l => VList (map turn_int l)
  | VDict d => VDict (map (fun e => (fst e, turn_int (snd e))) d)
  | VOther c => if String.eqb c "true" then VStr "True" else if String.eqb c "false" then VStr "False" else VOther c
  end.
