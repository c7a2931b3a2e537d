(** The values of a loaded build file: Python literals.  Dicts keep insertion
    order; their keys are strings (integer keys only matter for C42, see
    Model_TurnInt).  [VOther] stands for a value of any other type a literal
    can have (bool, NoneType, float, bytes, ...), with its class name. *)
From Coq Require Export ZArith.
From Verif Require Export Lib.

Inductive value : Type :=
| VStr (s : string)
| VInt (z : Z)
| VList (l : list value)
| VDict (d : list (string * value))
| VOther (class : string).

Definition dict := list (string * value).

(** Results: a value or a Python exception. *)
Inductive exn : Type :=
| TypeError (about : string)
| ValueError (about : string)
| KeyError (about : string)
| IndexError
| AttributeError
| AssertionError (about : string)
| GypError (about : string)
| IncompatiblePolicies (k k' : string)    (* GypError, input.py:2353 *)
| NoFuel.                                 (* the model's recursion bound, never a Python error *)
Inductive result (A : Type) : Type :=
| Val (a : A)
| Exn (e : exn).
Arguments Val {A}. Arguments Exn {A}.
Definition rbind {A B} (r : result A) (f : A -> result B) : result B :=
  match r with Val a => f a | Exn e => Exn e end.
Fixpoint rfold {A B} (f : A -> B -> result A) (l : list B) (acc : A) : result A :=
  match l with
  | [] => Val acc
  | x :: l' => rbind (f acc x) (fun acc' => rfold f l' acc')
  end.
Fixpoint rmap {A B} (f : A -> result B) (l : list A) : result (list B) :=
  match l with
  | [] => Val []
  | x :: l' => rbind (f x) (fun y => rbind (rmap f l') (fun ys => Val (y :: ys)))
  end.

(** [d[k] = v]: an existing key keeps its place, a new one goes last. *)
Fixpoint set_key {B : Type} (k : string) (v : B) (d : list (string * B)) : list (string * B) :=
  match d with
  | [] => [(k, v)]
  | (k', v') :: d' => if String.eqb k k' then (k, v) :: d' else (k', v') :: set_key k v d'
  end.
(** [del d[k]]. *)
Definition del_key {B : Type} (k : string) (d : list (string * B)) : list (string * B) :=
  filter (fun e => negb (String.eqb k (fst e))) d.
Definition has_key {B : Type} (k : string) (d : list (string * B)) : bool := mem k (map fst d).

(** Python truthiness. *)
Definition truthy (v : value) : bool :=
  match v with
  | VStr s => negb (String.eqb s "")
  | VInt z => negb (Z.eqb z 0)
  | VList l => match l with [] => false | _ => true end
  | VDict d => match d with [] => false | _ => true end
  | VOther c => String.eqb c "true"       (* True; None and False are falsy *)
  end.

(** [v1 == v2] where one of them is a str or an int. *)
Definition scalar_eqb (a b : value) : bool :=
  match a, b with
  | VStr s, VStr t => String.eqb s t
  | VInt x, VInt y => Z.eqb x y
  | _, _ => false
  end.

(** The last character of a string, and the string without it ([k[-1]],
    [k[:-1]]). *)
Fixpoint last_char (s : string) : option ascii :=
  match s with
  | EmptyString => None
  | String a EmptyString => Some a
  | String _ s' => last_char s'
  end.
Fixpoint drop_last (s : string) : string :=
  match s with
  | EmptyString => EmptyString
  | String a EmptyString => EmptyString
  | String a s' => String a (drop_last s')
  end.
