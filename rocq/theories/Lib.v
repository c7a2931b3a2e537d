(** Shared vocabulary: membership, association lists, sorting of strings.
    Nothing here models node-gyp by itself; these are the Python primitives
    ([x in list], [dict.get], [sorted]) the models are written with. *)
From Coq Require Export NArith String Ascii List Bool Arith Lia Permutation Relations.
Export ListNotations.

(** Python [x in l] on a list (or set) of strings. *)
Definition mem (x : string) (l : list string) : bool := existsb (String.eqb x) l.

(** Python [d.get(k)] on a dict kept as an association list. *)
Fixpoint assoc {B : Type} (k : string) (l : list (string * B)) : option B :=
  match l with
  | [] => None
  | (k', v) :: l' => if String.eqb k k' then Some v else assoc k l'
  end.

(** [OrderedSet.add] seen through its list view (gyp/common.py:588-592; the
    linked-list implementation is refined to this view in Proof_OrderedSet). *)
Definition oset_add (x : string) (l : list string) : list string :=
  if mem x l then l else l ++ [x].

(** Python [sorted] on strings (stable; strings compared code point by code
    point, which is byte order on UTF-8). *)
Fixpoint insert (x : string) (l : list string) : list string :=
  match l with
  | [] => [x]
  | y :: l' => if String.leb x y then x :: l else y :: insert x l'
  end.

Fixpoint sort (l : list string) : list string :=
  match l with
  | [] => []
  | x :: l' => insert x (sort l')
  end.

(** ** Specification vocabulary *)

(** [x] occurs (somewhere) before [y] in [l]. *)
Definition before {A : Type} (x y : A) (l : list A) : Prop :=
  exists l1 l2 l3, l = l1 ++ x :: l2 ++ y :: l3.

(** [l] is obtained from [l'] by deleting elements. *)
Inductive sublist {A : Type} : list A -> list A -> Prop :=
| sub_nil : sublist [] []
| sub_keep x l l' : sublist l l' -> sublist (x :: l) (x :: l')
| sub_drop x l l' : sublist l l' -> sublist l (x :: l').
