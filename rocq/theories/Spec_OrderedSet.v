(** Specification of the ordered set: a list of distinct elements, oldest
    insertion first. *)
From Verif Require Import Lib Model_OrderedSet.

Section Spec.
  Variable A : Type.
  Variable eq_dec : forall x y : A, {x = y} + {x <> y}.

  Definition s_has (l : list A) (k : A) : bool := if in_dec eq_dec k l then true else false.
  Definition s_add (l : list A) (k : A) : list A := if s_has l k then l else l ++ [k].
  Definition s_discard (l : list A) (k : A) : list A :=
    filter (fun x => if eq_dec k x then false else true) l.

  Definition s_step (l : list A) (o : op A) : list A * out A :=
    match o with
    | Add k => (s_add l k, ODone)
    | Discard k => (s_discard l k, ODone)
    | Pop last =>
      match l with
      | [] => ([], OKeyError)
      | x :: l' => if last then (removelast l, OKey (Some (List.last l x)))
                   else (l', OKey (Some x))
      end
    | Update ks => (fold_left s_add ks l, ODone)
    | Contains k => (l, OBool (s_has l k))
    | Len => (l, ONat (length l))
    | Iter => (l, OList (Some (map Some l)))
    | Reversed => (l, OList (Some (map Some (rev l))))
    end.

  Fixpoint s_run (l : list A) (ops : list (op A)) : list (out A) :=
    match ops with
    | [] => []
    | o :: ops' => let (l', r) := s_step l o in r :: s_run l' ops'
    end.
End Spec.
