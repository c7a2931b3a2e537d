(** Model of gyp/pylib/gyp/common.py:571-633 [OrderedSet]: a dict plus a
    circular doubly linked list of mutable 3-element lists.  Mutable cells
    live in a heap indexed by [nat]; address 0 is the sentinel [self.end]. *)
From Verif Require Import Lib.

Section OrderedSet.
  Variable A : Type.
  Variable eq_dec : forall x y : A, {x = y} + {x <> y}.

  (** [[key, prev, next]]; the sentinel's key is [None]. *)
  Record cell : Type := mk_cell { c_key : option A; c_prev : nat; c_next : nat }.

  Record oset : Type := mk_oset {
    o_heap : nat -> cell;
    o_fresh : nat;                (* next unused address *)
    o_map : list (A * nat)        (* self.map: key -> cell *)
  }.

  Definition sentinel : nat := 0.

  Definition write (h : nat -> cell) (a : nat) (c : cell) : nat -> cell :=
    fun b => if Nat.eqb b a then c else h b.
  (** [cell[1] = v] *)
  Definition set_prev (h : nat -> cell) (a v : nat) : nat -> cell :=
    write h a (mk_cell (c_key (h a)) v (c_next (h a))).
  (** [cell[2] = v] *)
  Definition set_next (h : nat -> cell) (a v : nat) : nat -> cell :=
    write h a (mk_cell (c_key (h a)) (c_prev (h a)) v).

  Fixpoint lookup (k : A) (m : list (A * nat)) : option nat :=
    match m with
    | [] => None
    | (k', a) :: m' => if eq_dec k k' then Some a else lookup k m'
    end.
  Definition remove_key (k : A) (m : list (A * nat)) : list (A * nat) :=
    filter (fun p => if eq_dec k (fst p) then false else true) m.

  (** common.py:572-577 [__init__] without an iterable. *)
  Definition empty : oset :=
    mk_oset (fun _ => mk_cell None sentinel sentinel) 1 [].

  (** common.py:585-589 [add].  The chained assignment stores left to right:
      first [curr[2]], then [end[1]], then the dict entry. *)
  Definition add (s : oset) (k : A) : oset :=
    match lookup k (o_map s) with
    | Some _ => s
    | None =>
      let curr := c_prev (o_heap s sentinel) in
      let new := o_fresh s in
      let h1 := write (o_heap s) new (mk_cell (Some k) curr sentinel) in
      let h2 := set_next h1 curr new in
      let h3 := set_prev h2 sentinel new in
      mk_oset h3 (S new) ((k, new) :: o_map s)
    end.

  (** common.py:591-595 [discard]. *)
  Definition discard (s : oset) (k : A) : oset :=
    match lookup k (o_map s) with
    | None => s
    | Some a =>
      let prev_item := c_prev (o_heap s a) in
      let next_item := c_next (o_heap s a) in
      let h1 := set_next (o_heap s) prev_item next_item in
      let h2 := set_prev h1 next_item prev_item in
      mk_oset h2 (o_fresh s) (remove_key k (o_map s))
    end.

  (** common.py:579-583 [__len__], [__contains__]. *)
  Definition len (s : oset) : nat := length (o_map s).
  Definition contains (s : oset) (k : A) : bool :=
    match lookup k (o_map s) with Some _ => true | None => false end.

  (** common.py:597-602 [__iter__] and 604-609 [__reversed__], run to the end
      without mutation in between.  [None]: the walk did not come back to the
      sentinel within [fuel] steps. *)
  Fixpoint walk (step : cell -> nat) (h : nat -> cell) (fuel curr : nat) : option (list (option A)) :=
    match fuel with
    | O => None
    | S fuel' => if Nat.eqb curr sentinel then Some []
                 else option_map (cons (c_key (h curr))) (walk step h fuel' (step (h curr)))
    end.
  Definition iter (s : oset) : option (list (option A)) :=
    walk c_next (o_heap s) (S (len s)) (c_next (o_heap s sentinel)).
  Definition reversed (s : oset) : option (list (option A)) :=
    walk c_prev (o_heap s) (S (len s)) (c_prev (o_heap s sentinel)).

  (** common.py:612-617 [pop]; the inner [None] stands for KeyError. *)
  Definition pop (s : oset) (last : bool) : oset * option (option A) :=
    if Nat.eqb (len s) 0 then (s, None)
    else
      let a := if last then c_prev (o_heap s sentinel) else c_next (o_heap s sentinel) in
      let key := c_key (o_heap s a) in
      (match key with Some k => discard s k | None => s end, Some key).

  (** common.py:630-633 [update] (and [|=] of MutableSet, used by [__init__]). *)
  Definition update (s : oset) (ks : list A) : oset :=
    fold_left (fun s k => if contains s k then s else add s k) ks s.

  (** Client-visible operations and what they return. *)
  Inductive op : Type :=
  | Add (k : A) | Discard (k : A) | Pop (last : bool) | Update (ks : list A)
  | Contains (k : A) | Len | Iter | Reversed.

  Inductive out : Type :=
  | ODone
  | OKeyError
  | OKey (k : option A)
  | OBool (b : bool)
  | ONat (n : nat)
  | OList (l : option (list (option A))).

  Definition step (s : oset) (o : op) : oset * out :=
    match o with
    | Add k => (add s k, ODone)
    | Discard k => (discard s k, ODone)
    | Pop b => let (s', r) := pop s b in (s', match r with None => OKeyError | Some k => OKey k end)
    | Update ks => (update s ks, ODone)
    | Contains k => (s, OBool (contains s k))
    | Len => (s, ONat (len s))
    | Iter => (s, OList (iter s))
    | Reversed => (s, OList (reversed s))
    end.

  Fixpoint run (s : oset) (ops : list op) : list out :=
    match ops with
    | [] => []
    | o :: ops' => let (s', r) := step s o in r :: run s' ops'
    end.
End OrderedSet.

Arguments mk_cell {A}. Arguments c_key {A}. Arguments c_prev {A}. Arguments c_next {A}.
Arguments mk_oset {A}. Arguments o_heap {A}. Arguments o_fresh {A}. Arguments o_map {A}.
Arguments Add {A}. Arguments Discard {A}. Arguments Pop {A}. Arguments Update {A}.
Arguments Contains {A}. Arguments Len {A}. Arguments Iter {A}. Arguments Reversed {A}.
Arguments ODone {A}. Arguments OKeyError {A}. Arguments OKey {A}. Arguments OBool {A}.
Arguments ONat {A}. Arguments OList {A}.
