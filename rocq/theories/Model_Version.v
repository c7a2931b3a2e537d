(** Model of version comparison: gyp/pylib/packaging/_structures.py and
    gyp/pylib/packaging/version.py:68-113 (_BaseVersion), 509-563 (_cmpkey).
    Build files reach it as [v(...)] in conditions (gyp/pylib/gyp/input.py:1182).
    Numbers are unbounded naturals, strings are byte strings. *)
From Coq Require Export NArith.
From Verif Require Import Lib Str.

(** version.py:37-43 [_Version]; a local segment is a number or a string. *)
Record version := mk_version {
  v_epoch : N;
  v_release : list N;
  v_pre : option (string * N);
  v_post : option (string * N);
  v_dev : option (string * N);
  v_local : option (list (N + string))
}.

(** The Python values that occur in keys. *)
Inductive key := KInt (n : N) | KStr (s : string) | KInf | KNegInf | KTuple (l : list key).

(** [==]: ints, strings and tuples by value; an infinity equals only itself
    (_structures.py:19-20, 48-49). *)
Fixpoint key_eq (a b : key) {struct a} : bool :=
  match a, b with
  | KInt m, KInt n => N.eqb m n
  | KStr s, KStr t => String.eqb s t
  | KInf, KInf => true
  | KNegInf, KNegInf => true
  | KTuple l, KTuple l' =>
    (fix go (l l' : list key) : bool :=
       match l, l' with
       | [], [] => true
       | x :: l, y :: l' => key_eq x y && go l l'
       | _, _ => false
       end) l l'
  | _, _ => false
  end.

Inductive op := Lt | Le | Gt | Ge.
Definition of_comparison (o : op) (c : comparison) : bool :=
  match o, c with
  | Lt, Datatypes.Lt => true
  | Le, Datatypes.Lt | Le, Datatypes.Eq => true
  | Gt, Datatypes.Gt => true
  | Ge, Datatypes.Gt | Ge, Datatypes.Eq => true
  | _, _ => false
  end.
(** Python tries the left operand's method, then the reflected method of the
    right operand (ints, strings and tuples do not know the infinities). *)
Definition flip (o : op) : op := match o with Lt => Gt | Le => Ge | Gt => Lt | Ge => Le end.
(** _structures.py:13-26: Infinity's methods, whatever the other operand. *)
Definition inf_method (o : op) : bool := match o with Lt | Le => false | Gt | Ge => true end.
(** _structures.py:42-55. *)
Definition neg_inf_method (o : op) : bool := match o with Lt | Le => true | Gt | Ge => false end.

(** [a < b] and so on; [None] is a TypeError.  Tuples: the first pair of items
    that are not equal decides, else the lengths. *)
Fixpoint key_cmp (o : op) (a b : key) {struct a} : option bool :=
  match a with
  | KInf => Some (inf_method o)
  | KNegInf => Some (neg_inf_method o)
  | _ =>
    match b with
    | KInf => Some (inf_method (flip o))
    | KNegInf => Some (neg_inf_method (flip o))
    | _ =>
      match a, b with
      | KInt m, KInt n => Some (of_comparison o (N.compare m n))
      | KStr s, KStr t => Some (of_comparison o (String.compare s t))
      | KTuple l, KTuple l' =>
        (fix go (l l' : list key) : option bool :=
           match l, l' with
           | x :: l, y :: l' => if key_eq x y then go l l' else key_cmp o x y
           | [], [] => Some (of_comparison o Datatypes.Eq)
           | [], _ :: _ => Some (of_comparison o Datatypes.Lt)
           | _ :: _, [] => Some (of_comparison o Datatypes.Gt)
           end) l l'
      | _, _ => None
      end
    end
  end.

(** version.py:523-525: reversed(dropwhile(x == 0, reversed(release))). *)
Fixpoint drop_zeros (l : list N) : list N :=
  match l with
  | [] => []
  | x :: l' => if N.eqb x 0 then drop_zeros l' else l
  end.
Definition strip_zeros (l : list N) : list N := rev (drop_zeros (rev l)).

Definition tag_key (t : string * N) : key := KTuple [KStr (fst t); KInt (snd t)].
(** version.py:559-561. *)
Definition local_key (i : N + string) : key :=
  match i with inl n => KTuple [KInt n; KStr ""] | inr s => KTuple [KNegInf; KStr s] end.

(** version.py:509-563: _cmpkey. *)
Definition cmpkey (v : version) : key :=
  let pre := match v_pre v, v_post v, v_dev v with
             | None, None, Some _ => KNegInf
             | None, _, _ => KInf
             | Some t, _, _ => tag_key t
             end in
  let post := match v_post v with None => KNegInf | Some t => tag_key t end in
  let dev := match v_dev v with None => KInf | Some t => tag_key t end in
  let local := match v_local v with None => KNegInf | Some l => KTuple (map local_key l) end in
  KTuple [KInt (v_epoch v); KTuple (map KInt (strip_zeros (v_release v))); pre; post; dev; local].

(** version.py:74-113: the six comparisons of two versions. *)
Definition version_cmp (o : op) (v w : version) : option bool := key_cmp o (cmpkey v) (cmpkey w).
Definition version_eq (v w : version) : bool := key_eq (cmpkey v) (cmpkey w).
Definition version_ne (v w : version) : bool := negb (version_eq v w).
