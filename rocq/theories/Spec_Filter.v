(** Specification vocabulary for list filters (C16, C17). *)
From Verif Require Import Model_Value Spec_Merge.
Local Open Scope string_scope.

(** [excluded]: the last filter that matches the item is an exclude, or the
    item is named for exclusion and no include matches it.  Only strings match
    patterns. *)
Definition matches (search : string -> string -> bool) (p : string) (item : value) : Prop :=
  exists s, item = VStr s /\ search p s = true.
Definition excluded (search : string -> string -> bool) (named : Prop) (filters : list (string * string)) (item : value) : Prop :=
  (exists before p after, filters = (before ++ ("exclude", p) :: after)%list /\ matches search p item /\
     forall a q, In (a, q) after -> matches search q item -> a = "exclude") \/
  (named /\ forall a q, In (a, q) filters -> matches search q item -> a = "exclude").

(** [v] is the filter list [[a1, p1], [a2, p2], ...] (a two-key dict stands for
    the pair of its keys). *)
Definition filter_pair (v : value) (ap : string * string) : Prop :=
  v = VList [VStr (fst ap); VStr (snd ap)] \/ exists x y, v = VDict [(fst ap, x); (snd ap, y)].
Definition filter_pairs (o : option value) (filters : list (string * string)) : Prop :=
  (o = None /\ filters = []) \/ (exists l, o = Some (VList l) /\ Forall2 filter_pair l filters).

(** Splitting a list into the elements with and without a property. *)
Inductive splits {A : Type} (p : A -> Prop) : list A -> list A -> list A -> Prop :=
| splits_nil : splits p [] [] []
| splits_in x l yes no : p x -> splits p l yes no -> splits p (x :: l) (x :: yes) no
| splits_out x l yes no : ~ p x -> splits p l yes no -> splits p (x :: l) yes (x :: no).

Definition is_filter_key (k : string) : Prop := ends_with k "!" \/ ends_with k "/".

(** No key occurs at any depth that is a filter key. *)
Inductive filter_free : value -> Prop :=
| ff_str s : filter_free (VStr s)
| ff_int z : filter_free (VInt z)
| ff_other c : filter_free (VOther c)
| ff_list l : Forall filter_free l -> filter_free (VList l)
| ff_dict d : Forall (fun e => ~ is_filter_key (fst e) /\ filter_free (snd e)) d -> filter_free (VDict d).

(** No filter applies to a filter list. *)
Definition plain_filters (d : dict) : Prop :=
  forall b s, In s ["!"; "/"] -> In (b ++ s) (map fst d) -> ~ is_filter_key b.
