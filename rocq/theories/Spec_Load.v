(** Specification vocabulary for included files (C21) and literals (C43). *)
From Verif Require Import Model_Value Model_Load.
Local Open Scope string_scope.

(** [f] lists [g] as included, and the reflexive-transitive closure. *)
Definition includes (aux : list (string * list string)) (f g : string) : Prop :=
  exists fs, assoc f aux = Some fs /\ In g fs.
Definition includes_star (aux : list (string * list string)) : string -> string -> Prop :=
  clos_refl_trans string (includes aux).

(** The value a literal stands for: strings, lists, and dicts whose keys are
    string literals, none repeated. *)
Inductive denotes : node -> value -> Prop :=
| den_str s : denotes (NStr s) (VStr s)
| den_list l l' : Forall2 denotes l l' -> denotes (NList l) (VList l')
| den_dict d d' : Forall2 (fun e e' => fst e = Some (NStr (fst e')) /\ denotes (snd e) (snd e')) d d' ->
    NoDup (map fst d') -> denotes (NDict d) (VDict d').

(** [m] occurs in [n], as a value at any depth. *)
Inductive occurs (m : node) : node -> Prop :=
| oc_here : occurs m m
| oc_list l x : In x l -> occurs m x -> occurs m (NList l)
| oc_dict d k x : In (k, x) d -> occurs m x -> occurs m (NDict d).

(** [d] repeats the key [k]. *)
Definition repeats (d : list (option node * node)) (k : string) : Prop :=
  exists d1 v1 d2 v2 d3, d = (d1 ++ (Some (NStr k), v1) :: d2 ++ (Some (NStr k), v2) :: d3)%list.
