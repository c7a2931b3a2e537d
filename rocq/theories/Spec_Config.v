(** Specification vocabulary for configurations (C19). *)
From Verif Require Import Model_Value Model_Merge.
Local Open Scope string_scope.

(** [p] is listed in the inherit_from of the configuration [n]. *)
Definition inherits (configs : dict) (n p : string) : Prop :=
  exists cd l, assoc n configs = Some (VDict cd) /\ assoc "inherit_from" cd = Some (VList l) /\ In (VStr p) l.

(** [route configs n r a]: the inheritance leads from [n] up to [a] through the
    configurations [r] (with both ends). *)
Inductive route (configs : dict) : string -> list string -> string -> Prop :=
| route_here n : route configs n [n] n
| route_up n p r a : inherits configs n p -> route configs p r a -> route configs n (n :: r) a.

(** Merging the configurations [ns] into [d], one after the other, gives [d'];
    the mark "abstract" is never inherited. *)
Inductive applied (c : ctx) (configs : dict) : list string -> dict -> dict -> Prop :=
| applied_nil d : applied c configs [] d d
| applied_cons n ns cd d d1 d2 : assoc n configs = Some (VDict cd) -> merge_dicts c d cd = Val d1 ->
    applied c configs ns (del_key "abstract" d1) d2 -> applied c configs (n :: ns) d d2.

(** inherit_from is a list of strings, each at most once. *)
Definition plain_parents (configs : dict) : Prop :=
  forall n cd v, assoc n configs = Some (VDict cd) -> assoc "inherit_from" cd = Some v ->
    exists names, v = VList (map VStr names) /\ NoDup names.
(** inherit_from is a list. *)
Definition parents_listed (configs : dict) : Prop :=
  forall n cd v, assoc n configs = Some (VDict cd) -> assoc "inherit_from" cd = Some v -> exists l, v = VList l.

(** The routes along which a configuration inherits: all those that visit no
    configuration twice, each once, and a longer one before its beginnings
    (so ancestors come first). *)
Definition all_routes (configs : dict) (n : string) (routes : list (list string * string)) : Prop :=
  (forall r a, In (r, a) routes <-> route configs n r a /\ NoDup r) /\
  (plain_parents configs -> NoDup routes) /\
  (forall r1 r2 a b, r2 <> [] -> In ((r1 ++ r2)%list, a) routes -> In (r1, b) routes -> before ((r1 ++ r2)%list, a) (r1, b) routes) /\
  exists ancestors, routes = (ancestors ++ [([n], n)])%list.

(** A key moves into the configurations unless, without one suffix character,
    it is one of the reserved ones. *)
Definition base_key (k b : string) : Prop :=
  (exists s, In s ["="; "+"; "?"; "!"; "/"] /\ k = b ++ s) \/
  (k = b /\ forall s, In s ["="; "+"; "?"; "!"; "/"] -> ~ exists p, k = p ++ s).
Definition stays (reserved : list string) (k : string) : Prop := exists b, base_key k b /\ In b reserved.

(** An abstract configuration. *)
Definition abstract (v : value) : Prop := exists d a, v = VDict d /\ assoc "abstract" d = Some a /\ truthy a = true.

(** [own] are the settings of [d] that move into its configurations. *)
Definition moving (reserved : list string) (d own : dict) : Prop :=
  sublist own d /\ forall e, In e own <-> In e d /\ ~ stays reserved (fst e).

(** The configurations of a target; a single one, "Default", if none is given. *)
Definition configurations_of (d cs : dict) : Prop :=
  assoc "configurations" d = Some (VDict cs) \/
  (~ In "configurations" (map fst d) /\ cs = [("Default", VDict [])]).

(** [d'] is the target [d] with its configurations set up. *)
Definition set_up (c : ctx) (reserved invalid : list string) (d d' : dict) : Prop :=
  exists cs cs', configurations_of d cs /\ assoc "configurations" d' = Some (VDict cs') /\
    (* the concrete configurations, in order *)
    sublist (map fst cs') (map fst cs) /\
    (forall n, In n (map fst cs') <-> exists v, In (n, v) cs /\ ~ abstract v) /\
    (* each holds the target's settings, then its ancestors' and its own *)
    (forall n v, In (n, v) cs' -> exists own nd routes, v = VDict nd /\ moving reserved d own /\
       all_routes cs n routes /\ applied c cs (map snd routes) own nd) /\
    (* and no invalid key *)
    (forall n nd k, In (n, VDict nd) cs' -> In k (map fst nd) -> ~ In k invalid) /\
    (* the target keeps the reserved keys only *)
    (forall k, k <> "configurations" -> k <> "default_configuration" ->
       (stays reserved k -> assoc k d' = assoc k d) /\ (~ stays reserved k -> assoc k d' = None)) /\
    (* the default is the given one, else the least concrete name *)
    (exists v, assoc "default_configuration" d' = Some v /\
       (assoc "default_configuration" d = Some v \/
        (~ In "default_configuration" (map fst d) /\ exists n, v = VStr n /\ In n (map fst cs') /\
           forall n', In n' (map fst cs') -> String.leb n n' = true))).
