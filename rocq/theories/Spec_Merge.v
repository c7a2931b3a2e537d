(** Specification vocabulary for merging (C13-C15, C23). *)
From Verif Require Import Str Model_Path Model_Value Model_Merge.
Local Open Scope string_scope.

(** ** Lists *)

(** What an item of the incoming list contributes: its copy, and whether the
    copy may occur only once (strings not beginning with a dash, and ints). *)
Definition copy_of (c : ctx) (is_paths : bool) (item : value) (copy : value * bool) : Prop :=
  match item with
  | VStr s => copy = (VStr (if is_paths then make_path_relative (c_realpath c) (c_to_file c) (c_fro_file c) s else s),
                      match s with String "-" _ => false | _ => true end)
  | VInt z => copy = (VInt z, true)
  | VList l => exists l', merge_lists c false true [] l = Val l' /\ copy = (VList l', false)
  | VDict d => exists d', merge_dicts c [] d = Val d' /\ copy = (VDict d', false)
  | VOther _ => False
  end.

(** The copies in order, without the once-only ones that are in [earlier] or
    occur further left. *)
Inductive new_items : list value -> list (value * bool) -> list value -> Prop :=
| new_nil earlier : new_items earlier [] []
| new_drop earlier x rest l : In x earlier -> new_items (x :: earlier) rest l -> new_items earlier ((x, true) :: rest) l
| new_keep earlier x rest l : ~ In x earlier -> new_items (x :: earlier) rest l -> new_items earlier ((x, true) :: rest) (x :: l)
| new_many earlier x rest l : new_items (x :: earlier) rest l -> new_items earlier ((x, false) :: rest) (x :: l).

(** [l] without the elements [p] holds of, as a relation. *)
Inductive without (p : value -> Prop) : list value -> list value -> Prop :=
| without_nil : without p [] []
| without_drop x l l' : p x -> without p l l' -> without p (x :: l) l'
| without_keep x l l' : ~ p x -> without p l l' -> without p (x :: l) (x :: l').

(** No once-only copy repeats an earlier copy. *)
Definition no_repeats (copies : list (value * bool)) : Prop :=
  forall l x r, copies = (l ++ (x, true) :: r)%list -> ~ In x (map fst l).

(** ** Dicts *)

(** Suffix characters choose the policy, for list values only. *)
Definition ends_with (s suffix : string) : Prop := exists p, s = p ++ suffix.

(** [affects k v b]: merging the entry [k: v] concerns the key [b]. *)
Definition affects (k : string) (v : value) (b : string) : Prop :=
  match v with
  | VList _ => k = b ++ "=" \/ k = b ++ "+" \/ k = b ++ "?" \/
               (k = b /\ ~ ends_with k "=" /\ ~ ends_with k "+" /\ ~ ends_with k "?")
  | _ => k = b
  end.

Definition list_or_empty (o : option value) (l : list value) : Prop :=
  o = Some (VList l) \/ (o = None /\ l = []).
Definition dict_or_empty (o : option value) (d : dict) : Prop :=
  o = Some (VDict d) \/ (o = None /\ d = []).

(** [new] is what the key [b], whose value was [old], holds after the entry
    [k: v] has been merged into it. *)
Definition effect (c : ctx) (b k : string) (v : value) (old : option value) (new : value) : Prop :=
  let paths := is_path_section (c_path_sections c) b in
  match v with
  | VStr s => new = VStr (if paths then make_path_relative (c_realpath c) (c_to_file c) (c_fro_file c) s else s)
  | VInt z => new = VInt z
  | VDict d => exists d0 d', dict_or_empty old d0 /\ merge_dicts c d0 d = Val d' /\ new = VDict d'
  | VList l =>
    (k = b ++ "=" /\ exists l', merge_lists c paths true [] l = Val l' /\ new = VList l') \/
    (k = b ++ "+" /\ exists l0 l', list_or_empty old l0 /\ merge_lists c paths false l0 l = Val l' /\ new = VList l') \/
    (k = b ++ "?" /\ (old = Some new \/
                      old = None /\ exists l', merge_lists c paths true [] l = Val l' /\ new = VList l')) \/
    (k = b /\ exists l0 l', list_or_empty old l0 /\ merge_lists c paths true l0 l = Val l' /\ new = VList l')
  | VOther _ => False
  end.

(** The entries of [fro], in order, each either leaves the key [b] alone or has
    its effect on it. *)
Inductive effects (c : ctx) (b : string) : dict -> option value -> option value -> Prop :=
| effects_nil o : effects c b [] o o
| effects_skip k v rest o o' : ~ affects k v b -> effects c b rest o o' -> effects c b ((k, v) :: rest) o o'
| effects_hit k v rest o new o' : affects k v b -> effect c b k v o new -> effects c b rest (Some new) o' ->
    effects c b ((k, v) :: rest) o o'.

(** Two policies for one key that contradict each other. *)
Definition contradictory (s1 s2 : string) : Prop :=
  In (s1, s2) [("=", ""); ("?", ""); ("=", "?"); ("+", "="); ("+", "?")].

(** The kinds a merge distinguishes. *)
Inductive kind := KScalar | KList | KDict | KOther.
Definition kind_of (v : value) : kind :=
  match v with VStr _ | VInt _ => KScalar | VList _ => KList | VDict _ => KDict | VOther _ => KOther end.

(** ** Path sections: the documented rule, after dropping policy characters. *)
Inductive all_policy : string -> Prop :=
| ap_nil : all_policy ""
| ap_cons a s : In a ["="; "+"; "?"; "!"]%char -> all_policy s -> all_policy (String a s).
Definition path_key (path_sections : list string) (k : string) : Prop :=
  exists name suffix, k = name ++ suffix /\ all_policy suffix /\
    (forall x, In x ["="; "+"; "?"; "!"] -> ~ ends_with name x) /\
    (In name path_sections \/ exists e, In e ["_dir"; "_dirs"; "_file"; "_files"; "_path"; "_paths"] /\ ends_with name e).

(** Values a merge into an empty container copies exactly: no other types, no
    repeated dict key, no policy suffix next to or on a list's key, no repeated
    once-only item. *)
Definition once_only (v : value) : Prop :=
  match v with VStr s => ~ exists s', s = "-" ++ s' | VInt _ => True | _ => False end.
Inductive copies_exactly : value -> Prop :=
| ce_str s : copies_exactly (VStr s)
| ce_int z : copies_exactly (VInt z)
| ce_list l : Forall copies_exactly l ->
    (forall l1 x l2, l = (l1 ++ x :: l2)%list -> once_only x -> ~ In x l1) -> copies_exactly (VList l)
| ce_dict d : Forall (fun e => copies_exactly (snd e)) d -> NoDup (map fst d) ->
    (forall k l, In (k, VList l) d ->
       k <> "" /\ ~ ends_with k "=" /\ ~ ends_with k "+" /\ ~ ends_with k "?" /\
       ~ In (k ++ "=") (map fst d) /\ ~ In (k ++ "?") (map fst d)) ->
    copies_exactly (VDict d).
