(** Specification vocabulary for conditions and variables (C18, C46, C56, C57). *)
From Verif Require Import Model_Value Model_Cond.
Local Open Scope string_scope.

(** The shape of a conditional section: condition, dict, condition, dict, ...,
    and an optional final dict for "none of them". *)
Inductive branches : list value -> list (value * dict) -> option dict -> Prop :=
| br_end : branches [] [] None
| br_else e t f : branches [e; VDict t; VDict f] [(e, t)] (Some f)
| br_pair e t rest ps els : (forall f rest', rest <> VDict f :: rest') -> branches rest ps els ->
    branches (e :: VDict t :: rest) ((e, t) :: ps) els.

(** The condition [e] expands to a string or int that evaluates to [b]. *)
Definition verdict (expand : dict -> value -> result value) (eval : dict -> value -> result bool)
  (vars : dict) (e : value) (b : bool) : Prop :=
  exists x, expand vars e = Val x /\ ((exists s, x = VStr s) \/ (exists z, x = VInt z)) /\ eval vars x = Val b.

(** The dict of the first true condition, else the final one. *)
Inductive chosen (verdict : value -> bool -> Prop) : list (value * dict) -> option dict -> option dict -> Prop :=
| ch_else els : chosen verdict [] els els
| ch_true e t ps els : verdict e true -> chosen verdict ((e, t) :: ps) els (Some t)
| ch_false e t ps els r : verdict e false -> chosen verdict ps els r -> chosen verdict ((e, t) :: ps) els r.

(** All keys at every depth satisfy [Q]. *)
Inductive all_keys (Q : string -> Prop) : value -> Prop :=
| ak_str s : all_keys Q (VStr s)
| ak_int z : all_keys Q (VInt z)
| ak_other c : all_keys Q (VOther c)
| ak_list l : Forall (all_keys Q) l -> all_keys Q (VList l)
| ak_dict d : Forall (fun e => Q (fst e) /\ all_keys Q (snd e)) d -> all_keys Q (VDict d).

(** No dict, at any depth, repeats a key (true of every Python dict). *)
Inductive no_dup_keys : value -> Prop :=
| nk_str s : no_dup_keys (VStr s)
| nk_int z : no_dup_keys (VInt z)
| nk_other c : no_dup_keys (VOther c)
| nk_list l : Forall no_dup_keys l -> no_dup_keys (VList l)
| nk_dict d : NoDup (map fst d) -> Forall (fun e => no_dup_keys (snd e)) d -> no_dup_keys (VDict d).

(** [k] is [base] followed by merge policy characters. *)
Inductive suffixed (base : string) : string -> Prop :=
| sx_base : suffixed base base
| sx_more k a : suffixed base k -> In a ["="; "+"; "?"] -> suffixed base (k ++ a).

(** The expansion of a string to a list yields strings and ints. *)
Definition flat_lists (expand : dict -> value -> result value) : Prop :=
  forall vars s l, expand vars (VStr s) = Val (VList l) -> forall x, In x l -> (exists t, x = VStr t) \/ (exists z, x = VInt z).

(** The value of the variable [name] after loading a variables section [vd]
    of the dict [d], whose own key is [d_key], into [vars]. *)
Definition usable (o : option value) : option value :=
  match o with Some (VStr _ | VInt _ | VList _) => o | _ => None end.
Definition loaded (vars vd d : dict) (d_key : option string) (name : string) : option value :=
  match (if match last_char name with Some "%"%char => true | _ => false end then None else usable (assoc name vd)),
        assoc name vars, usable (assoc (name ++ "%") vd) with
  | Some v, _, _ => Some v                                 (* set here without % *)
  | None, Some v, _ => Some v                              (* already set *)
  | None, None, Some v =>                                  (* default *)
    match d_key, assoc name d with
    | Some "variables", Some w => Some w
    | _, _ => Some v
    end
  | None, None, None => None
  end.

(** The section of conditions each phase deals with. *)
Inductive section_of : phase -> string -> Prop :=
| early_section : section_of Early "conditions"
| late_section : section_of Late "target_conditions".
