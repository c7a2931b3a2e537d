(** When a target is in order, and which sources a rule applies to (from the
    GYP input format, not from the checks). *)
From Verif Require Import Lib Str Model_Value.
Local Open Scope string_scope.

Definition text_at (k : string) (d : dict) (s : string) : Prop := assoc k d = Some (VStr s).
(** The key is there with a value that counts as true. *)
Definition on (k : string) (d : dict) : Prop := exists v, assoc k d = Some v /\ truthy v = true.
(** The key is missing or has a list of texts. *)
Definition texts_at (k : string) (d : dict) (l : list string) : Prop := (assoc k d = None /\ l = []) \/ assoc k d = Some (VList (map VStr l)).
Definition dicts_at (k : string) (d : dict) (l : list dict) : Prop := (assoc k d = None /\ l = []) \/ assoc k d = Some (VList (map VDict l)).

(** *** The type *)
Definition valid_type (d : dict) : Prop :=
  exists t, text_at "type" d t /\ In t ["executable"; "loadable_module"; "static_library"; "shared_library"; "mac_kernel_extension"; "none"; "windows_driver"] /\
  (on "standalone_static_library" d -> t = "static_library").

(** *** Rules *)
Definition rule_named (r : dict) (n : value) : Prop := assoc "rule_name" r = Some n /\ ((exists s, n = VStr s) \/ (exists z, n = VInt z)).
(** The extension, given with or without the dot. *)
Definition rule_for (r : dict) (e : string) : Prop := text_at "extension" r ("." ++ e) \/ (text_at "extension" r e /\ forall x, e <> "." ++ x).
Definition valid_rules (d : dict) : Prop :=
  forall rs ns es, dicts_at "rules" d rs -> Forall2 rule_named rs ns -> Forall2 rule_for rs es ->
  NoDup ns /\ NoDup es /\ Forall (fun r => assoc "rule_sources" r = None) rs.

(** *** How to run it *)
Definition valid_run_as (d : dict) : Prop :=
  on "run_as" d -> exists r x l, assoc "run_as" d = Some (VDict r) /\ assoc "action" r = Some (VList (x :: l)) /\
    (on "working_directory" r -> exists s, text_at "working_directory" r s) /\ (on "environment" r -> exists e, assoc "environment" r = Some (VDict e)).

(** *** Actions *)
Definition valid_action (a : dict) : Prop :=
  on "action_name" a /\ (exists v, assoc "inputs" a = Some v /\ v <> VOther "NoneType") /\
  (forall x l, assoc "action" a = Some (VList (x :: l)) -> truthy x = true).
Definition valid_actions (d : dict) : Prop := forall l, dicts_at "actions" d l -> Forall valid_action l.

Definition valid (d : dict) : Prop := valid_type d /\ valid_rules d /\ valid_run_as d /\ valid_actions d.

(** The values have the types the format gives them, and rules have a name and
    an extension. *)
Definition shaped (extra : list string) (d : dict) : Prop :=
  (exists rs ns es, dicts_at "rules" d rs /\ Forall2 rule_named rs ns /\ Forall2 rule_for rs es) /\
  (forall k, In k ("sources" :: extra) -> exists l, texts_at k d l) /\
  (exists l, dicts_at "actions" d l /\ Forall (fun a => forall v, assoc "action" a = Some v -> (exists s, v = VStr s) \/ (exists l, v = VList l)) l).

(** *** The extension of a path: what follows the last dot of its last part,
    unless only dots come before. *)
Inductive dots : string -> Prop := dots_nil : dots "" | dots_cons s : dots s -> dots (String "." s).
Definition ends_in (s e : string) : Prop :=
  exists d n, s = d ++ n ++ "." ++ e /\ (d = "" \/ exists p, d = p ++ "/") /\ has_char "/" n = false /\ ~ dots n /\ has_char "." e = false /\ has_char "/" e = false.
Definition extension (s e : string) : Prop := ends_in s e \/ (e = "" /\ forall x, ~ ends_in s x).

(** Those with an extension, in order. *)
Inductive chosen (e : string) : list string -> list string -> Prop :=
| chosen_nil : chosen e [] []
| chosen_yes s l r : extension s e -> chosen e l r -> chosen e (s :: l) (s :: r)
| chosen_no s l r : ~ extension s e -> chosen e l r -> chosen e (s :: l) r.
(** The texts below several keys, one key after the other. *)
Inductive texts_below (d : dict) : list string -> list string -> Prop :=
| below_nil : texts_below d [] []
| below_cons k ks l l' : texts_at k d l -> texts_below d ks l' -> texts_below d (k :: ks) (l ++ l')%list.

(** A rule after the checks: with the sources it applies to, if any. *)
Definition with_sources (sources : list string) (r r' : dict) : Prop :=
  exists e l, rule_for r e /\ chosen e sources l /\ (l = [] -> r' = r) /\
    (l <> [] -> assoc "rule_sources" r' = Some (VList (map VStr l)) /\ forall k, k <> "rule_sources" -> assoc k r' = assoc k r).
(** A target after the checks. *)
Definition completed (extra : list string) (d d' : dict) : Prop :=
  exists rs rs' sources, dicts_at "rules" d rs /\ texts_below d ("sources" :: extra) sources /\ dicts_at "rules" d' rs' /\ Forall2 (with_sources sources) rs rs' /\
    forall k, k <> "rules" -> assoc k d' = assoc k d.

(** A message speaks of a name. *)
Definition mentions (m name : string) : Prop := exists a b, m = a ++ name ++ b.
