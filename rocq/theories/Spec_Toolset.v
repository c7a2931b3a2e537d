(** Specification vocabulary for toolset expansion (C20). *)
From Verif Require Import Model_Value.
Local Open Scope string_scope.

(** [t'] is [t] with its toolset fixed to [ts], and otherwise the same. *)
Definition for_toolset (t : dict) (ts : value) (t' : value) : Prop :=
  exists d, t' = VDict d /\ assoc "toolset" d = Some ts /\ ~ In "toolsets" (map fst d) /\
    forall k, k <> "toolset" -> k <> "toolsets" -> assoc k d = assoc k t.

(** The toolsets a target asks for: its list when the generator supports
    several toolsets, else (or by default) "target". *)
Definition requested (multiple : bool) (t : dict) (l : list value) : Prop :=
  if multiple then assoc "toolsets" t = Some (VList l) \/ (~ In "toolsets" (map fst t) /\ l = [VStr "target"])
  else l = [VStr "target"].

(** [copies] replace the target [t]. *)
Definition replaces (multiple : bool) (t : value) (copies : list value) : Prop :=
  exists d, t = VDict d /\
  ((In "toolset" (map fst d) /\ ~ In "toolsets" (map fst d) /\ copies = [t]) \/
   (~ (In "toolset" (map fst d) /\ ~ In "toolsets" (map fst d)) /\
    exists wanted order, requested multiple d wanted /\ Permutation wanted order /\ Forall2 (for_toolset d) order copies)).

(** The whole pass: targets are replaced, in order, and so are those of every
    branch of every condition; everything else stays. *)
Inductive expanded (multiple : bool) : dict -> dict -> Prop :=
| expanded_intro d d' :
    map fst d' = map fst d ->
    (forall k, k <> "targets" -> k <> "conditions" -> assoc k d' = assoc k d) ->
    (forall v, assoc "targets" d = Some v -> exists l groups, v = VList l /\ Forall2 (replaces multiple) l groups /\
       assoc "targets" d' = Some (VList (concat groups))) ->
    (forall l, assoc "conditions" d = Some (VList l) -> exists l', assoc "conditions" d' = Some (VList l') /\
       Forall2 (expanded_condition multiple) l l') ->
    (forall v, (forall l, v <> VList l) -> assoc "conditions" d = Some v -> assoc "conditions" d' = Some v) ->
    expanded multiple d d'
with expanded_condition (multiple : bool) : value -> value -> Prop :=
| ec_list c branches branches' : Forall2 (expanded_branch multiple) branches branches' ->
    expanded_condition multiple (VList (c :: branches)) (VList (c :: branches'))
| ec_other v : (forall c branches, v <> VList (c :: branches)) -> expanded_condition multiple v v
with expanded_branch (multiple : bool) : value -> value -> Prop :=
| eb_dict d d' : expanded multiple d d' -> expanded_branch multiple (VDict d) (VDict d')
| eb_other v : (forall d, v <> VDict d) -> expanded_branch multiple v v.

(** No toolsets given as a string: those would be taken letter by letter. *)
Definition toolsets_are_lists (v : value) : Prop :=
  match v with VDict t => forall s, assoc "toolsets" t <> Some (VStr s) /\ assoc "toolsets" t <> Some (VDict []) | _ => True end.

(** Every target, anywhere the pass looks, gives its toolsets as a list. *)
Fixpoint good_toolsets (fuel : nat) (d : dict) : Prop :=
  match fuel with
  | O => True
  | S fuel' =>
    (forall l, assoc "targets" d = Some (VList l) -> Forall toolsets_are_lists l) /\
    (forall l, assoc "conditions" d = Some (VList l) -> forall c bs, In (VList (c :: bs)) l -> forall bd, In (VDict bd) bs -> good_toolsets fuel' bd)
  end.
