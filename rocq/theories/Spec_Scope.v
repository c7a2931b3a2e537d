(** Which variables are seen where: what a pass over a build file does, dict by
    dict, without reference to how it is carried out. *)
From Verif Require Import Lib Model_Value Model_Merge Model_Cond Spec_Cond.
Local Open Scope string_scope.

(** The values of variables. *)
Definition env := string -> option value.
Definition empty : env := fun _ => None.
(** [a], and where that says nothing, [b]. *)
Definition over (a b : env) : env := fun n => match a n with Some v => Some v | None => b n end.
(** The strings, ints and lists of a dict are seen with an underscore in front. *)
Definition automatic (d : dict) : env := fun n => match n with String "_" k => usable (assoc k d) | _ => None end.
(** A name ending in % is a default. *)
Definition is_default (n : string) : bool := match last_char n with Some "%"%char => true | _ => false end.
Definition set_by (vd : dict) : env := fun n => if is_default n then None else usable (assoc n vd).
(** In a variables section inside another one, a default does not replace what
    the outer section says. *)
Definition default_in (vd : dict) (d : dict) (d_key : option string) : env := fun n =>
  match usable (assoc (n ++ "%") vd) with
  | None => None
  | Some v => match d_key, assoc n d with Some "variables", Some w => Some w | _, _ => Some v end
  end.
(** What is seen in [d], whose own key is [d_key], if [old] is seen around it:
    the variables it sets, else its own entries, else what is around, else its
    defaults. *)
Definition seen_in (old : env) (d : dict) (d_key : option string) : env :=
  match assoc "variables" d with
  | Some (VDict vd) => over (set_by vd) (over (over (automatic d) old) (default_in vd d d_key))
  | _ => over (automatic d) old
  end.
Definition values (vars : dict) (e : env) : Prop := forall n, assoc n vars = e n.
Definition raw (d : dict) : env := fun n => assoc n d.

Definition single (v : value) : Prop := (exists s, v = VStr s) \/ exists z, v = VInt z.

Section Settles.
  Variable expand : dict -> value -> result value.
  Variable eval : dict -> value -> result bool.
  Variable c : ctx.
  Variable ph : phase.

  (** Each string outside variables is expanded. *)
  Inductive expanded (vars : dict) : dict -> dict -> Prop :=
  | ex_nil : expanded vars [] []
  | ex_string k s x d d' : k <> "variables" -> expand vars (VStr s) = Val x -> single x -> expanded vars d d' -> expanded vars ((k, VStr s) :: d) ((k, x) :: d')
  | ex_other k v d d' : k = "variables" \/ (forall s, v <> VStr s) -> expanded vars d d' -> expanded vars ((k, v) :: d) ((k, v) :: d').
  (** [d'] is [d] with [v] for the entry [k]. *)
  Definition with_entry (k : string) (v : value) (d d' : dict) : Prop :=
    exists d1 w d2, d = (d1 ++ (k, w) :: d2)%list /\ ~ In k (map fst d1) /\ d' = (d1 ++ (k, v) :: d2)%list.
  Definition without_entry (k : string) (d d' : dict) : Prop :=
    exists d1 v d2, d = (d1 ++ (k, v) :: d2)%list /\ ~ In k (map fst d1) /\ ~ In k (map fst d2) /\ d' = (d1 ++ d2)%list.

  (** [settles d_key around d d']: with [around] seen around it, [d] becomes [d']. *)
  Inductive settles : option string -> dict -> dict -> dict -> Prop :=
  | se_dict d_key around d d1 vars1 d2 vars2 d3 vars3 d' :
      variables_settled d_key around d d1 vars1 ->
      expanded vars1 d1 d2 ->
      values vars2 (seen_in (raw around) d2 d_key) -> conditions_settled vars2 d2 d3 ->
      values vars3 (seen_in (raw around) d3 d_key) -> entries_settled vars3 d3 d' ->
      settles d_key around d d'
  (** The variables section comes first; in it all its entries are seen. *)
  with variables_settled : option string -> dict -> dict -> dict -> dict -> Prop :=
  | vs_none d_key around d vars1 : ~ In "variables" (map fst d) -> values vars1 (over (automatic d) (raw around)) -> variables_settled d_key around d d vars1
  | vs_some d_key around d vd vars0 vd' d1 vars1 : assoc "variables" d = Some (VDict vd) ->
      values vars0 (over (raw vd) (over (automatic d) (raw around))) -> settles (Some "variables") vars0 vd vd' -> with_entry "variables" (VDict vd') d d1 ->
      values vars1 (over (set_by vd') (over (raw vars0) (default_in vd' d1 d_key))) ->
      variables_settled d_key around d d1 vars1
  (** then the conditions, in order, each choice merged into the dict *)
  with conditions_settled : dict -> dict -> dict -> Prop :=
  | cs_none vars d : (forall k, section_of ph k -> ~ In k (map fst d)) -> conditions_settled vars d d
  | cs_empty vars d d' k v : section_of ph k -> assoc k d = Some v -> v = VStr "" \/ v = VDict [] -> without_entry k d d' -> conditions_settled vars d d'
  | cs_some vars d d' d1 k conds : section_of ph k -> assoc k d = Some (VList conds) -> without_entry k d d1 -> choices vars conds d1 d' -> conditions_settled vars d d'
  with choices : dict -> list value -> dict -> dict -> Prop :=
  | co_end vars d : choices vars [] d d
  | co_nothing vars l ps els conds d d' : ps <> [] -> branches l ps els -> chosen (verdict expand eval vars) ps els None -> choices vars conds d d' ->
      choices vars (VList l :: conds) d d'
  | co_choice vars l ps els chose chose' conds d d1 d' : ps <> [] -> branches l ps els -> chosen (verdict expand eval vars) ps els (Some chose) ->
      settles None vars chose chose' -> merge_dicts c d chose' = Val d1 -> choices vars conds d1 d' ->
      choices vars (VList l :: conds) d d'
  (** and last what is inside. *)
  with entries_settled : dict -> dict -> dict -> Prop :=
  | es_nil vars : entries_settled vars [] []
  | es_dict vars k x x' d d' : k <> "variables" -> settles (Some k) vars x x' -> entries_settled vars d d' -> entries_settled vars ((k, VDict x) :: d) ((k, VDict x') :: d')
  | es_list vars k l l' d d' : k <> "variables" -> items_settled vars l l' -> entries_settled vars d d' -> entries_settled vars ((k, VList l) :: d) ((k, VList l') :: d')
  | es_other vars k v d d' : k = "variables" \/ single v -> entries_settled vars d d' -> entries_settled vars ((k, v) :: d) ((k, v) :: d')
  with items_settled : dict -> list value -> list value -> Prop :=
  | is_nil vars : items_settled vars [] []
  | is_dict vars x x' l l' : settles None vars x x' -> items_settled vars l l' -> items_settled vars (VDict x :: l) (VDict x' :: l')
  | is_list vars x x' l l' : items_settled vars x x' -> items_settled vars l l' -> items_settled vars (VList x :: l) (VList x' :: l')
  | is_string vars s x l l' : expand vars (VStr s) = Val x -> single x -> items_settled vars l l' -> items_settled vars (VStr s :: l) (x :: l')
  | is_many vars s xs l l' : expand vars (VStr s) = Val (VList xs) -> items_settled vars l l' -> items_settled vars (VStr s :: l) (xs ++ l')%list
  | is_int vars z l l' : items_settled vars l l' -> items_settled vars (VInt z :: l) (VInt z :: l').
End Settles.
