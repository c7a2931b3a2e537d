(** Which targets a target's list of dependencies stands for. *)
From Verif Require Import Lib Str Model_Names Model_Path Model_TargetDeps Spec_Names.
Local Open Scope string_scope.

(** The strings of a list; every appearance but the first left out. *)
Definition texts (l : list item) : list string := flat_map (fun i => match i with Word s => [s] | Other => [] end) l.
Definition firsts (l : list string) : list string := fold_left (fun seen x => if mem x seen then seen else (seen ++ [x])%list) l [].

Section Meaning.
Variable realpath : string -> string.
Variable multiple : bool.
Variable data : build_data.
(** File, name and toolset that are meant by what is written in a file for a toolset. *)
Definition meant (file own written : string) : string * string * string :=
  let '(f, n, s) := resolve_target realpath file written own in (f, n, if multiple then s else own).
(** The name of a target: FILE:NAME#TOOLSET. *)
Definition spell (f n s : string) : string := f ++ ":" ++ n ++ "#" ++ s.
(** The targets meant: the one, or with a "*" all of the file that match and do not object. *)
Definition targets_meant (m : string * string * string) : list string :=
  let '(f, n, s) := m in
  if String.eqb n "*" || String.eqb s "*" then
    map (fun ti => spell f (ti_name ti) (ti_toolset ti))
      (filter (fun ti => negb (ti_suppress ti) && (String.eqb n "*" || String.eqb n (ti_name ti)) && (String.eqb s "*" || String.eqb s (ti_toolset ti)))
         (match assoc f data with Some tis => tis | None => [] end))
  else [spell f n s].
(** The targets that a list of a target stands for. *)
Definition stands_for (t : string) (d : target item) (key : string) : list string := flat_map (fun w => targets_meant (meant (build_file t) (toolset d) w)) (match lists d key with Some l => texts l | None => [] end).
(** The names excluded from a list. *)
Definition excluded (t : string) (d : target item) (key : string) : list string :=
  map (fun w => let '(f, n, s) := meant (build_file t) (toolset d) w in spell f n s) (match lists d (key ++ "!") with Some l => texts l | None => [] end).
Definition is_none (d : target item) : bool := match kind d with Some k => String.eqb k "none" | None => false end.
Definition kept (targets : list (string * target item)) (t : string) (d : target item) (key x : string) : bool :=
  negb (prune_self d && String.eqb x t) &&
  negb (is_none d && match assoc x targets with Some e => link_only e | None => false end) &&
  negb (mem x (excluded t d key)).

(** Why a target's lists are refused. *)
Definition section (key : string) : Prop := key = "dependencies" \/ key = "export_dependent_settings".
Inductive refused (targets : list (string * target item)) (t : string) (d : target item) : Prop :=
| no_text key op l : section key -> In op [""; "!"; "/"] -> lists d (key ++ op) = Some l -> In Other l -> refused targets t d
| not_dependency key op l w : section key -> In op [""; "!"; "/"] -> lists d (key ++ op) = Some l -> In (Word w) l ->
    (forall l' w', lists d "dependencies" = Some l' -> In (Word w') l' -> meant (build_file t) (toolset d) w' <> meant (build_file t) (toolset d) w) -> refused targets t d
| wild key l w f n s : section key -> lists d key = Some l -> In (Word w) l -> meant (build_file t) (toolset d) w = (f, n, s) -> (n = "*" \/ s = "*") ->
    (f = build_file t \/ ~ In f (map fst data)) -> refused targets t d
| missing key x : section key -> is_none d = true -> In x (stands_for t d key) -> ~ In x (map fst targets) -> refused targets t d
| regex key l l' : section key -> lists d key = Some l -> lists d (key ++ "/") = Some l' -> l' <> [] -> refused targets t d.
End Meaning.

(** Names as usual. *)
Definition plain_toolset (s : string) : Prop := s <> "" /\ no_colon s /\ no_hash s.
(** The targets are those of the files, and are named after them. *)
Definition loaded (data : build_data) (targets : list (string * target item)) : Prop :=
  (forall f tis ti, In (f, tis) data -> In ti tis -> plain_info ti) /\
  (forall t d, In (t, d) targets -> exists f tis ti, In (f, tis) data /\ In ti tis /\ t = spell f (ti_name ti) (ti_toolset ti) /\ toolset d = ti_toolset ti).
