(** The order of versions as PEP 440 describes it. *)
From Coq Require Import NArith.
From Verif Require Import Lib Str Model_Version.
Local Open Scope N_scope.

(** Release segments are compared as if padded with zeros for ever. *)
Definition same_release (r r' : list N) : Prop := forall i, nth i r 0 = nth i r' 0.
Definition release_before (r r' : list N) : Prop :=
  exists i, (forall j, (j < i)%nat -> nth j r 0 = nth j r' 0) /\ nth i r 0 < nth i r' 0.

(** Lexicographic order of a list: the first difference decides, a proper
    prefix comes first. *)
Inductive lex_before {A} (R : A -> A -> Prop) : list A -> list A -> Prop :=
| lex_prefix y l : lex_before R [] (y :: l)
| lex_head x y l l' : R x y -> lex_before R (x :: l) (y :: l')
| lex_tail x l l' : lex_before R l l' -> lex_before R (x :: l) (x :: l').
(** Alphabetical order of strings: by byte. *)
Definition string_before (s t : string) : Prop :=
  lex_before (fun a b => N_of_ascii a < N_of_ascii b) (list_ascii_of_string s) (list_ascii_of_string t).

(** .devN < aN < bN < rcN < no suffix or .postN *)
Definition letter_rank (l : string) : N := if String.eqb l "a" then 1 else if String.eqb l "b" then 2 else 3.
Definition phase (v : version) : N :=
  match v_pre v with
  | Some (l, _) => letter_rank l
  | None => match v_post v, v_dev v with None, Some _ => 0 | _, _ => 4 end
  end.
Definition number (t : option (string * N)) : option N := option_map snd t.
(** An absent number comes first (post) or last (dev). *)
Definition absent_first (a b : option N) : Prop := match a, b with None, Some _ => True | Some m, Some n => m < n | _, _ => False end.
Definition absent_last (a b : option N) : Prop := match a, b with Some _, None => True | Some m, Some n => m < n | _, _ => False end.
(** Local segments: alphanumeric ones alphabetically, before numeric ones. *)
Definition segment_before (a b : N + string) : Prop :=
  match a, b with
  | inl m, inl n => m < n
  | inr s, inr t => string_before s t
  | inr _, inl _ => True
  | inl _, inr _ => False
  end.
Definition local_before (a b : option (list (N + string))) : Prop :=
  match a, b with None, Some _ => True | Some l, Some l' => lex_before segment_before l l' | _, _ => False end.

Inductive version_before (v w : version) : Prop :=
| by_epoch : v_epoch v < v_epoch w -> version_before v w
| by_release : v_epoch v = v_epoch w -> release_before (v_release v) (v_release w) -> version_before v w
| by_phase : v_epoch v = v_epoch w -> same_release (v_release v) (v_release w) -> phase v < phase w -> version_before v w
| by_pre : v_epoch v = v_epoch w -> same_release (v_release v) (v_release w) -> phase v = phase w ->
    absent_first (number (v_pre v)) (number (v_pre w)) -> version_before v w
| by_post : v_epoch v = v_epoch w -> same_release (v_release v) (v_release w) -> phase v = phase w ->
    number (v_pre v) = number (v_pre w) -> absent_first (number (v_post v)) (number (v_post w)) -> version_before v w
| by_dev : v_epoch v = v_epoch w -> same_release (v_release v) (v_release w) -> phase v = phase w ->
    number (v_pre v) = number (v_pre w) -> number (v_post v) = number (v_post w) ->
    absent_last (number (v_dev v)) (number (v_dev w)) -> version_before v w
| by_local : v_epoch v = v_epoch w -> same_release (v_release v) (v_release w) -> phase v = phase w ->
    number (v_pre v) = number (v_pre w) -> number (v_post v) = number (v_post w) -> number (v_dev v) = number (v_dev w) ->
    local_before (v_local v) (v_local w) -> version_before v w.

(** Two versions are the same when only trailing zeros differ. *)
Definition same_version (v w : version) : Prop :=
  v_epoch v = v_epoch w /\ same_release (v_release v) (v_release w) /\
  v_pre v = v_pre w /\ v_post v = v_post w /\ v_dev v = v_dev w /\ v_local v = v_local w.

(** What parsing produces (version.py:459-495): normalised letters. *)
Definition normalised (v : version) : Prop :=
  (forall l n, v_pre v = Some (l, n) -> l = "a" \/ l = "b" \/ l = "rc")%string /\
  (forall l n, v_post v = Some (l, n) -> l = "post")%string /\
  (forall l n, v_dev v = Some (l, n) -> l = "dev")%string.
