(** Specification vocabulary for dependent settings (C47). *)
From Verif Require Import Model_Value Model_Merge Spec_Merge Model_Names Model_Graph Model_Settings.
Local Open Scope string_scope.

(** [received ... t ds d d']: the dict [d] of target [t] becomes [d'] by merging
    in, in this order, the [key] settings of those targets [ds] that have any. *)
Inductive received (realpath : string -> string) (path_sections : list string) (key t : string) (ts : tdicts)
  : list string -> dict -> dict -> Prop :=
| rec_nil d : received realpath path_sections key t ts [] d d
| rec_none x ds xd d d' : assoc x ts = Some xd -> ~ In key (map fst xd) ->
    received realpath path_sections key t ts ds d d' -> received realpath path_sections key t ts (x :: ds) d d'
| rec_some x ds xd sd d d1 d' : assoc x ts = Some xd -> assoc key xd = Some (VDict sd) ->
    merge_dicts (mk_ctx realpath path_sections (build_file t) (build_file x)) d sd = Val d1 ->
    received realpath path_sections key t ts ds d1 d' -> received realpath path_sections key t ts (x :: ds) d d'.

(** The settings called [key] do not themselves contain that key, nor the keys
    that say who receives settings. *)
Definition inert (key : string) (ts : tdicts) : Prop :=
  forall t d sd k v b, In (t, d) ts -> assoc key d = Some (VDict sd) -> In (k, v) sd ->
    In b [key; "export_dependent_settings"; "type"; "target_name"; "dependencies_traverse"; "allow_sharedlib_linksettings_propagation"] ->
    ~ affects k v b.

(** What a pass must do, if [who t ds] says that [ds] are the targets whose
    settings [t] takes, in order. *)
Definition settings_pass (realpath : string -> string) (path_sections : list string) (key : string)
           (flat : list string) (who : string -> list string -> Prop) (ts ts' : tdicts) : Prop :=
  map fst ts' = map fst ts /\
  (forall t, ~ In t flat -> assoc t ts' = assoc t ts) /\
  (forall t, In t flat -> exists ds d d', who t ds /\ assoc t ts = Some d /\ assoc t ts' = Some d' /\
     received realpath path_sections key t ts ds d d').

(** The graph the values describe. *)
Definition lists (ts : tdicts) (key t x : string) : Prop :=
  exists d l, In (t, d) ts /\ assoc key d = Some (VList l) /\ In (VStr x) l.
