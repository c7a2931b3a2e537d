(** Model of gyp/pylib/gyp/input.py:2053-2082 (DoDependentSettings) and of the
    loop that calls it, 3034-3047 (Load).  Target dicts are values; the graph
    functions of Model_Graph see them through [view].
    Simplifications: items of "dependencies" and "export_dependent_settings"
    that are no strings are skipped by [view]; a settings block that contains
    its own key (which would be changed while it is merged) is merged as it
    was before. *)
From Verif Require Import Model_Value Model_Merge Model_Names Model_Graph.
Local Open Scope string_scope.

Definition tdicts := list (string * dict).

Definition strings_of (o : option value) : list string :=
  match o with
  | Some (VList l) => flat_map (fun v => match v with VStr s => [s] | _ => [] end) l
  | _ => []
  end.
Definition flag (o : option value) (default : bool) : bool := match o with Some v => truthy v | None => default end.

(** What the graph functions read of a target dict (see [spec]). *)
Definition view (d : dict) : spec :=
  mk_spec (match assoc "dependencies" d with Some v => Some (strings_of (Some v)) | None => None end)
          (strings_of (assoc "export_dependent_settings" d))
          (match assoc "type" d with Some (VStr s) => Some s | Some _ => Some "" | None => None end)
          (match assoc "target_name" d with Some _ => true | None => false end)
          (flag (assoc "dependencies_traverse" d) true)
          (flag (assoc "hard_dependency" d) false)
          (flag (assoc "allow_sharedlib_linksettings_propagation" d) true)
          None.
Definition graph_of (ts : tdicts) : targets := map (fun e => (fst e, view (snd e))) ts.

Definition of_outcome {A} (o : outcome A) : result A :=
  match o with
  | Ok a => Val a
  | Err OutOfFuel => Exn NoFuel
  | Err (Model_Graph.KeyError k) => Exn (Model_Value.KeyError k)
  | Err (MissingField w t) => Exn (GypError t)
  | Err (MissingDependency d t) => Exn (GypError t)
  | Err (CircularDependency _) => Exn (GypError "cycle")
  end.

Section Settings.
  Variable realpath : string -> string.
  Variable path_sections : list string.
  Variable links : string -> list string.   (* the dependency_nodes *)

  (** input.py:2061-2073. *)
  Definition settings_dependencies (key : string) (ts : tdicts) (t : string) : result (list string) :=
    if String.eqb key "all_dependent_settings" then of_outcome (deep_dependencies (S (length ts)) links t [])
    else if String.eqb key "direct_dependent_settings" then of_outcome (direct_and_imported (graph_of ts) links t)
    else if String.eqb key "link_settings" then of_outcome (dependencies_for_link_settings (graph_of ts) links t)
    else Exn (GypError key).

  (** input.py:2075-2082, for one dependency [d] of [t]. *)
  Definition take_settings (key t : string) (ts : tdicts) (d : string) : result tdicts :=
    match assoc d ts with
    | None => Exn (Model_Value.KeyError d)
    | Some dd =>
      match assoc key dd with
      | None => Val ts
      | Some (VDict sd) =>
        match assoc t ts with
        | None => Exn (Model_Value.KeyError t)
        | Some td => rbind (merge_dicts (mk_ctx realpath path_sections (build_file t) (build_file d)) td sd)
                           (fun td' => Val (set_key t td' ts))
        end
      | Some _ => Exn AttributeError
      end
    end.

  (** input.py:2057-2082, for one target. *)
  Definition settle (key : string) (ts : tdicts) (t : string) : result tdicts :=
    match assoc t ts with
    | None => Exn (Model_Value.KeyError t)
    | Some _ => rbind (settings_dependencies key ts t) (fun ds => rfold (take_settings key t) ds ts)
    end.
  Definition do_dependent_settings (key : string) (flat : list string) (ts : tdicts) : result tdicts :=
    rfold (settle key) flat ts.

  (** input.py:3043-3047: take the settings out again. *)
  Definition take_out (key : string) (flat : list string) (ts : tdicts) : tdicts :=
    fold_left (fun ts t => match assoc t ts with Some d => set_key t (del_key key d) ts | None => ts end) flat ts.

  (** input.py:3034-3047. *)
  Definition publish_settings (flat : list string) (ts : tdicts) : result tdicts :=
    rfold (fun ts key => rbind (do_dependent_settings key flat ts) (fun ts' => Val (take_out key flat ts')))
          ["all_dependent_settings"; "direct_dependent_settings"; "link_settings"] ts.
End Settings.
