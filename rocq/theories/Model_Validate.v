(** Model of the checks on loaded targets and of the sources of rules:
    gyp/pylib/gyp/input.py:2683-2835 (ValidateTargetType, ValidateRulesInTarget,
    ValidateRunAsInTarget, ValidateActionsInTarget), called by Load
    (input.py:3095-3105).

    Simplifications: the rule's dict is changed in place by the code and here
    replaced in the target; a rule_name of another type than str or int is a
    TypeError (True and None would do); paths are POSIX paths. *)
From Verif Require Import Lib Str Model_Value.
From Verif Require Model_Writer.
Local Open Scope string_scope.

(** [for x in v]: the items of a list, the keys of a dict, the letters of a
    string; a TypeError for anything else. *)
Fixpoint letters (s : string) : list string := match s with "" => [] | String a s' => String a "" :: letters s' end.
Definition items (v : value) : result (list value) :=
  match v with
  | VList l => Val l
  | VStr s => Val (map VStr (letters s))
  | VDict d => Val (map (fun e => VStr (fst e)) d)
  | VInt _ | VOther _ => Exn (TypeError "not iterable")
  end.
(** [d.get(k, [])], iterated over. *)
Definition items_at (k : string) (d : dict) : result (list value) := match assoc k d with Some v => items v | None => Val [] end.

(** Whether [d.get(k)] is truthy. *)
Definition true_at (k : string) (d : dict) : bool := match assoc k d with Some v => truthy v | None => false end.

Section Texts.
  (** [str(v)], for the messages. *)
  Variable show : value -> string.
  Definition show_at (k : string) (d : dict) : string := match assoc k d with Some v => show v | None => "None" end.

  (** input.py:2692-2700. *)
  Definition valid_target_types : list string :=
    ["executable"; "loadable_module"; "static_library"; "shared_library"; "mac_kernel_extension"; "none"; "windows_driver"].
  (** input.py:2683-2714: ValidateTargetType. *)
  Definition validate_target_type (target : string) (d : dict) : result unit :=
    let type := assoc "type" d in
    let valid := match type with Some (VStr s) => mem s valid_target_types | _ => false end in
    if negb valid then
      Exn (GypError ("Target " ++ target ++ " has an invalid target type '" ++ show_at "type" d ++ "'.  Must be one of " ++ String.concat "/" valid_target_types ++ "."))
    else if true_at "standalone_static_library" d && negb (match type with Some (VStr s) => String.eqb s "static_library" | _ => false end) then
      Exn (GypError ("Target " ++ target ++ " has type " ++ show_at "type" d ++ " but standalone_static_library flag is only valid for static_library type."))
    else Val tt.

  (** [s[1:] if s.startswith(".") else s] (input.py:2744-2745, 2775-2776). *)
  Definition without_dot (s : string) : string := match s with String a s' => if Ascii.eqb a "." then s' else s | "" => "" end.

  (** input.py:2769-2778: the sources a rule applies to. *)
  Definition matching (extension : string) (found : list value) (source : value) : result (list value) :=
    match source with
    | VStr s => Val (if String.eqb (without_dot (snd (Model_Writer.splitext s))) extension then found ++ [source] else found)%list
    | _ => Exn (TypeError "splitext")
    end.
  Definition rule_sources (d : dict) (extra : list string) (extension : string) : result (list value) :=
    rfold (fun found key => rbind (items_at key d) (fun l => rfold (matching extension) l found)) ("sources" :: extra) [].

  (** input.py:2734-2781: one rule; the state is the names and the extensions
      seen, each extension with the name of its rule, and the rules so far. *)
  Definition rules_state := (list value * list (string * value) * list value)%type.
  Definition same_name (a b : value) : bool := scalar_eqb a b.
  Definition validate_rule (target : string) (d : dict) (extra : list string) (st : rules_state) (rule : value) : result rules_state :=
    let '(names, extensions, done) := st in
    match rule with
    | VDict r =>
      match assoc "rule_name" r with
      | None => Exn (KeyError "rule_name")
      | Some name =>
        match name with
        | VStr _ | VInt _ =>
          if existsb (same_name name) names then Exn (GypError ("rule " ++ show name ++ " exists in duplicate, target " ++ target))
          else
            match assoc "extension" r with
            | None => Exn (KeyError "extension")
            | Some (VStr e) =>
              let extension := without_dot e in
              match assoc extension extensions with
              | Some other => Exn (GypError ("extension " ++ extension ++ " associated with multiple rules, target " ++ target ++ " rules " ++ show other ++ " and " ++ show name))
              | None =>
                if has_key "rule_sources" r then Exn (GypError ("rule_sources must not exist in input, target " ++ target ++ " rule " ++ show name))
                else
                  rbind (rule_sources d extra extension) (fun sources =>
                  let r' := match sources with [] => r | _ => set_key "rule_sources" (VList sources) r end in
                  Val ((names ++ [name])%list, (extensions ++ [(extension, name)])%list, (done ++ [VDict r'])%list))
              end
            | Some _ => Exn AttributeError
            end
        | _ => Exn (TypeError "rule_name")
        end
      end
    | _ => Exn (TypeError "rule")
    end.
  (** input.py:2717-2781: ValidateRulesInTarget, as the changed target. *)
  Definition validate_rules (target : string) (d : dict) (extra : list string) : result dict :=
    match assoc "rules" d with
    | None => Val d
    | Some rules =>
      rbind (items rules) (fun l =>
      rbind (rfold (validate_rule target d extra) l ([], [], [])) (fun st =>
      Val (match l with [] => d | _ => set_key "rules" (VList (snd st)) d end)))
    end.

  (** input.py:2784-2816: ValidateRunAsInTarget. *)
  Definition is_str (v : value) : bool := match v with VStr _ => true | _ => false end.
  Definition is_dict (v : value) : bool := match v with VDict _ => true | _ => false end.
  Definition is_list (v : value) : bool := match v with VList _ => true | _ => false end.
  Definition is_at (p : value -> bool) (k : string) (d : dict) : bool := match assoc k d with Some v => p v | None => false end.
  Definition validate_run_as (d : dict) (build_file : string) : result unit :=
    let name := show_at "target_name" d in
    if negb (true_at "run_as" d) then Val tt
    else match assoc "run_as" d with
    | Some (VDict r) =>
      if negb (true_at "action" r) then Exn (GypError ("The 'run_as' in target " ++ name ++ " from file " ++ build_file ++ " must have an 'action' section."))
      else if negb (is_at is_list "action" r) then Exn (GypError ("The 'action' for 'run_as' in target " ++ name ++ " from file " ++ build_file ++ " must be a list."))
      else if true_at "working_directory" r && negb (is_at is_str "working_directory" r) then
        Exn (GypError ("The 'working_directory' for 'run_as' in target " ++ name ++ " in file " ++ build_file ++ " should be a string."))
      else if true_at "environment" r && negb (is_at is_dict "environment" r) then
        Exn (GypError ("The 'environment' for 'run_as' in target " ++ name ++ " in file " ++ build_file ++ " should be a dictionary."))
      else Val tt
    | _ => Exn (GypError ("The 'run_as' in target " ++ name ++ " from file " ++ build_file ++ " should be a dictionary."))
    end.

  (** input.py:2819-2835: ValidateActionsInTarget, one action. *)
  Definition is_none (v : value) : bool := match v with VOther c => String.eqb c "NoneType" | _ => false end.
  Definition validate_action (name : string) (_ : unit) (action : value) : result unit :=
    match action with
    | VDict a =>
      if negb (true_at "action_name" a) then Exn (GypError ("Anonymous action in target " ++ name ++ ".  An action must have an 'action_name' field."))
      else if match assoc "inputs" a with None => true | Some v => is_none v end then Exn (GypError ("Action in target " ++ name ++ " has no inputs."))
      else if negb (true_at "action" a) then Val tt
      else match assoc "action" a with
      | Some (VList (x :: _)) => if truthy x then Val tt else Exn (GypError ("Empty action as command in target " ++ name ++ "."))
      | Some (VStr _) => Val tt
      | Some (VDict _) => Exn (KeyError "0")
      | _ => Exn (TypeError "not subscriptable")
      end
    | _ => Exn AttributeError
    end.
  Definition validate_actions (d : dict) : result unit :=
    rbind (items_at "actions" d) (fun l => rfold (validate_action (show_at "target_name" d)) l tt).

  (** input.py:3099-3105, one target; [build_file] is gyp.common.BuildFile. *)
  Definition validate_target (build_file : string -> string) (extra : list string) (target : string) (d : dict) : result dict :=
    rbind (validate_target_type target d) (fun _ =>
    rbind (validate_rules target d extra) (fun d' =>
    rbind (validate_run_as d' (build_file target)) (fun _ =>
    rbind (validate_actions d') (fun _ => Val d')))).
  (** input.py:3099-3105: all targets, in order, each with its dict. *)
  Definition validate (build_file : string -> string) (extra : list string) (targets : list (string * dict)) : result (list (string * dict)) :=
    rmap (fun e => rbind (validate_target build_file extra (fst e) (snd e)) (fun d => Val (fst e, d))) targets.
End Texts.
