(** Model of gyp/pylib/gyp/input.py:2398-2423 (MergeConfigWithInheritance) and
    2426-2500 (SetUpConfigurations).  Simplifications: deepcopy is the identity
    on values; the globals non_configuration_keys and
    invalid_configuration_keys are parameters. *)
From Verif Require Export Model_Value Model_Merge.
Local Open Scope string_scope.

Section Config.
  Variable c : ctx.                 (* both files are the target's build file *)

  (** [configuration_dict.get("inherit_from", [])], iterated over (2410). *)
  Definition parents_of (cd : dict) : result (list value) :=
    match assoc "inherit_from" cd with
    | None => Val []
    | Some (VList l) => Val l
    | Some (VStr s) => Val ((fix chars s := match s with EmptyString => [] | String a s' => VStr (String a "") :: chars s' end) s)
    | Some (VDict d) => Val (map (fun e => VStr (fst e)) d)
    | Some _ => Exn (TypeError "not iterable")
    end.

  (** input.py:2398-2423; [new] is new_configuration_dict, updated in place. *)
  Fixpoint merge_config (fuel : nat) (configs : dict) (new : dict) (configuration : string) (visited : list string) : result dict :=
    match fuel with
    | O => Exn NoFuel
    | S fuel' =>
      if mem configuration visited then Val new
      else
        match assoc configuration configs with
        | None => Exn (KeyError configuration)
        | Some (VDict cd) =>
          rbind (parents_of cd) (fun parents =>
          rbind (rfold (fun acc p => match p with
                                     | VStr s => merge_config fuel' configs acc s (visited ++ [configuration])%list
                                     | VInt _ | VOther _ => Exn (KeyError "parent")
                                     | VList _ | VDict _ => Exn (TypeError "unhashable")
                                     end) parents new) (fun acc =>
          rbind (merge_dicts c acc cd) (fun merged => Val (del_key "abstract" merged))))
        | Some _ => Exn AttributeError
        end
    end.

  Variable non_configuration_keys invalid_configuration_keys : list string.

  (** input.py:2431, 2460-2462: is the key moved into the configurations? *)
  Definition key_suffixes : list ascii := ["="; "+"; "?"; "!"; "/"]%char.
  Definition config_key (k : string) : bool :=
    let base := match last_char k with
                | Some a => if existsb (Ascii.eqb a) key_suffixes then drop_last k else k
                | None => k
                end in
    negb (mem base non_configuration_keys).

  (** [config.get("abstract")] as a truth value. *)
  Definition is_abstract (v : value) : result bool :=
    match v with
    | VDict d => Val (match assoc "abstract" d with Some a => truthy a | None => false end)
    | _ => Exn AttributeError
    end.

  (** The entries of [cs] that are not abstract. *)
  Fixpoint concrete_entries (cs : dict) : result dict :=
    match cs with
    | [] => Val []
    | (k, v) :: cs' => rbind (is_abstract v) (fun a => rbind (concrete_entries cs') (fun r => Val (if a then r else (k, v) :: r)))
    end.

  (** input.py:2439-2446. *)
  Definition add_default (d : dict) (cs : dict) : result dict :=
    if has_key "default_configuration" d then Val d
    else rbind (concrete_entries cs) (fun concrete =>
         match sort (map fst concrete) with
         | [] => Exn IndexError
         | n :: _ => Val (set_key "default_configuration" (VStr n) d)
         end).

  (** input.py:2450-2471: the merged configurations, in order. *)
  Fixpoint merged_configs (fuel : nat) (d : dict) (all cs : dict) : result (list (string * dict)) :=
    match cs with
    | [] => Val []
    | (k, v) :: cs' =>
      rbind (is_abstract v) (fun a =>
      if a then merged_configs fuel d all cs'
      else rbind (merge_config fuel all (filter (fun e => config_key (fst e)) d) k []) (fun new =>
           rbind (merged_configs fuel d all cs') (fun r => Val ((k, new) :: r))))
    end.

  (** input.py:2426-2500. *)
  Definition set_up_configurations (fuel : nat) (d0 : dict) : result dict :=
    let d1 := if has_key "configurations" d0 then d0
              else set_key "configurations" (VDict [("Default", VDict [])]) d0 in
    match assoc "configurations" d1 with
    | Some (VDict cs) =>
      rbind (add_default d1 cs) (fun d2 =>
      rbind (merged_configs fuel d2 cs cs) (fun merged =>
      let cs1 := fold_left (fun acc e => set_key (fst e) (VDict (snd e)) acc) merged cs in
      rbind (concrete_entries cs1) (fun cs2 =>
      let d3 := set_key "configurations" (VDict cs2) d2 in
      let d4 := filter (fun e => negb (config_key (fst e))) d3 in
      match assoc "configurations" d4 with
      | Some (VDict cs3) =>
        match find (fun e => match snd e with
                             | VDict cd => existsb (fun k => mem k invalid_configuration_keys) (map fst cd)
                             | _ => false
                             end) cs3 with
        | Some (n, _) => Exn (GypError n)
        | None => Val d4
        end
      | _ => Exn (KeyError "configurations")
      end)))
    | _ => Exn AttributeError
    end.
End Config.
