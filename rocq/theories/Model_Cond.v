(** Model of gyp/pylib/gyp/input.py:1116-1439: conditions, the variables
    section, and the phase pass over a build file (EvalCondition,
    EvalSingleCondition, ProcessConditionsInDict, LoadAutomaticVariablesFromDict,
    LoadVariablesFromVariablesDict, ProcessVariablesAndConditionsInDict and
    ...InList).

    Parameters: [expand vars v] is ExpandVariables(v, phase, vars, build_file)
    for the fixed phase and file, [eval vars e] is the truth value of the
    compiled expression [e] in [vars] (or its error).  Both are arbitrary.
    Simplifications: values are immutable here, so a list that is reachable
    both as an automatic variable and as an entry of the dict is seen in
    [vars] as it was when the variables were (re)loaded; the cache of compiled
    conditions and the wording of errors are left out. *)
From Verif Require Export Model_Value Model_Merge.
Local Open Scope string_scope.

Inductive phase := Early | Late | LateLate.

(** input.py:1221-1228. *)
Definition conditions_key (p : phase) : option string :=
  match p with Early => Some "conditions" | Late => Some "target_conditions" | LateLate => None end.

Section Cond.
  Variable expand : dict -> value -> result value.
  Variable eval : dict -> value -> result bool.

  (** input.py:1161-1201 (which of the two dicts is returned). *)
  Definition eval_single (vars : dict) (e : value) (t : dict) (f : option dict) : result (option dict) :=
    rbind (expand vars e) (fun x =>
    match x with
    | VStr _ | VInt _ => rbind (eval vars x) (fun b => Val (if b then Some t else f))
    | _ => Exn (ValueError "permits str and int only")
    end).

  (** The loop at 1132-1156; [res] is [result]. *)
  Fixpoint eval_pairs (vars : dict) (l : list value) (res : option dict) {struct l} : result (option dict) :=
    match l with
    | [] => Val res
    | [_] => Exn IndexError
    | e :: VDict t :: rest =>
      let here f := match res with None => eval_single vars e t f | Some _ => Val res end in
      match rest with
      | VDict f :: [] => here (Some f)
      | VDict f :: _ => Exn (GypError "unexpected trailing items")
      | _ => rbind (here None) (fun res' => eval_pairs vars rest res')
      end
    | _ :: _ :: _ => Exn (GypError "must be followed by a dictionary")
    end.

  (** input.py:1116-1158. *)
  Definition eval_condition (vars : dict) (condition : value) : result (option dict) :=
    match condition with
    | VList [] => Exn IndexError
    | VList [VStr _] => Exn (GypError "must be at least length 2")
    | VList [_] => Exn (TypeError "str + non-str")
    | VList l => eval_pairs vars l None
    | _ => Exn (GypError "must be a list")
    end.

  (** input.py:1252-1257. *)
  Definition variable_type (v : value) : bool :=
    match v with VStr _ | VInt _ | VList _ => true | _ => false end.
  Definition load_automatic (vars d : dict) : dict :=
    fold_left (fun vars e => if variable_type (snd e) then set_key ("_" ++ fst e) (snd e) vars else vars) d vars.

  (** input.py:1260-1285, one entry of the variables section. *)
  Definition load_variable (d : dict) (d_key : option string) (vars : dict) (e : string * value) : dict :=
    let '(key, v) := e in
    if variable_type v then
      match last_char key with
      | Some "%"%char =>
        let name := drop_last key in
        if has_key name vars then vars
        else set_key name (match d_key with
                           | Some "variables" => match assoc name d with Some w => w | None => v end
                           | _ => v
                           end) vars
      | _ => set_key key v vars
      end
    else vars.
  Definition load_variables (vars d : dict) (d_key : option string) : result dict :=
    match assoc "variables" d with
    | None => Val vars
    | Some (VDict vd) => Val (fold_left (load_variable d d_key) vd vars)
    | Some _ => Exn AttributeError
    end.
  Definition reload (vars_in d : dict) (d_key : option string) : result dict :=
    load_variables (load_automatic vars_in d) d d_key.

  (** input.py:1328-1341: expansion of the string values. *)
  Definition expand_entry (vars : dict) (e : string * value) : result (string * value) :=
    let '(key, v) := e in
    match v with
    | VStr _ =>
      if String.eqb key "variables" then Val e
      else rbind (expand vars v) (fun x =>
           match x with
           | VStr _ | VInt _ => Val (key, x)
           | _ => Exn (ValueError key)
           end)
    | _ => Val e
    end.

  Variable c : ctx.
  Variable ph : phase.

  (** input.py:1204-1249; [rec] processes the chosen dict. *)
  Definition process_conditions (rec : dict -> dict -> result dict) (vars d : dict) : result dict :=
    match conditions_key ph with
    | None => Val d
    | Some ck =>
      match assoc ck d with
      | None => Val d
      | Some (VList conds) =>
        rfold (fun d cond =>
          rbind (eval_condition vars cond) (fun o =>
          match o with
          | None => Val d
          | Some md => rbind (rec vars md) (fun md' => merge_dicts c d md')
          end)) conds (del_key ck d)
      | Some (VStr "") | Some (VDict []) => Val (del_key ck d)         (* nothing to iterate over *)
      | Some (VStr _) | Some (VDict _) => Exn (GypError "must be a list")  (* iterating characters or keys *)
      | Some _ => Exn (TypeError "not iterable")
      end
    end.

  (** input.py:1405-1439, one item; the result replaces it. *)
  Definition process_item (pd : dict -> result dict) (pl : list value -> result (list value)) (vars : dict) (item : value)
    : result (list value) :=
    match item with
    | VDict d => rbind (pd d) (fun d' => Val [VDict d'])
    | VList l => rbind (pl l) (fun l' => Val [VList l'])
    | VStr _ => rbind (expand vars item) (fun x =>
                match x with
                | VStr _ | VInt _ => Val [x]
                | VList xs => Val xs
                | _ => Exn (TypeError "str + int")        (* building the message fails *)
                end)
    | VInt _ => Val [item]
    | VOther cl => Exn (TypeError cl)
    end.

  (** input.py:1378-1402, one entry. *)
  Definition process_entry (pd : string -> dict -> result dict) (pl : list value -> result (list value)) (e : string * value)
    : result (string * value) :=
    let '(key, v) := e in
    if String.eqb key "variables" then Val e
    else match v with
         | VStr _ | VInt _ => Val e
         | VDict d => rbind (pd key d) (fun d' => Val (key, VDict d'))
         | VList l => rbind (pl l) (fun l' => Val (key, VList l'))
         | VOther cl => Exn (TypeError cl)
         end.

  (** input.py:1288-1439.  [fuel] bounds the recursion depth. *)
  Fixpoint process_dict (fuel : nat) (d_key : option string) (vars_in d : dict) {struct fuel} : result dict :=
    match fuel with
    | O => Exn NoFuel
    | S fuel' =>
      let auto := load_automatic vars_in d in
      rbind (match assoc "variables" d with
             | None => Val (auto, d)
             | Some (VDict vd) =>
               let vars := fold_left (fun vars e => set_key (fst e) (snd e) vars) vd auto in
               rbind (process_dict fuel' (Some "variables") vars vd) (fun vd' =>
               Val (vars, set_key "variables" (VDict vd') d))
             | Some _ => Exn AttributeError
             end) (fun st =>
      let '(vars, d1) := st in
      rbind (load_variables vars d1 d_key) (fun vars1 =>
      rbind (rmap (expand_entry vars1) d1) (fun d2 =>
      rbind (reload vars_in d2 d_key) (fun vars2 =>
      rbind (process_conditions (process_dict fuel' None) vars2 d2) (fun d3 =>
      rbind (reload vars_in d3 d_key) (fun vars3 =>
      rmap (process_entry (fun key => process_dict fuel' (Some key) vars3) (process_list fuel' vars3)) d3))))))
    end
  with process_list (fuel : nat) (vars : dict) (l : list value) {struct fuel} : result (list value) :=
    match fuel with
    | O => Exn NoFuel
    | S fuel' =>
      rbind (rmap (process_item (process_dict fuel' None vars) (process_list fuel' vars) vars) l)
            (fun ls => Val (concat ls))
    end.
End Cond.
