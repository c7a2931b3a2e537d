(** Model of gyp/pylib/gyp/input.py:323-356 (ProcessToolsetsInDict).
    Simplifications: gyp.simple_copy.deepcopy is the identity on values. *)
From Verif Require Export Model_Value Model_Filter.
Local Open Scope string_scope.

(** The characters of a string, as strings (iterating over a str). *)
Fixpoint characters (s : string) : list value :=
  match s with
  | EmptyString => []
  | String a s' => VStr (String a "") :: characters s'
  end.

Section Toolsets.
  Variable multiple_toolsets : bool.        (* the global of input.py:129 *)

  (** input.py:329-349: what one target of the list is replaced by. *)
  Definition expand_target (target : value) : result (list value) :=
    match target with
    | VDict t =>
      if has_key "toolset" t && negb (has_key "toolsets" t) then Val [target]
      else
        let toolsets := if multiple_toolsets
                        then match assoc "toolsets" t with Some v => v | None => VList [VStr "target"] end
                        else VList [VStr "target"] in
        let t' := del_key "toolsets" t in
        let copies (l : list value) :=
          match l with
          | [] => []
          | first :: others => (map (fun b => VDict (set_key "toolset" b t')) others ++ [VDict (set_key "toolset" first t')])%list
          end in
        match toolsets with
        | VList l => Val (copies l)
        | VStr s => Val (copies (characters s))
        | VDict [] => Val []
        | VDict _ => Exn (TypeError "unhashable type: slice")
        | VInt _ | VOther _ => Exn (TypeError "object has no len()")
        end
    | _ => Exn (TypeError "target is not a dict")
    end.

  (** input.py:325-356. *)
  Fixpoint process_toolsets (fuel : nat) (data : dict) : result dict :=
    match fuel with
    | O => Exn NoFuel
    | S fuel' =>
      rbind (match assoc "targets" data with
             | None => Val data
             | Some (VList l) => rbind (rmap expand_target l) (fun ls => Val (set_key "targets" (VList (concat ls)) data))
             | Some _ => Exn (TypeError "targets is not a list")
             end) (fun data1 =>
      match assoc "conditions" data1 with
      | None => Val data1
      | Some (VList conds) =>
        rbind (rmap (fun cond =>
          match cond with
          | VList (c0 :: branches) =>
            rbind (rmap (fun b => match b with
                                  | VDict bd => rbind (process_toolsets fuel' bd) (fun bd' => Val (VDict bd'))
                                  | _ => Val b
                                  end) branches)
                  (fun branches' => Val (VList (c0 :: branches')))
          | _ => Val cond
          end) conds) (fun conds' => Val (set_key "conditions" (VList conds') data1))
      | Some (VStr _) | Some (VDict _) => Val data1         (* iterating characters or keys: nothing to do *)
      | Some _ => Exn (TypeError "not iterable")
      end)
    end.
End Toolsets.
