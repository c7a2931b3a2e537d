(** Model of gyp/pylib/gyp/input.py:2503-2680 (ProcessListFiltersInDict,
    ProcessListFiltersInList).

    Parameters: [eqv] is Python's [==] on values, [compiles p] says whether
    re.compile accepts the pattern, [search p s] is re.search. *)
From Verif Require Export Model_Value.
Local Open Scope string_scope.

Definition filter_char (a : ascii) : bool := Ascii.eqb a "!" || Ascii.eqb a "/".

Section Filters.
  Variable eqv : value -> value -> bool.
  Variable compiles : string -> bool.
  Variable search : string -> string -> bool.

  (** input.py:2534-2569, one key: state is (lists, del_lists). *)
  Definition collect (d : dict) (st : list string * list string) (e : string * value)
    : result (list string * list string) :=
    let '(lists, dels) := st in
    let '(key, v) := e in
    match last_char key with
    | None => Val st
    | Some op =>
      if filter_char op then
        match v with
        | VList _ =>
          let list_key := drop_last key in
          match assoc list_key d with
          | None => Val (lists, (dels ++ [key])%list)
          | Some (VList _) => Val (if mem list_key lists then lists else (lists ++ [list_key])%list, dels)
          | Some _ => Exn (ValueError list_key)
          end
        | _ => Exn (ValueError key)
        end
      else Val st
    end.

  (** input.py:2591-2596. *)
  Fixpoint mark (e : value) (items : list value) (acts : list Z) : list Z :=
    match items, acts with
    | x :: items', a :: acts' => (if eqv e x then 0%Z else a) :: mark e items' acts'
    | _, _ => acts
    end.

  (** [[action, pattern] = regex_item]: a list of two, or (iterating keys) a
      dict of two; a string of two characters unpacks too, but its action is
      then one character, which is rejected. *)
  Definition unpack_pair (v : value) : result (value * value) :=
    match v with
    | VList [a; p] => Val (a, p)
    | VDict [(a, _); (p, _)] => Val (VStr a, VStr p)
    | _ => Exn (ValueError "unpack")
    end.
  Definition regex_action (v : value) : result (Z * string) :=
    rbind (unpack_pair v) (fun ap =>
    match ap with
    | (VStr a, VStr p) =>
      if compiles p then
        if String.eqb a "exclude" then Val (0%Z, p)
        else if String.eqb a "include" then Val (1%Z, p)
        else Exn (ValueError a)
      else Exn (ValueError p)
    | _ => Exn (TypeError "regex item")
    end).

  (** input.py:2624-2631. *)
  Fixpoint apply_regex (av : Z) (p : string) (items : list value) (acts : list Z) : result (list Z) :=
    match items, acts with
    | x :: items', a :: acts' =>
      rbind (if Z.eqb a av then Val a
             else match x with
                  | VStr s => Val (if search p s then av else a)
                  | _ => Exn (TypeError "expected string")
                  end) (fun a' =>
      rbind (apply_regex av p items' acts') (fun r => Val (a' :: r)))
    | _, _ => Val acts
    end.

  (** [del l[i]]. *)
  Fixpoint delete_nth (i : nat) (l : list value) : list value :=
    match i, l with
    | _, [] => []
    | O, _ :: l' => l'
    | S i', x :: l' => x :: delete_nth i' l'
    end.

  (** input.py:2655-2660: indices from the last to the first. *)
  Fixpoint split_loop (n : nat) (acts : list Z) (the_list excluded : list value) : list value * list value :=
    match n with
    | O => (the_list, excluded)
    | S i =>
      if Z.eqb (nth i acts 1%Z) 0 then
        match nth_error the_list i with
        | Some x => split_loop i acts (delete_nth i the_list) (x :: excluded)
        | None => (the_list, excluded)      (* unreachable: the lists are parallel *)
        end
      else split_loop i acts the_list excluded
    end.

  (** input.py:2575-2665, one list key. *)
  Definition filter_list (d : dict) (list_key : string) : result dict :=
    match assoc list_key d with
    | Some (VList the_list) =>
      let acts := repeat (-1)%Z (length the_list) in
      rbind (match assoc (list_key ++ "!") d with
             | Some (VList ex) => Val (fold_left (fun acts e => mark e the_list acts) ex acts, del_key (list_key ++ "!") d)
             | Some _ => Exn (TypeError "not iterable")
             | None => Val (acts, d)
             end) (fun st1 =>
      rbind (match assoc (list_key ++ "/") (snd st1) with
             | Some (VList rx) =>
               rbind (rfold (fun acts item => rbind (regex_action item) (fun ap => apply_regex (fst ap) (snd ap) the_list acts)) rx (fst st1))
                     (fun acts => Val (acts, del_key (list_key ++ "/") (snd st1)))
             | Some _ => Exn (TypeError "not iterable")
             | None => Val st1
             end) (fun st2 =>
      if has_key (list_key ++ "_excluded") (snd st2) then Exn (GypError (list_key ++ "_excluded"))
      else
        let '(kept, excluded) := split_loop (length (fst st2)) (fst st2) the_list [] in
        let d' := set_key list_key (VList kept) (snd st2) in
        Val (match excluded with [] => d' | _ => set_key (list_key ++ "_excluded") (VList excluded) d' end)))
    | Some _ => Exn (TypeError "not a list")
    | None => Exn (KeyError list_key)
    end.

  (** input.py:2503-2665 without the recursion. *)
  Definition filter_dict (d : dict) : result dict :=
    rbind (rfold (collect d) d ([], [])) (fun st =>
    rfold filter_list (fst st) (fold_left (fun d k => del_key k d) (snd st) d)).

  (** With the recursion of 2667-2680. *)
  Fixpoint filter_value (fuel : nat) (v : value) : result value :=
    match fuel with
    | O => Exn NoFuel
    | S fuel' =>
      match v with
      | VDict d =>
        rbind (filter_dict d) (fun d1 =>
        rbind (rmap (fun e => rbind (filter_value fuel' (snd e)) (fun w => Val (fst e, w))) d1) (fun d2 => Val (VDict d2)))
      | VList l => rbind (rmap (filter_value fuel') l) (fun l' => Val (VList l'))
      | _ => Val v
      end
    end.
End Filters.

(** The fuel used: the nesting depth. *)
Fixpoint depth (v : value) : nat :=
  match v with
  | VList l => S ((fix go (l : list value) := match l with [] => 0 | x :: l' => Nat.max (depth x) (go l') end) l)
  | VDict d => S ((fix go (d : list (string * value)) := match d with [] => 0 | (_, x) :: d' => Nat.max (depth x) (go d') end) d)
  | _ => 1
  end.
Definition process_list_filters eqv compiles search (d : dict) : result value :=
  filter_value eqv compiles search (depth (VDict d)) (VDict d).
