(** Model of gyp/pylib/gyp/input.py:56-79 (IsPathSection), 2213-2281
    (MergeLists), 2284-2395 (MergeDicts). *)
From Verif Require Import Str Model_Path.
From Verif Require Export Model_Value.
Local Open Scope string_scope.

(** ** input.py:56-79 [IsPathSection] *)

Definition policy_char (a : ascii) : bool := existsb (Ascii.eqb a) ["="; "+"; "?"; "!"]%char.

(** The while loop at 60-61; the recursion is on the length of the section. *)
Fixpoint strip_policy (fuel : nat) (s : string) : string :=
  match fuel with
  | O => s
  | S fuel' => match last_char s with
               | Some a => if policy_char a then strip_policy fuel' (drop_last s) else s
               | None => s
               end
  end.

(** [s[-n:]]. *)
Definition last_n (n : nat) (s : string) : string := substring (String.length s - n) n s.

Definition underscore : ascii := "_"%char.

Definition is_path_section (path_sections : list string) (section : string) : bool :=
  let section := strip_policy (String.length section) section in
  if mem section path_sections then true
  else if has_char underscore section then
    let tail := last_n 6 section in
    let tail := match last_char tail with
                | Some a => if Ascii.eqb a "s" then drop_last tail else tail
                | None => tail
                end in
    if String.eqb (last_n 5 tail) "_file" || String.eqb (last_n 5 tail) "_path" then true
    else String.eqb (last_n 4 tail) "_dir"
  else false.

(** ** Merging.  [ctx] collects what stays fixed during one merge: realpath,
    the path sections (a global of input.py) and the two file names. *)
Record ctx : Type := mk_ctx {
  c_realpath : string -> string;
  c_path_sections : list string;
  c_to_file : string;
  c_fro_file : string
}.

Definition starts_dash (s : string) : bool :=
  match s with String a _ => Ascii.eqb a "-" | EmptyString => false end.

Definition move_path (c : ctx) (s : string) : string :=
  make_path_relative (c_realpath c) (c_to_file c) (c_fro_file c) s.

(** MakePathRelative applied to an int: fine when the files are the same, else
    the regular expression match raises TypeError (input.py:2193). *)
Definition move_int (c : ctx) (z : Z) : result value :=
  if String.eqb (c_to_file c) (c_fro_file c) then Val (VInt z) else Exn (TypeError "expected string").

(** input.py:2229-2260: the copy of a list item and whether it is a singleton.
    [rec] is the recursive merge of that item. *)
Definition copy_item (c : ctx) (is_paths : bool) (rec : bool -> bool -> value -> result value) (item : value)
  : result (value * bool) :=
  match item with
  | VStr s => Val (VStr (if is_paths then move_path c s else s), negb (starts_dash s))
  | VInt z => rbind (if is_paths then move_int c z else Val (VInt z)) (fun v => Val (v, true))
  | VDict _ => rbind (rec false true (VDict [])) (fun v => Val (v, false))
  | VList _ => rbind (rec false true (VList [])) (fun v => Val (v, false))
  | VOther cl => Exn (TypeError cl)
  end.

Definition is_hashable (v : value) : bool :=
  match v with VList _ | VDict _ => false | _ => true end.

(** [x in s] on the set of hashables (x is a str or int whenever it matters). *)
Definition in_values (x : value) (s : list value) : bool := existsb (scalar_eqb x) s.

Fixpoint insert_nth (n : nat) (x : value) (l : list value) : list value :=
  match n, l with
  | S n', y :: l' => y :: insert_nth n' x l'
  | _, _ => x :: l
  end.

(** State of MergeLists: to, hashable_to_set, prepend_index. *)
Definition list_state : Type := list value * list value * nat.

(** input.py:2262-2281. *)
Definition add_item (append : bool) (st : list_state) (item : value * bool) : list_state :=
  let '(to, s, n) := st in
  let '(to_item, singleton) := item in
  if append then
    if negb singleton || negb (if is_hashable to_item then in_values to_item s else in_values to_item to)
    then ((to ++ [to_item])%list, if is_hashable to_item then to_item :: s else s, n)
    else st
  else
    let to' := if singleton then filter (fun x => negb (scalar_eqb to_item x)) to else to in
    (insert_nth n to_item to', if is_hashable to_item then to_item :: s else s, S n).

(** The policy of a key for a list value (input.py:2331-2347): the character,
    the base key, the append flag, the incompatible keys. *)
Inductive policy : Type := Replace | Prepend | SetIfAbsent | Append.
Definition list_policy (k : string) : option (policy * string) :=
  match last_char k with
  | None => None                            (* k[-1] on "": IndexError *)
  | Some a =>
    Some (if Ascii.eqb a "=" then (Replace, drop_last k)
          else if Ascii.eqb a "+" then (Prepend, drop_last k)
          else if Ascii.eqb a "?" then (SetIfAbsent, drop_last k)
          else (Append, k))
  end.
Definition incompatible_keys (p : policy) (base : string) : list string :=
  match p with
  | Replace => [base; base ++ "?"]
  | Prepend => [base ++ "="; base ++ "?"]
  | SetIfAbsent => [base; base ++ "="; base ++ "+"]
  | Append => [base ++ "="; base ++ "?"]
  end.

Definition class_of (v : value) : string :=
  match v with VStr _ => "str" | VInt _ => "int" | VList _ => "list" | VDict _ => "dict" | VOther c => c end.

(** input.py:2293-2310: the type check against an existing key.  (For a value
    of another type both branches end in a TypeError.) *)
Definition bad_merge (v old : value) : bool :=
  match v, old with
  | (VStr _ | VInt _), (VStr _ | VInt _) => false
  | VDict _, VDict _ => false
  | VList _, VList _ => false
  | _, _ => true
  end.

(** One iteration of the loop of MergeDicts (2286-2395).  [fro_keys] are the
    keys of the dict merged in, [rec] the recursive merge of [v]. *)
Definition merge_entry (c : ctx) (fro_keys : list string) (k : string) (v : value)
           (rec : bool -> bool -> value -> result value) (to : dict) : result dict :=
  let check := match assoc k to with Some old => bad_merge v old | None => false end in
  if check then Exn (TypeError k)
  else
    match v with
    | VStr s => Val (set_key k (VStr (if is_path_section (c_path_sections c) k then move_path c s else s)) to)
    | VInt z => rbind (if is_path_section (c_path_sections c) k then move_int c z else Val (VInt z))
                      (fun w => Val (set_key k w to))
    | VDict _ =>
      let old := match assoc k to with Some o => o | None => VDict [] end in
      rbind (rec false true old) (fun w => Val (set_key k w to))
    | VList _ =>
      match list_policy k with
      | None => Exn IndexError
      | Some (p, base) =>
        let to := match p with Replace => set_key base (VList []) to | _ => to end in
        match find (fun i => mem i fro_keys) (incompatible_keys p base) with
        | Some i => Exn (IncompatiblePolicies k i)
        | None =>
          match assoc base to with
          | Some old =>
            match p, old with
            | SetIfAbsent, _ => Val to
            | _, VList _ =>
              rbind (rec (is_path_section (c_path_sections c) base) (match p with Prepend => false | _ => true end) old)
                    (fun w => Val (set_key base w to))
            | _, _ => Exn (TypeError base)
            end
          | None =>
            rbind (rec (is_path_section (c_path_sections c) base) (match p with Prepend => false | _ => true end) (VList []))
                  (fun w => Val (set_key base w to))
          end
        end
      end
    | VOther cl => Exn (TypeError cl)
    end.

(** MergeLists and MergeDicts, by recursion on what is merged in.  Merging a
    dict ignores the two flags. *)
Fixpoint merge (c : ctx) (fro : value) (is_paths append : bool) (to : value) {struct fro} : result value :=
  match fro with
  | VDict fd =>
    match to with
    | VDict td =>
      rbind ((fix go (es : list (string * value)) (td : dict) {struct es} : result dict :=
                match es with
                | [] => Val td
                | (k, v) :: es' => rbind (merge_entry c (map fst fd) k v (merge c v) td) (go es')
                end) fd td)
            (fun td' => Val (VDict td'))
    | _ => Exn (TypeError "not a dict")
    end
  | VList fl =>
    match to with
    | VList tl =>
      rbind ((fix go (items : list value) (st : list_state) {struct items} : result list_state :=
                match items with
                | [] => Val st
                | item :: items' =>
                  rbind (copy_item c is_paths (merge c item) item) (fun ci => go items' (add_item append st ci))
                end) fl (tl, filter is_hashable tl, 0))
            (fun st => Val (VList (fst (fst st))))
    | _ => Exn (TypeError "not a list")
    end
  | _ => Exn (TypeError "not a container")
  end.

(** The two entry points. *)
Definition merge_dicts (c : ctx) (to fro : dict) : result dict :=
  rbind (merge c (VDict fro) false true (VDict to))
        (fun v => match v with VDict d => Val d | _ => Exn (TypeError "impossible") end).
Definition merge_lists (c : ctx) (is_paths append : bool) (to fro : list value) : result (list value) :=
  rbind (merge c (VList fro) is_paths append (VList to))
        (fun v => match v with VList l => Val l | _ => Exn (TypeError "impossible") end).
