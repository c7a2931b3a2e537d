(** Model of gyp/pylib/gyp/input.py:717-740 (the expansion syntax) and 759-1108
    (ExpandVariables).

    Parameters: [symbol] is the character of the phase; [command] is what a
    command gives (run, or from the cache, see Model_Commands); [list_file] is
    the path of the file written for "<|(...)", or the error; [filters] is
    ProcessListFiltersInDict on a copy of the variables; [repr] is str() of a
    value that is neither a string nor an int; [shlex] is shlex.split.
    Simplifications, as in Model_Cond: values are immutable, so the expansion of
    the items of a list variable is not stored back into the variables; [fuel]
    bounds the recursion depth (Python has its own bound, a RecursionError).
    Bytes do not occur among values. *)
From Coq Require Import ZArith DecimalString.
From Verif Require Import Lib Str Model_Value Model_Text Model_Quote Model_Cond.
Local Open Scope string_scope.

(** s[i:j] of Python *)
Definition clamp (n i : Z) : Z := (if i <? 0 then Z.max 0 (i + n) else Z.min i n)%Z.
Definition py_slice (s : string) (i j : Z) : string :=
  let n := Z.of_nat (String.length s) in
  let a := clamp n i in let b := clamp n j in
  substring (Z.to_nat a) (Z.to_nat (b - a)) s.
Definition py_from (s : string) (i : Z) : string := py_slice s i (Z.of_nat (String.length s)).

(** ** The regular expressions, input.py:717-740 *)

(** input.py:761-771: the character of a phase *)
Definition phase_char (ph : phase) : ascii := match ph with Early => "<" | Late => ">" | LateLate => "^" end%char.
(** One match: where it starts, "!" "@" "|" in its type, the command string,
    whether the group is_array is not empty. *)
Record found := { at_ : nat; bang : bool; star : bool; bar : bool; cmd : option string; array : bool }.

(** [-a-zA-Z0-9_.] *)
Definition cmd_char (a : ascii) : bool :=
  in_range "a" "z" a || in_range "A" "Z" a || in_range "0" "9" a || Ascii.eqb a "_" || Ascii.eqb a "." || Ascii.eqb a "-".
Fixpoint span (f : ascii -> bool) (s : string) : string * string :=
  match s with
  | String a s' => if f a then let '(x, y) := span f s' in (String a x, y) else ("", s)
  | EmptyString => ("", "")
  end.
(** \(?P<content>.*?)(\]?)\): the length up to the first closing parenthesis,
    none if a newline comes first. *)
Fixpoint to_close (s : string) : option nat :=
  match s with
  | EmptyString => None
  | String a s' => if Ascii.eqb a ")" then Some 1 else if Ascii.eqb a "010" then None else option_map S (to_close s')
  end.
(** The type, without the symbol. *)
Definition type_of (s : string) : bool * bool * bool * string :=
  match s with
  | String "|" s' => (false, false, true, s')
  | String "!" (String "@" s') => (true, true, false, s')
  | String "!" s' => (true, false, false, s')
  | String "@" s' => (false, true, false, s')
  | _ => (false, false, false, s)
  end.
(** A match at the start of [s], with its length. *)
Definition match_here (symbol : ascii) (i : nat) (s : string) : option (found * nat) :=
  match s with
  | EmptyString => None
  | String a s1 =>
    if Ascii.eqb a symbol then
      let '(b, st, br, s2) := type_of s1 in
      let '(c, s3) := span cmd_char s2 in
      match s3 with
      | String p s4 =>
        if Ascii.eqb p "(" then
          let '(w, s5) := span is_space s4 in
          let '(br2, s6) := match s5 with String "[" s6 => (true, s6) | _ => (false, s5) end in
          match to_close s6 with
          | Some n => Some ({| at_ := i; bang := b; star := st; bar := br; cmd := match c with EmptyString => None | _ => Some c end; array := br2 || negb (String.eqb w "") |},
                            String.length s - String.length s6 + n)
          | None => None
          end
        else None
      | EmptyString => None
      end
    else None
  end.
(** variable_re.finditer: from position [i], the first [skip] characters of [s]
    being part of the match before. *)
Fixpoint find_from (symbol : ascii) (skip i : nat) (s : string) : list found :=
  match s with
  | EmptyString => []
  | String _ s' =>
    match skip with
    | S k => find_from symbol k (S i) s'
    | O => match match_here symbol i s with
           | Some (m, n) => m :: find_from symbol (n - 1) (S i) s'
           | None => find_from symbol 0 (S i) s'
           end
    end
  end.

(** int(s) of a canonical integer *)
Definition int_of (s : string) : Z := match NilZero.int_of_string s with Some d => Z.of_int d | None => 0%Z end.
(** input.py:1100-1106 for one string *)
Definition as_value (s : string) : value := if is_str_canonical_int s then VInt (int_of s) else VStr s.
Definition canonical (v : value) : value := match v with VStr s => as_value s | _ => v end.
(** s.split(' ') *)
Fixpoint split_space (s : string) : list string :=
  match s with
  | EmptyString => [""]
  | String a s' => if Ascii.eqb a " " then "" :: split_space s' else match split_space s' with [] => [String a ""] | l :: ls => String a l :: ls end
  end.

Section Expand.
Variable symbol : ascii.
Variable command : option string -> bool -> string -> result string.
Variable list_file : list string -> result string.
Variable filters : dict -> result dict.
Variable repr : value -> string.
Variable shlex : string -> result (list string).
Variable eval : dict -> value -> result bool.
Variable c : Model_Merge.ctx.
Variable ph : phase.

(** str(v) *)
Definition py_str (v : value) : string := match v with VStr s => s | VInt z => int_str z | _ => repr v end.
Definition class_name (v : value) : string := match v with VStr _ => "str" | VInt _ => "int" | VList _ => "list" | VDict _ => "dict" | VOther k => k end.
Definition is_scalar (v : value) : bool := match v with VStr _ | VInt _ => true | _ => false end.

(** input.py:1036-1047 for the items: a slash at the end of the name allows
    anything in the list. *)
Definition check_items (contents : string) (l : list value) : result unit :=
  match l, last_char contents with
  | [], _ => Val tt
  | _, None => Exn IndexError
  | _, Some e =>
    if Ascii.eqb e "/" || forallb is_scalar l then Val tt
    else Exn (GypError ("Variable " ++ contents ++ " must expand to a string or list of strings"))
  end.

(** The value that replaces a reference, input.py:838-1060.  [rec] is the
    recursive call, [recl] is ProcessVariablesAndConditionsInList. *)
Definition replacement_of (rec : dict -> value -> result value) (recl : list value -> result (list value)) (vars : dict) (m : found) (contents : string) : result value :=
  rbind (if bar m then rbind (filters vars) (fun vars' => rec vars' (VStr contents)) else rec vars (VStr contents)) (fun v =>
  match v with
  | VStr x =>
    let contents := strip x in
    rbind (if bar m then rbind (list_file (split_space contents)) (fun p => Val (VStr p))
           else if bang m then rbind (command (cmd m) (array m) contents) (fun p => Val (VStr p))
           else match assoc contents vars with
                | Some v => Val v
                | None =>
                  match last_char contents with
                  | None => Exn IndexError
                  | Some e => if Ascii.eqb e "!" || Ascii.eqb e "/" then Val (VList []) else Exn (GypError ("Undefined variable " ++ contents))
                  end
                end) (fun v =>
    match v with
    | VList l => rbind (check_items contents l) (fun _ => rbind (recl l) (fun l' => Val (VList l')))
    | VStr _ | VInt _ => Val v
    | _ => Exn (GypError ("Variable " ++ contents ++ " must expand to a string or list of strings"))
    end)
  | _ => Exn AttributeError          (* int and list have no strip() *)
  end).

(** The loop at 794-1084 over the matches, last one first; a string, or a list
    after an "@" expansion. *)
Fixpoint replace_all (rec : dict -> value -> result value) (recl : list value -> result (list value)) (vars : dict) (ms : list found) (s : string) : result value :=
  match ms with
  | [] => Val (VStr s)
  | m :: ms' =>
    let start := Z.of_nat (at_ m) in
    let '(c_start, c_end) := find_enclosing_bracket_group (py_from s start) in
    let stop := (start + c_end)%Z in
    let whole := py_slice s start stop in
    let contents := py_slice s (start + c_start + 1)%Z (stop - 1)%Z in
    rbind (replacement_of rec recl vars m contents) (fun v =>
    if star m && String.eqb s whole then
      rbind (match v with
             | VList l => Val l
             | _ => rbind (shlex (py_str v)) (fun ws => Val (map VStr ws))
             end) (fun l =>
      match ms' with [] => Val (VList l) | _ => Exn (TypeError "list indices") end)
    else
      let text := match v with VList l => encode_posix_shell_list (map py_str l) | _ => py_str v end in
      replace_all rec recl vars ms' (py_slice s 0 start ++ text ++ py_from s stop))
  end.

(** ExpandVariables *)
Fixpoint expand (fuel : nat) (vars : dict) (input : value) {struct fuel} : result value :=
  match fuel with
  | O => Exn NoFuel
  | S fuel' =>
    let s := py_str input in
    if is_str_canonical_int s then Val (VInt (int_of s))
    else if negb (has_char symbol s) then Val (VStr s)
    else match find_from symbol 0 0 s with
         | [] => Val (VStr s)
         | ms =>
           rbind (replace_all (expand fuel') (fun l => process_list (expand fuel') eval c ph fuel' vars l) vars (rev ms) s) (fun output =>
           rbind (match output with
                  | VStr o =>
                    match input with
                    | VStr i => if String.eqb o i then Val output else expand fuel' vars output
                    | _ => expand fuel' vars output
                    end
                  | VList (VList _ :: _) => Val output
                  | VList l => rbind (rmap (expand fuel' vars) l) (fun l' => Val (VList l'))
                  | _ => Val output
                  end) (fun output =>
           Val (match output with VList l => VList (map canonical l) | v => canonical v end)))
         end
  end.
End Expand.

(** input.py:759-776: the symbol goes with the phase *)
Definition expand_variables command list_file filters repr shlex eval c (ph : phase) : nat -> dict -> value -> result value :=
  expand (phase_char ph) command list_file filters repr shlex eval c ph.
