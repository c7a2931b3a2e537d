(** JSON.stringify, JSON.parse, and the reading of a Python literal by eval
    (input.py:236-243), as far as build files written by node-gyp need them: used
    by lib/create-config-gypi.js, lib/build.js and gyp/pylib/gyp/input.py.

    The languages' own readers are modelled, not code of the repository, each as
    a scanner followed by a push-down automaton.  Simplifications: characters are
    those up to U+00FF; numbers are integers; of Python's literals there are
    strings with the usual escapes (no prefixes, no triple quotes, no octal and
    named characters), integers, lists, dicts, True, False and None, and comments.
    A text outside of that is not read ([None]), like one with a syntax error. *)
From Coq Require Import ZArith.
From Verif Require Import Lib Str Model_Value.
From Verif Require Model_Text Model_Expand.
Local Open Scope string_scope.

Inductive json :=
| JNull
| JBool (b : bool)
| JNum (z : Z)
| JStr (s : string)
| JArr (l : list json)
| JObj (d : list (string * json)).

(** ** JSON.stringify(value, null, 2) *)

Definition lf : ascii := "010".
Definition nl : string := String lf "".
Definition quote : ascii := """".
Definition hex_digit (n : N) : ascii := ascii_of_N (if N.ltb n 10 then 48 + n else 87 + n).
Definition escape_char (a : ascii) : string :=
  let n := N_of_ascii a in
  if N.eqb n 34 then String "\" (String a "") else if N.eqb n 92 then String "\" (String a "")
  else if N.eqb n 8 then "\b" else if N.eqb n 9 then "\t" else if N.eqb n 10 then "\n" else if N.eqb n 12 then "\f" else if N.eqb n 13 then "\r"
  else if N.ltb n 32 then "\u00" ++ String (hex_digit (N.div n 16)) (String (hex_digit (N.modulo n 16)) "") else String a "".
Fixpoint escape (s : string) : string := match s with EmptyString => "" | String a s' => escape_char a ++ escape s' end.
Definition quoted (s : string) : string := String quote (escape s ++ String quote "").
Fixpoint spaces (n : nat) : string := match n with O => "" | S n' => String " " (spaces n') end.
(** [n] is the indentation of the value. *)
Fixpoint stringify (n : nat) (v : json) : string :=
  match v with
  | JNull => "null"
  | JBool b => if b then "true" else "false"
  | JNum z => Model_Text.int_str z
  | JStr s => quoted s
  | JArr [] => "[]"
  | JArr (x :: l) =>
    "[" ++ nl ++ spaces (2 + n) ++ stringify (2 + n) x ++
    (fix go (l : list json) : string := match l with [] => "" | y :: l' => "," ++ nl ++ spaces (2 + n) ++ stringify (2 + n) y ++ go l' end) l ++ nl ++ spaces n ++ "]"
  | JObj [] => "{}"
  | JObj ((k, x) :: d) =>
    "{" ++ nl ++ spaces (2 + n) ++ quoted k ++ ": " ++ stringify (2 + n) x ++
    (fix go (d : list (string * json)) : string := match d with [] => "" | (k, y) :: d' => "," ++ nl ++ spaces (2 + n) ++ quoted k ++ ": " ++ stringify (2 + n) y ++ go d' end) d ++ nl ++ spaces n ++ "}"
  end.

(** ** Scanning *)

Inductive language := Json | Python.
Inductive tok := TPunct (a : ascii) | TStr (s : string) | TNum (z : Z) | TWord (s : string).
(** Where the scanner is: between tokens, in a comment, a string with its quote
    and what has been read of it, after a backslash, in a \u with the digits to
    come and the value so far, in a number, in a word. *)
Inductive scan := Out | Comment | InStr (q : ascii) (acc : string) | Esc (q : ascii) (acc : string) | Hex (q : ascii) (acc : string) (more : nat) (v : N) | InNum (acc : string) | InWord (acc : string).

Definition is_white (lang : language) (a : ascii) : bool :=
  let n := N_of_ascii a in N.eqb n 32 || N.eqb n 9 || N.eqb n 10 || N.eqb n 13 || (match lang with Python => N.eqb n 12 | Json => false end).
Definition is_punct (a : ascii) : bool := existsb (Ascii.eqb a) ["{"; "}"; "["; "]"; ","; ":"]%char.
Definition is_quote (lang : language) (a : ascii) : bool := Ascii.eqb a quote || (match lang with Python => Ascii.eqb a "'" | Json => false end).
Definition is_number_char (a : ascii) : bool := Model_Text.is_digit a || existsb (Ascii.eqb a) ["-"; "+"; "."; "e"; "E"]%char.
Definition is_letter (a : ascii) : bool := let n := N_of_ascii a in (N.leb 65 n && N.leb n 90) || (N.leb 97 n && N.leb n 122) || N.eqb n 95.
Definition number (s : string) : option Z := if Model_Text.is_str_canonical_int s then Some (Model_Expand.int_of s) else None.
Definition char (n : N) : string := String (ascii_of_N n) "".
Definition hex_value (a : ascii) : option N :=
  let n := N_of_ascii a in
  if N.leb 48 n && N.leb n 57 then Some (n - 48)%N else if N.leb 97 n && N.leb n 102 then Some (n - 87)%N else if N.leb 65 n && N.leb n 70 then Some (n - 55)%N else None.
(** What a backslash and a character stand for. *)
Definition simple_escape (lang : language) (a : ascii) : option string :=
  match a with
  | "n" => Some (char 10) | "t" => Some (char 9) | "r" => Some (char 13) | "b" => Some (char 8) | "f" => Some (char 12) | "\" => Some (char 92)
  | """" => Some (String quote "")
  | "/" => match lang with Json => Some (char 47) | Python => None end
  | "'" => match lang with Python => Some (char 39) | Json => None end
  | "a" => match lang with Python => Some (char 7) | Json => None end
  | "v" => match lang with Python => Some (char 11) | Json => None end
  | _ => None
  end%char.

(** A character between tokens. *)
Definition start (lang : language) (a : ascii) : option (list tok * scan) :=
  if is_white lang a then Some ([], Out)
  else if is_punct a then Some ([TPunct a], Out)
  else if is_quote lang a then Some ([], InStr a "")
  else if Model_Text.is_digit a || Ascii.eqb a "-" then Some ([], InNum (String a ""))
  else if is_letter a then Some ([], InWord (String a ""))
  else match lang with Python => if Ascii.eqb a "#" then Some ([], Comment) else None | Json => None end.
Definition step (lang : language) (st : scan) (a : ascii) : option (list tok * scan) :=
  match st with
  | Out => start lang a
  | Comment => Some ([], if Ascii.eqb a lf then Out else Comment)
  | InStr q acc =>
    if Ascii.eqb a q then Some ([TStr acc], Out)
    else if Ascii.eqb a "\" then Some ([], Esc q acc)
    else if match lang with Json => N.ltb (N_of_ascii a) 32 | Python => Ascii.eqb a lf || Ascii.eqb a "013" || Ascii.eqb a "000" end then None
    else Some ([], InStr q (acc ++ String a ""))
  | Esc q acc => if Ascii.eqb a "u" then Some ([], Hex q acc 4 0) else match simple_escape lang a with Some t => Some ([], InStr q (acc ++ t)) | None => None end
  | Hex q acc more v =>
    match hex_value a with
    | None => None
    | Some d =>
      let v' := (16 * v + d)%N in
      match more with
      | S (S m) => Some ([], Hex q acc (S m) v')
      | _ => if N.ltb v' 256 then Some ([], InStr q (acc ++ char v')) else None
      end
    end
  | InNum acc =>
    if is_number_char a then Some ([], InNum (acc ++ String a ""))
    else match number acc, start lang a with Some z, Some (ts, st') => Some (TNum z :: ts, st') | _, _ => None end
  | InWord acc =>
    if is_letter a || Model_Text.is_digit a then Some ([], InWord (acc ++ String a ""))
    else match start lang a with Some (ts, st') => Some (TWord acc :: ts, st') | None => None end
  end.
Fixpoint lex (lang : language) (st : scan) (s : string) : option (list tok) :=
  match s with
  | EmptyString =>
    match st with
    | Out | Comment => Some []
    | InNum acc => option_map (fun z => [TNum z]) (number acc)
    | InWord acc => Some [TWord acc]
    | _ => None
    end
  | String a s' =>
    match step lang st a with
    | Some (ts, st') => option_map (app ts) (lex lang st' s')
    | None => None
    end
  end.

(** ** Parsing *)

(** An open bracket: the elements before, last first, or the entries before and
    the key. *)
Inductive frame := FArr (l : list json) | FObj (d : list (string * json)) (k : string).
(** What is expected: a value (or, at [closing], the closing bracket), a key, a
    colon, or what can follow a value. *)
Inductive state := WantValue (closing : bool) (stk : list frame) | WantKey (closing : bool) (d : list (string * json)) (stk : list frame)
  | WantColon (k : string) (d : list (string * json)) (stk : list frame) | After (v : json) (stk : list frame).
Definition word_value (lang : language) (s : string) : option json :=
  match lang with
  | Json => if String.eqb s "true" then Some (JBool true) else if String.eqb s "false" then Some (JBool false) else if String.eqb s "null" then Some JNull else None
  | Python => if String.eqb s "True" then Some (JBool true) else if String.eqb s "False" then Some (JBool false) else if String.eqb s "None" then Some JNull else None
  end.
(** A comma may come before the closing bracket. *)
Definition trailing (lang : language) : bool := match lang with Json => false | Python => true end.
Definition parse_step (lang : language) (st : state) (t : tok) : option state :=
  match st, t with
  | WantValue _ stk, TStr s => Some (After (JStr s) stk)
  | WantValue _ stk, TNum z => Some (After (JNum z) stk)
  | WantValue _ stk, TWord w => option_map (fun v => After v stk) (word_value lang w)
  | WantValue _ stk, TPunct "[" => Some (WantValue true (FArr [] :: stk))
  | WantValue _ stk, TPunct "{" => Some (WantKey true [] stk)
  | WantValue true (FArr l :: stk), TPunct "]" => Some (After (JArr (rev l)) stk)
  | WantKey _ d stk, TStr k => Some (WantColon k d stk)
  | WantKey true d stk, TPunct "}" => Some (After (JObj d) stk)
  | WantColon k d stk, TPunct ":" => Some (WantValue false (FObj d k :: stk))
  | After v (FArr l :: stk), TPunct "," => Some (WantValue (trailing lang) (FArr (v :: l) :: stk))
  | After v (FArr l :: stk), TPunct "]" => Some (After (JArr (rev (v :: l))) stk)
  | After v (FObj d k :: stk), TPunct "," => Some (WantKey (trailing lang) (set_key k v d) stk)
  | After v (FObj d k :: stk), TPunct "}" => Some (After (JObj (set_key k v d)) stk)
  (* adjacent strings *)
  | After (JStr s) stk, TStr s' => match lang with Python => Some (After (JStr (s ++ s')) stk) | Json => None end
  | WantColon k d stk, TStr k' => match lang with Python => Some (WantColon (k ++ k') d stk) | Json => None end
  | _, _ => None
  end.
Fixpoint parse_toks (lang : language) (st : state) (ts : list tok) : option json :=
  match ts with
  | [] => match st with After v [] => Some v | _ => None end
  | t :: ts' => match parse_step lang st t with Some st' => parse_toks lang st' ts' | None => None end
  end.
Definition read (lang : language) (s : string) : option json :=
  match lex lang Out s with Some ts => parse_toks lang (WantValue false []) ts | None => None end.
(** JSON.parse(s), and eval(s, ...) *)
Definition json_parse : string -> option json := read Json.
Definition py_eval : string -> option json := read Python.
