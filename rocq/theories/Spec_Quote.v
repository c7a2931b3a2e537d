(** Readers: what a shell, make, a C compiler and Windows make of a text.
    They are written from the documents that define them (POSIX 2.2-2.3, the
    GNU make manual, C11 6.4.5, CommandLineToArgvW), not from node-gyp.  Where
    a reader would have to do more than remove quotes, it gives up ([None]), so
    a theorem that it returns something says that nothing special happens. *)
From Verif Require Import Lib Str.
Local Open Scope string_scope.

(** *** Shell words *)

(** A word is made of literal characters and of places where the shell starts
    an expansion. *)
Inductive atom := Ch (c : ascii) | Expansion.

(** The characters that must be quoted to represent themselves, and those that
    "might need to be quoted under certain circumstances" (POSIX 2.2), with the
    braces of brace expansion.  An equals sign is special only before the
    command name. *)
Definition shell_special (equals : bool) (c : ascii) : bool :=
  has_char c "|&;<>()$`*?[#~%{}" || Ascii.eqb c "010" || (equals && Ascii.eqb c "=").

Inductive sh_state := Between | Word | WordEscape | Single | Double | DoubleEscape.

Definition cons_word (w : list atom) (r : option (list (list atom))) : option (list (list atom)) :=
  match r with Some l => Some (w :: l) | None => None end.

Fixpoint sh_read (equals : bool) (st : sh_state) (w : list atom) (s : string) : option (list (list atom)) :=
  match s with
  | "" => match st with Between => Some [] | Word => Some [w] | _ => None end
  | String c s' =>
    match st with
    | Between | Word =>
      if Ascii.eqb c " " || Ascii.eqb c "009" then
        match st with Between => sh_read equals Between [] s' | _ => cons_word w (sh_read equals Between [] s') end
      else if Ascii.eqb c "'" then sh_read equals Single w s'
      else if Ascii.eqb c "034" then sh_read equals Double w s'
      else if Ascii.eqb c "\" then sh_read equals WordEscape w s'
      else if shell_special equals c then None
      else sh_read equals Word (w ++ [Ch c]) s'
    | WordEscape => if Ascii.eqb c "010" then None else sh_read equals Word (w ++ [Ch c]) s'
    | Single => if Ascii.eqb c "'" then sh_read equals Word w s' else sh_read equals Single (w ++ [Ch c]) s'
    | Double =>
      if Ascii.eqb c "034" then sh_read equals Word w s'
      else if Ascii.eqb c "\" then sh_read equals DoubleEscape w s'
      else if Ascii.eqb c "$" then sh_read equals Double (w ++ [Expansion]) s'
      else if Ascii.eqb c "`" then None
      else sh_read equals Double (w ++ [Ch c]) s'
    | DoubleEscape =>
      if Ascii.eqb c "010" then sh_read equals Double w s'
      else if has_char c "$`\" || Ascii.eqb c "034" then sh_read equals Double (w ++ [Ch c]) s'
      else sh_read equals Double (w ++ [Ch "\"; Ch c]) s'
    end
  end.
(** The words of a text in any position of a command, and among the arguments. *)
Definition sh_words (s : string) : option (list (list atom)) := sh_read true Between [] s.
Definition sh_arguments (s : string) : option (list (list atom)) := sh_read false Between [] s.

Fixpoint chars (s : string) : list ascii := match s with "" => [] | String c s' => c :: chars s' end.
(** A string as a word without expansions, and with each dollar sign live. *)
Definition literal (s : string) : list atom := map Ch (chars s).
Definition with_dollars (s : string) : list atom := map (fun c => if Ascii.eqb c "$" then Expansion else Ch c) (chars s).

(** *** Make *)
Fixpoint bs (n : nat) : string := match n with O => "" | S n' => String "\" (bs n') end.
(** Joining continued lines: an odd number of backslashes before a newline
    continues the line; the newline and the blanks after it become one space.
    (GNU make also removes the blanks before it; they only separate words.)
    A newline that is not continued ends the definition. *)
Fixpoint make_join (n : nat) (skip : bool) (s : string) : string :=
  match s with
  | "" => bs n
  | String c s' =>
    if Ascii.eqb c "\" then make_join (S n) false s'
    else if Ascii.eqb c "010" then (if Nat.odd n then bs (Nat.div2 n) ++ String " " (make_join 0 true s') else bs n)
    else if skip && (Ascii.eqb c " " || Ascii.eqb c "009") then make_join 0 true s'
    else bs n ++ String c (make_join 0 false s')
  end.
(** Removing the comment: backslashes before a number sign quote each other
    and the sign. *)
Fixpoint make_uncomment (n : nat) (s : string) : string :=
  match s with
  | "" => bs n
  | String c s' =>
    if Ascii.eqb c "\" then make_uncomment (S n) s'
    else if Ascii.eqb c "#" then (if Nat.odd n then bs (Nat.div2 n) ++ String "#" (make_uncomment 0 s') else bs (Nat.div2 n))
    else bs n ++ String c (make_uncomment 0 s')
  end.
(** Expanding: two dollar signs stand for one, anything else after a dollar
    sign is a variable or function. *)
Fixpoint make_expand (s : string) : option string :=
  match s with
  | "" => Some ""
  | String c s' =>
    if Ascii.eqb c "$" then
      match s' with
      | String d s'' => if Ascii.eqb d "$" then option_map (String "$") (make_expand s'') else None
      | "" => None
      end
    else option_map (String c) (make_expand s')
  end.
Definition make_value (s : string) : option string := make_expand (make_uncomment 0 (make_join 0 false s)).
(** The arguments a command gets from a variable so defined. *)
Definition make_arguments (s : string) : option (list (list atom)) :=
  match make_value s with Some v => sh_arguments v | None => None end.

(** *** Ninja variable values: two dollar signs stand for one. *)
Definition ninja_value : string -> option string := make_expand.

(** *** C string literals: the bytes denoted by what stands between the
    quotes; octal escapes take up to three digits. *)
Definition octal (c : ascii) : option N :=
  let n := N_of_ascii c in if N.leb 48 n && N.leb n 55 then Some (n - 48)%N else None.
Definition c_simple (c : ascii) : option ascii :=
  if Ascii.eqb c "n" then Some "010"%char else if Ascii.eqb c "t" then Some "009"%char else
  if Ascii.eqb c "r" then Some "013"%char else if Ascii.eqb c "a" then Some "007"%char else
  if Ascii.eqb c "b" then Some "008"%char else if Ascii.eqb c "v" then Some "011"%char else
  if Ascii.eqb c "f" then Some "012"%char else
  if Ascii.eqb c "\" || Ascii.eqb c "034" || Ascii.eqb c "'" || Ascii.eqb c "?" then Some c else None.
Definition byte (n : N) : option ascii := if N.ltb n 256 then Some (ascii_of_N n) else None.
Inductive c_state := CPlain | CBackslash | COctal (digits : nat) (value : N).
Definition emit (o : option ascii) (r : option string) : option string :=
  match o, r with Some c, Some s => Some (String c s) | _, _ => None end.
Fixpoint c_read (st : c_state) (s : string) : option string :=
  match s with
  | "" => match st with CPlain => Some "" | CBackslash => None | COctal _ v => emit (byte v) (Some "") end
  | String c s' =>
    let plain := if Ascii.eqb c "034" || Ascii.eqb c "010" then None
                 else if Ascii.eqb c "\" then c_read CBackslash s' else emit (Some c) (c_read CPlain s') in
    match st with
    | CPlain => plain
    | CBackslash => match octal c with Some d => c_read (COctal 1 d) s' | None => emit (c_simple c) (c_read CPlain s') end
    | COctal n v =>
      match octal c with
      | Some d => if Nat.ltb n 3 then c_read (COctal (S n) (8 * v + d)) s' else emit (byte v) plain
      | None => emit (byte v) plain
      end
    end
  end.
Definition c_literal (s : string) : option string := c_read CPlain s.
(** Translation phase 1 of C before C23: trigraphs. *)
Definition trigraph (c : ascii) : option ascii :=
  if Ascii.eqb c "=" then Some "#"%char else if Ascii.eqb c "(" then Some "["%char else if Ascii.eqb c "/" then Some "\"%char else
  if Ascii.eqb c ")" then Some "]"%char else if Ascii.eqb c "'" then Some "^"%char else if Ascii.eqb c "<" then Some "{"%char else
  if Ascii.eqb c "!" then Some "|"%char else if Ascii.eqb c ">" then Some "}"%char else if Ascii.eqb c "-" then Some "~"%char else None.
Fixpoint trigraphs (s : string) : string :=
  match s with
  | String a ((String b (String c s')) as r) =>
    match Ascii.eqb a "?" && Ascii.eqb b "?", trigraph c with
    | true, Some d => String d (trigraphs s')
    | _, _ => String a (trigraphs r)
    end
  | String a r => String a r
  | "" => ""
  end.

(** *** Windows: CommandLineToArgvW (arguments after the program name).
    2n backslashes and a quote: n backslashes, the quote opens or closes;
    2n+1 backslashes and a quote: n backslashes and a literal quote; other
    backslashes are literal.  (A closing quote followed by another quote is
    not treated specially; no text below contains one.) *)
Fixpoint win_read (quoted : bool) (started : bool) (n : nat) (w : string) (s : string) : option (list string) :=
  match s with
  | "" => if quoted then None else if started || Nat.ltb 0 n then Some [w ++ bs n] else Some []
  | String c s' =>
    if Ascii.eqb c "\" then win_read quoted true (S n) w s'
    else if Ascii.eqb c "034" then
      if Nat.odd n then win_read quoted true 0 (w ++ bs (Nat.div2 n) ++ String "034" "") s'
      else win_read (negb quoted) true 0 (w ++ bs (Nat.div2 n)) s'
    else if negb quoted && (Ascii.eqb c " " || Ascii.eqb c "009") then
      if started then match win_read false false 0 "" s' with Some l => Some ((w ++ bs n) :: l) | None => None end
      else win_read false false 0 "" s'
    else win_read quoted true 0 (w ++ bs n ++ String c "") s'
  end.
Definition win_arguments (s : string) : option (list string) := win_read false false 0 "" s.
(** What a batch interpreter makes of percent signs: two stand for one. *)
Fixpoint single_percent (s : string) : string :=
  match s with
  | "" => ""
  | String c s' =>
    match s' with
    | String d s'' => if Ascii.eqb c "%" && Ascii.eqb d "%" then String "%" (single_percent s'') else String c (single_percent s')
    | "" => s
    end
  end.
