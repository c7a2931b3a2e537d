(** Models of the escaping functions for shells, make, C and response files.
    Strings are byte sequences; every character these functions look at is
    ASCII. *)
From Verif Require Import Lib Str.
Local Open Scope string_scope.

Definition dquote : ascii := "034"%char.
Definition squote : ascii := "'"%char.
Definition backslash : ascii := "\"%char.
Definition backquote : ascii := "`"%char.
Definition dollar : ascii := "$"%char.
Definition percent : ascii := "%"%char.
Definition space : ascii := " "%char.
Definition tab : ascii := "009"%char.
Definition newline : ascii := "010"%char.
Definition str1 (c : ascii) : string := String c "".

(** [s.replace(c, by)] for a one-character pattern, and [re.sub] with a
    pattern that matches single characters. *)
Fixpoint map_chars (f : ascii -> string) (s : string) : string :=
  match s with "" => "" | String c s' => f c ++ map_chars f s' end.
Definition replace1 (c : ascii) (by_ : string) : string -> string :=
  map_chars (fun a => if Ascii.eqb a c then by_ else str1 a).
Fixpoint has_any (f : ascii -> bool) (s : string) : bool :=
  match s with "" => false | String c s' => f c || has_any f s' end.
Definition one_of (chars : string) (c : ascii) : bool := has_char c chars.
Definition join_with (sep : string) : list string -> string := String.concat sep.

(** common.py:235: _quote. *)
Definition quote_chars : string :=
  String tab (String newline " #$%&'()*;<=>?[{|}~").
Definition needs_quote (s : string) : bool := has_any (one_of quote_chars) s || String.eqb s "".
(** common.py:258: _escape. *)
Definition escape_char (c : ascii) : string :=
  if Ascii.eqb c dquote || Ascii.eqb c backslash || Ascii.eqb c backquote then String backslash (str1 c) else str1 c.
(** common.py:261-278: EncodePOSIXShellArgument (of a string). *)
Definition encode_posix_shell_argument (s : string) : string :=
  let quote := if needs_quote s then str1 dquote else "" in
  quote ++ map_chars escape_char s ++ quote.
(** common.py:281-291: EncodePOSIXShellList. *)
Definition encode_posix_shell_list (l : list string) : string :=
  join_with " " (map encode_posix_shell_argument l).

(** generator/make.py:706-711: EscapeShellArgument. *)
Definition escape_shell_argument (s : string) : string :=
  str1 squote ++ replace1 squote (String squote (String backslash (String squote (str1 squote)))) s ++ str1 squote.
(** generator/make.py:714-717. *)
Definition escape_make_variable_expansion : string -> string := replace1 dollar "$$".
(** generator/make.py:720-726. *)
Definition escape_cpp_define (s : string) : string :=
  replace1 hash (String backslash (str1 hash)) (escape_make_variable_expansion (escape_shell_argument s)).
(** generator/make.py:2070-2081: WriteList, the value of the variable, with
    quoter EscapeCppDefine; replace_sep does nothing but on Windows. *)
Definition continuation : string := String space (String backslash (String newline (str1 tab))).
Definition write_defines (prefix : string) (l : list string) : string :=
  match l with
  | [] => ""
  | _ => continuation ++ join_with continuation (map (fun v => escape_cpp_define (prefix ++ v)) l)
  end.

(** generator/ninja.py:79: the characters [a-zA-Z0-9_=.\\/-]; [re.match] with
    [$] also accepts one newline at the end. *)
Definition in_range (lo hi : ascii) (c : ascii) : bool := N.leb (N_of_ascii lo) (N_of_ascii c) && N.leb (N_of_ascii c) (N_of_ascii hi).
Definition ninja_ok (c : ascii) : bool :=
  in_range "a" "z" c || in_range "A" "Z" c || in_range "0" "9" c || one_of "_=.\/-" c.
Fixpoint ninja_plain_rest (s : string) : bool :=
  match s with
  | "" => true
  | String c s' => if ninja_ok c then ninja_plain_rest s' else Ascii.eqb c newline && String.eqb s' ""
  end.
Definition ninja_plain (s : string) : bool :=
  match s with "" => false | String c s' => ninja_ok c && ninja_plain_rest s' end.
(** generator/ninja.py:74-83: QuoteShellArgument, on other flavors than win. *)
Definition quote_shell_argument (s : string) : string :=
  if ninja_plain s then s
  else str1 squote ++ replace1 squote (String squote (String dquote (String squote (String dquote (str1 squote))))) s ++ str1 squote.
(** ninja_syntax.py:166-171: escape; None is the AssertionError. *)
Definition ninja_escape (s : string) : option string :=
  if has_char newline s then None else Some (replace1 dollar "$$" s).
(** generator/ninja.py:86-93: Define, on other flavors than win. *)
Definition ninja_define (d : string) : option string :=
  option_map quote_shell_argument (ninja_escape ("-D" ++ d)).

(** __init__.py:27-38: EscapeForCString. *)
Definition octal_digit (n : N) : ascii := ascii_of_N (48 + n).
Definition octal3 (c : ascii) : string :=
  let n := N_of_ascii c in
  String (octal_digit (n / 64)) (String (octal_digit (n / 8 mod 8)) (str1 (octal_digit (n mod 8)))).
Definition c_plain (c : ascii) : bool :=
  negb (Ascii.eqb c backslash || Ascii.eqb c dquote) && N.leb 32 (N_of_ascii c) && N.ltb (N_of_ascii c) 127.
Definition escape_for_c_string : string -> string :=
  map_chars (fun c => if c_plain c then str1 c else String backslash (octal3 c)).

(** msvs_emulation.py:20,41: windows_quoter_regex.sub: double the backslashes
    before each quote and add one.  [n] backslashes have been read and not
    yet written. *)
Fixpoint backslashes (n : nat) : string := match n with O => "" | S n' => String backslash (backslashes n') end.
Fixpoint win_quotes (n : nat) (s : string) : string :=
  match s with
  | "" => backslashes n
  | String c s' =>
    if Ascii.eqb c backslash then win_quotes (S n) s'
    else if Ascii.eqb c dquote then backslashes (2 * n) ++ String backslash (String dquote (win_quotes 0 s'))
    else backslashes n ++ String c (win_quotes 0 s')
  end.
(** msvs_emulation.py:34: the path heuristic: arg.find("/") > 0 or
    arg.count("/") > 1. *)
Definition looks_like_path (s : string) : bool :=
  match s with
  | "" => false
  | String c s' => has_char slash s'
  end.
(** msvs_emulation.py:23-60: QuoteForRspFile; [normpath] is os.path.normpath. *)
Definition quote_for_rsp_file (normpath : string -> string) (quote_cmd : bool) (s : string) : string :=
  let s := if looks_like_path s then normpath s else s in
  let s := if quote_cmd then win_quotes 0 s else s in
  let s := replace1 percent "%%" s in
  if quote_cmd then str1 dquote ++ s ++ str1 dquote else s.
(** msvs_emulation.py:63-78: EncodeRspFileList. *)
Definition encode_rsp_file_list (normpath : string -> string) (quote_cmd : bool) (args : list string) : string :=
  match args with
  | [] => ""
  | p :: rest =>
    let program := if String.prefix "call " p then "call " ++ normpath (substring 5 (String.length p - 5) p) else normpath p in
    program ++ " " ++ join_with " " (map (quote_for_rsp_file normpath quote_cmd) rest)
  end.
