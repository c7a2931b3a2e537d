(** How ninja reads a file (from the ninja manual, "Lexical syntax", and its
    lexer). *)
From Verif Require Import Lib Str Spec_Quote.
Local Open Scope string_scope.

(** *** Lines.  A dollar sign before a newline continues the line and swallows
    the blanks that follow; a dollar sign otherwise goes with the next
    character.  Result: the logical line and what follows it. *)
Inductive line_state := Normal | AfterDollar | SkipBlanks.
Definition put (a : string) (r : option (string * string)) : option (string * string) :=
  match r with Some (l, rest) => Some (a ++ l, rest) | None => None end.
Fixpoint logical_line (st : line_state) (s : string) : option (string * string) :=
  match s with
  | "" => None
  | String c s' =>
    let normal := if Ascii.eqb c "010" then Some ("", s') else if Ascii.eqb c "$" then logical_line AfterDollar s' else put (String c "") (logical_line Normal s') in
    match st with
    | Normal => normal
    | AfterDollar => if Ascii.eqb c "010" then logical_line SkipBlanks s' else put (String "$" (String c "")) (logical_line Normal s')
    | SkipBlanks => if Ascii.eqb c " " then logical_line SkipBlanks s' else normal
    end
  end.
(** A line whose last dollar sign has no partner. *)
Fixpoint dangling (pending : bool) (s : string) : bool :=
  match s with "" => pending | String c s' => dangling (negb pending && Ascii.eqb c "$") s' end.

(** *** Paths.  Words of literal characters and variable references (an
    [Expansion] and then the name as it stands). *)
Definition name_char (c : ascii) : bool :=
  let n := N_of_ascii c in
  (N.leb 48 n && N.leb n 57) || (N.leb 65 n && N.leb n 90) || (N.leb 97 n && N.leb n 122) || Ascii.eqb c "_" || Ascii.eqb c "-".
(** The rest of a braced name. *)
Fixpoint name_end (s : string) : bool :=
  match s with
  | "" => false
  | String c s' => Ascii.eqb c "}" || ((name_char c || Ascii.eqb c ".") && name_end s')
  end.
Definition braced (s : string) : bool := match s with "" => false | String c s' => (name_char c || Ascii.eqb c ".") && name_end s' end.

Inductive token := TPath (w : list atom) | TColon | TPipe | TPipe2.
Definition flush (cur : option (list atom)) (r : option (list token)) : option (list token) :=
  match cur, r with Some w, Some l => Some (TPath w :: l) | None, _ => r | _, None => None end.
Definition tok (t : token) (r : option (list token)) : option (list token) := match r with Some l => Some (t :: l) | None => None end.
Definition add (cur : option (list atom)) (a : atom) : option (list atom) := match cur with Some w => Some (w ++ [a])%list | None => Some [a] end.

Fixpoint lex (cur : option (list atom)) (s : string) : option (list token) :=
  match s with
  | "" => flush cur (Some [])
  | String c s' =>
    if Ascii.eqb c " " then flush cur (lex None s')
    else if Ascii.eqb c ":" then flush cur (tok TColon (lex None s'))
    else if Ascii.eqb c "|" then
      flush cur (match s' with
                 | String d s'' => if Ascii.eqb d "|" then tok TPipe2 (lex None s'') else tok TPipe (lex None s')
                 | "" => Some [TPipe]
                 end)
    else if Ascii.eqb c "$" then
      match s' with
      | "" => None
      | String d s'' =>
        if Ascii.eqb d "$" || Ascii.eqb d " " || Ascii.eqb d ":" then lex (add cur (Ch d)) s''
        else if name_char d then lex (add cur Expansion) s'
        else if Ascii.eqb d "{" && braced s'' then lex (add cur Expansion) s'
        else None
      end
    else if Ascii.eqb c "010" || Ascii.eqb c "013" || Ascii.eqb c "000" then None
    else lex (add cur (Ch c)) s'
  end.

(** What node-gyp means by a path: characters stand for themselves, except that
    a dollar sign before a name or a braced name refers to a variable.  Other
    dollar signs, bars and line ends have no meaning in a path. *)
Fixpoint path_meaning (s : string) : option (list atom) :=
  match s with
  | "" => Some []
  | String c s' =>
    if has_char c "|" || Ascii.eqb c "010" || Ascii.eqb c "013" || Ascii.eqb c "000" then None
    else if Ascii.eqb c "$" then
      match s' with
      | "" => None
      | String d s'' =>
        if Ascii.eqb d " " then option_map (cons (Ch "$")) (path_meaning s')
        else if name_char d then option_map (cons Expansion) (path_meaning s')
        else if Ascii.eqb d "{" && braced s'' then option_map (cons Expansion) (path_meaning s')
        else None
      end
    else option_map (cons (Ch c)) (path_meaning s')
  end.

(** The tokens of a build statement. *)
Definition statement_tokens (outs : list (list atom)) (rule : list atom) (ins implicit order_only : list (list atom)) : list token :=
  (TPath (literal "build") :: map TPath outs ++ TColon :: TPath rule :: map TPath ins ++
   match implicit with [] => [] | _ => TPipe :: map TPath implicit end ++
   match order_only with [] => [] | _ => TPipe2 :: map TPath order_only end)%list.

(** The characters of rule names. *)
Definition in_name (c : ascii) : bool := name_char c || Ascii.eqb c ".".
(** Paths that are not empty and have these meanings. *)
Definition good_paths (ps : list string) (ms : list (list atom)) : Prop :=
  Forall2 (fun p m => p <> "" /\ path_meaning p = Some m) ps ms.
Definition no_final_space (ps : list string) : Prop := forall p a, In p ps -> p <> a ++ " ".
