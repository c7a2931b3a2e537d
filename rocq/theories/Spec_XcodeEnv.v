(** What is expected of the variables of Xcode: texts in which other variables are
    referred to. *)
From Verif Require Import Lib Str Model_XcodeEnv.
Local Open Scope string_scope.

(** A text: plain text, and variables written in one of three ways. *)
Inductive piece := Text (s : string) | Braces (n : string) | Parens (n : string) | Bare (n : string).
Definition show (p : piece) : string :=
  match p with Text s => s | Braces n => "${" ++ n ++ "}" | Parens n => "$(" ++ n ++ ")" | Bare n => "$" ++ n end.
Fixpoint text (ps : list piece) : string := match ps with [] => "" | p :: ps' => show p ++ text ps' end.
Definition letters : string := "ABCDEFGHIJKLMNOPQRSTUVWXYZabcdefghijklmnopqrstuvwxyz_".
Definition name_chars : string := letters ++ "0123456789".
Definition of_chars (cs s : string) : Prop := forall c, In c (list_ascii_of_string s) -> In c (list_ascii_of_string cs).
Definition name (n : string) : Prop := n <> "" /\ of_chars (name_chars ++ "-") n.
Definition identifier (n : string) : Prop := exists c r, n = String c r /\ In c (list_ascii_of_string letters) /\ of_chars name_chars r.
Definition fine_piece (p : piece) : Prop :=
  match p with Text s => has_char "$" s = false | Braces n | Parens n => name n | Bare n => identifier n end.
(** No name goes on in the text behind it. *)
Definition ends_names (ps : list piece) : Prop := forall a n b, ps = (a ++ Bare n :: b)%list -> match text b with String c _ => ~ In c (list_ascii_of_string name_chars) | "" => True end.
Definition fine (ps : list piece) : Prop := Forall fine_piece ps /\ ends_names ps.
Definition in_brackets (ps : list piece) : Prop := forall n, ~ In (Bare n) ps.
(** the same with every variable in braces *)
Definition normal (p : piece) : piece := match p with Text s => Text s | Braces n | Parens n | Bare n => Braces n end.
Definition mentions (ps : list piece) (n : string) : Prop := In (Braces n) ps \/ In (Parens n) ps \/ In (Bare n) ps.

(** ** Variables *)
(** A setting is a text, or a list of them, with spaces between. *)
Inductive told := A_text (ps : list piece) | A_list (l : list (list piece)).
Fixpoint spaced (l : list (list piece)) : list piece := match l with [] => [] | [ps] => ps | ps :: l' => (ps ++ Text " " :: spaced l')%list end.
Definition pieces (t : told) : list piece := match t with A_text ps => ps | A_list l => spaced l end.
(** The target's settings, and the variables that are always set; these go before. *)
Definition defined (own : list (string * told)) (given : list (string * list piece)) (k : string) : option (list piece) :=
  match assoc k given with Some ps => Some ps | None => option_map pieces (assoc k own) end.
Definition fine_defs (own : list (string * told)) (given : list (string * list piece)) : Prop :=
  NoDup (map fst own) /\ NoDup (map fst given) /\
  (forall k t, In (k, t) own -> name k /\ fine (pieces t)) /\ (forall k ps, In (k, ps) given -> name k /\ fine ps).
Definition depends (own : list (string * told)) (given : list (string * list piece)) (x y : string) : Prop :=
  exists ps, defined own given x = Some ps /\ mentions ps y /\ defined own given y <> None.

(** as they are given *)
Definition raw_setting (t : told) : setting := match t with A_text ps => One (text ps) | A_list l => Several (map text l) end.
Definition raw_own (own : list (string * told)) : list (string * setting) := map (fun kt => (fst kt, raw_setting (snd kt))) own.
Definition raw_given (given : list (string * list piece)) : list (string * string) := map (fun kp => (fst kp, text (snd kp))) given.

(** What a text stands for: variables stand for what the text of their definition
    stands for, and those that are not defined stay as they are. *)
Inductive means (def : string -> option (list piece)) : list piece -> string -> Prop :=
| means_nil : means def [] ""
| means_text s ps r : means def ps r -> means def (Text s :: ps) (s ++ r)
| means_def p n ps d s r : p = Braces n \/ p = Parens n -> def n = Some d -> means def (map normal d) s -> means def ps r -> means def (p :: ps) (s ++ r)
| means_undef p n ps r : p = Braces n \/ p = Parens n -> def n = None -> means def ps r -> means def (p :: ps) (show p ++ r).
