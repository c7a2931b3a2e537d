(** What a compiler writes with -MMD, and what is wanted of it. *)
From Verif Require Import Lib Str.
Local Open Scope string_scope.

Definition special : list ascii := [" "; "\"; ":"; "#"; "$"; "%"; ";"; "="; "*"; "?"; "["; "]"; "~"; "&"; "|"; "'"; "`"; "("; ")"; "<"; ">"; "!"; "^"; "009"; "010"; "011"; "012"; "013"; "034"]%char.
Definition simple (d : string) : Prop := d <> "" /\ forall a, In a special -> has_char a d = false.
Fixpoint blanks (n : nat) : string := match n with O => "" | S k => String " " (blanks k) end.
Definition line_feed : string := String "010" "".
(** Names with blanks before them, on one line or several. *)
Inductive listing : string -> list string -> Prop :=
| listing_end : listing line_feed []
| listing_name n d t ds : simple d -> listing t ds -> listing (blanks (S n) ++ d ++ t) (d :: ds)
| listing_line n t ds : listing t ds -> listing (blanks (S n) ++ "\" ++ line_feed ++ t) ds.
(** A name used as a pattern: a period in it stands for any character. *)
Inductive alike : string -> string -> Prop :=
| alike_nil : alike "" ""
| alike_char a p b s : a = "."%char \/ a = b -> alike p s -> alike (String a p) (String b s).
