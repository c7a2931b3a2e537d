(** Model of the depfiles of a generated Makefile:
    gyp/pylib/gyp/generator/make.py:437-468 (fixup_dep), as run by sed and grep,
    and of what make reads in them. *)
From Verif Require Import Lib Str Model_Args Model_Release.
Local Open Scope string_scope.

(** The lines of a text that ends in a line end; an empty text has none. *)
Definition lines_of (s : string) : list string := removelast (split_on "010" s).
(** sed -e "s|^NAME|TARGET|" with NAME = $(notdir $@): a period stands for any
    character.  Simplification: no other character of the name is special. *)
Fixpoint re_prefix (p s : string) : option string :=
  match p, s with
  | EmptyString, _ => Some s
  | String a p', String b s' => if Ascii.eqb a "." || Ascii.eqb a b then re_prefix p' s' else None
  | _, EmptyString => None
  end.
Definition name_target (name target l : string) : string := match re_prefix name l with Some r => target ++ r | None => l end.
(** sed -e 's|\\||': the first backslash *)
Fixpoint first_backslash_out (s : string) : string :=
  match s with EmptyString => "" | String a s' => if Ascii.eqb a "\" then s' else String a (first_backslash_out s') end.
Definition filled (s : string) : bool := negb (String.eqb s "").
(** y| |\n|, grep -v '^$', sed -e 1d -e 's|$|:|' *)
Definition extra_rules (raw : string) : list string :=
  map (fun w => w ++ ":") (tl (filter filled (flat_map (fun l => split_on " " (first_backslash_out l)) (lines_of raw)))).
(** The lines after the first of the depfile. *)
Definition fixup_dep (name target raw : string) : list string := (map (name_target name target) (lines_of raw) ++ extra_rules raw)%list.

(** make: a line that ends in a backslash goes on in the next one (simplification:
    no more than one backslash there).  Then each line is a rule: targets, a
    colon, prerequisites.  Simplification: only for names without characters that
    are special to make.  None for "missing separator". *)
Fixpoint without_backslash (l : string) : option string :=
  match l with
  | EmptyString => None
  | String a EmptyString => if Ascii.eqb a "\" then Some "" else None
  | String a l' => option_map (String a) (without_backslash l')
  end.
Fixpoint logical (ls : list string) : list string :=
  match ls with
  | [] => []
  | l :: r => match without_backslash l with
              | Some l' => match logical r with [] => [l'] | m :: ms => (l' ++ " " ++ m) :: ms end
              | None => l :: logical r
              end
  end.
Definition blank_words (s : string) : list string := filter filled (split_on " " s).
Fixpoint make_rules (ls : list string) : option (list (list string * list string)) :=
  match ls with
  | [] => Some []
  | l :: r =>
    match blank_words l, split1 ":" l with
    | [], _ => make_rules r
    | _, Some (t, p) => option_map (cons (blank_words t, blank_words p)) (make_rules r)
    | _, None => None
    end
  end.
Definition read_depfile (ls : list string) : option (list (list string * list string)) := make_rules (logical ls).
