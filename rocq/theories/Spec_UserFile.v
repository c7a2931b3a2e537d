(** How programs on Windows take their command line apart: blanks separate arguments but
    between quotes; of backslashes before a quote, each two are one, and an odd one makes
    the quote a part of the argument, as do two quotes between quotes; other backslashes
    are themselves. *)
From Verif Require Import Lib.
Local Open Scope char_scope.

Definition backslash : ascii := "\".
Definition quote : ascii := """".
Fixpoint parse (quoted started : bool) (cur : list ascii) (slashes : nat) (s : list ascii) : list (list ascii) :=
  match s with
  | [] => if started then [cur ++ repeat backslash slashes] else []
  | c :: s' =>
    if Ascii.eqb c backslash then parse quoted true cur (S slashes) s'
    else if Ascii.eqb c quote then
      let cur' := cur ++ repeat backslash (Nat.div2 slashes) in
      if Nat.odd slashes then parse quoted true (cur' ++ [quote]) 0 s'
      else
        match s' with
        | [] => parse (negb quoted) true cur' 0 s'
        | d :: s'' => if quoted && Ascii.eqb d quote then parse quoted true (cur' ++ [quote]) 0 s'' else parse (negb quoted) true cur' 0 s'
        end
    else if (Ascii.eqb c " " || Ascii.eqb c "009") && negb quoted then
      if started then (cur ++ repeat backslash slashes) :: parse false false [] 0 s' else parse false false [] 0 s'
    else parse quoted true (cur ++ repeat backslash slashes ++ [c]) 0 s'
  end.
Definition arguments (line : string) : list string := map string_of_list_ascii (parse false false [] 0 (list_ascii_of_string line)).
(** No backslash is before a quote, nor at the end if there is a blank or a quote. *)
Definition plain (arg : string) : Prop :=
  arg <> ""%string /\ (forall x y, list_ascii_of_string arg <> x ++ backslash :: quote :: y) /\
  ((exists c, In c [" "; "009"; "010"; quote] /\ In c (list_ascii_of_string arg)) -> forall x, list_ascii_of_string arg <> x ++ [backslash]).
