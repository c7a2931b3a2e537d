(** How a program on Windows gets its arguments: the rules of CommandLineToArgvW and of
    the C runtime. *)
From Verif Require Import Lib Str Spec_Vcxproj.
Local Open Scope string_scope.

Fixpoint slashes (n : nat) : string := match n with 0 => "" | Datatypes.S n => String "\" (slashes n) end.
(** What is added to the argument that is being read. *)
Definition add (word : option string) (x : string) : option string := Some (match word with Some w => w | None => "" end ++ x).
Definition finish (word : option string) (n : nat) : list string :=
  match word, n with None, 0 => [] | None, _ => [slashes n] | Some w, _ => [w ++ slashes n] end.
(** [n] backslashes have just been read.  Before a double quote, two of them are one,
    and one left over makes the quote a character like others; elsewhere they are
    themselves.  Two double quotes inside of quotes are one. *)
Fixpoint arguments (inside : bool) (n : nat) (word : option string) (s : string) : list string :=
  match s with
  | "" => finish word n
  | String a s' =>
    if Ascii.eqb a "\" then arguments inside (Datatypes.S n) word s'
    else if Ascii.eqb a """" then
      let word := add word (slashes (Nat.div2 n)) in
      if Nat.odd n then arguments inside 0 (add word """") s'
      else match s' with
           | String b s'' => if inside && Ascii.eqb b """" then arguments inside 0 (add word """") s'' else arguments (negb inside) 0 word s'
           | "" => arguments (negb inside) 0 word s'
           end
    else if (Ascii.eqb a " " || Ascii.eqb a "009") && negb inside then finish word n ++ arguments inside 0 None s'
    else arguments inside 0 (add word (slashes n ++ String a "")) s'
  end.
(** The name of the program is read with simpler rules. *)
Fixpoint program_name (inside : bool) (s : string) : string * string :=
  match s with
  | "" => ("", "")
  | String a s' =>
    if Ascii.eqb a """" then program_name (negb inside) s'
    else if (Ascii.eqb a " " || Ascii.eqb a "009") && negb inside then ("", s)
    else let '(x, r) := program_name inside s' in (String a x, r)
  end.
Definition argv (s : string) : list string := let '(x, r) := program_name false s in x :: arguments false 0 None r.

(** Text in which cmd.exe and MSBuild replace nothing, without double quotes. *)
Definition ordinary (s : string) : Prop := forall c, In c ["""" ; "%"; "^"; "$"; "010"; "013"]%char -> has_char c s = false.
(** An option, and not the name of a file. *)
Definition option_like (s : string) : Prop := s = "" \/ (exists r, s = String "/" r \/ s = String "-" r) \/ has_char "=" s = true.
(** What the program is to get for an argument of an action, where [from] leads from
    the directory of the project to that of the .gyp file. *)
Definition passes (from : string) (a b : string) : Prop :=
  (option_like a -> b = a) /\ (~ option_like a -> has_char "\" b = false /\ forall here, leads here b = leads (leads here from) a).
