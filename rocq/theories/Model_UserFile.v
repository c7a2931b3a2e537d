(** Model of gyp/pylib/gyp/MSVSUserFile.py: the arguments of the command that Visual
    Studio 2005 and 2008 run to debug a target. *)
From Verif Require Import Lib Str.
Local Open Scope string_scope.

(** 46: each quote becomes two *)
Fixpoint double (s : string) : string :=
  match s with "" => "" | String c s' => if Ascii.eqb c """" then String c (String c (double s')) else String c (double s') end.
(** 39-53: _QuoteWin32CommandLineArgs, for one argument *)
Definition quote_arg (arg : string) : string :=
  if has_char """" arg then """" ++ double arg ++ """"
  else if has_char " " arg || has_char "009" arg || has_char "010" arg then """" ++ arg ++ """"
  else arg.
(** 101: the attribute CommandArguments *)
Definition command_arguments (args : list string) : string := String.concat " " (map quote_arg args).
