(** What the command line means. *)
From Verif Require Import Lib Model_Cli.
Local Open Scope string_scope.

(** The commands and the two short forms. *)
Definition is_command (s : string) : Prop := In s ["build"; "clean"; "configure"; "rebuild"; "install"; "list"; "remove"].
Definition long_form (s : string) : string := if String.eqb s "ls" then "list" else if String.eqb s "rm" then "remove" else s.

(** The names of the properties every JavaScript object has. *)
Definition everywhere : list string :=
  ["constructor"; "__defineGetter__"; "__defineSetter__"; "hasOwnProperty"; "__lookupGetter__"; "__lookupSetter__"; "isPrototypeOf";
   "propertyIsEnumerable"; "toString"; "valueOf"; "__proto__"; "toLocaleString"].

(** [words] reads as the commands [cs]: after words that are no commands,
    each command followed by its own arguments. *)
Definition reads_as (words : list string) (cs : list (string * list string)) : Prop :=
  exists lead, words = (lead ++ flat_map (fun c => fst c :: snd c) cs)%list /\
    Forall (fun s => ~ is_command s) lead /\ Forall (fun c => is_command (fst c) /\ Forall (fun s => ~ is_command s) (snd c)) cs.

(** All tasks there ever were to do: those given and those appended on the way,
    in the order they were appended. *)
Fixpoint appended (denied : denials) (hist rest : list (task * ending)) : list task :=
  match rest with
  | [] => []
  | e :: rest' => (match snd e with Resolves => pushed denied hist (fst e) | _ => [] end ++ appended denied (hist ++ [e]) rest')%list
  end.
