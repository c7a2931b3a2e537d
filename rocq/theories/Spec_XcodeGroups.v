(** Where Xcode looks for the files of a project, and which paths are ordinary. *)
From Verif Require Import Lib Str Model_Names Model_Path Model_XcodeGroups.
Local Open Scope string_scope.

(** An element's place, given its parent's: below the parent if its source tree is
    "<group>", below the named source tree otherwise. *)
Definition place (above : string) (p : props) : string :=
  if String.eqb (tree p) "<group>"
  then match path p with None => above | Some s => if String.eqb above "" then s else above ++ "/" ++ s end
  else match path p with None => "$(" ++ tree p ++ ")" | Some s => "$(" ++ tree p ++ ")/" ++ s end.
(** The places of all files in an element. *)
Fixpoint files (above : string) (e : elem) : list string :=
  match e with
  | File p => [place above p]
  | Group _ p kids => flat_map (files (place above p)) kids
  end.
Definition listed (kids : list elem) : list string := flat_map (files "") kids.

(** A relative path to a file; a variable is used only as the first component. *)
Definition no_variable (c : string) : Prop := String.prefix "$(" c = false.
Definition variable (c : string) : Prop := exists v, c = "$(" ++ v ++ ")" /\ has_char ")" v = false /\ v <> "<group>".
Definition ordinary (p : string) : Prop :=
  isabs p = false /\ ends_slash p = false /\
  match split_char "/" (normpath p) with [] => False | c :: cs => (no_variable c \/ variable c) /\ Forall no_variable cs end.
(** One path names a directory in which the other is. *)
Definition inside (a b : string) : Prop := exists rest, b = a ++ "/" ++ rest.

(** No group holds nothing but another group. *)
Fixpoint collapsed (e : elem) : Prop :=
  match e with
  | Group false _ kids => (forall p sub, kids <> [Group false p sub]) /\ fold_right (fun k P => collapsed k /\ P) True kids
  | _ => True
  end.
