(** What a path means: the place reached by walking it.  A place is the list of
    directory names from the innermost outwards; no symbolic links. *)
From Verif Require Import Lib Str Model_Path.
Local Open Scope string_scope.

Definition step (place : list string) (c : string) : list string :=
  if String.eqb c "" || String.eqb c "." then place
  else if String.eqb c ".." then tl place
  else (c :: place)%list.
Definition walk (place : list string) (comps : list string) : list string := fold_left step comps place.

(** Where [p] leads from the directory [here]. *)
Definition locate (here : list string) (p : string) : list string :=
  walk (if isabs p then [] else here) (split_char slash p).

(** A proper directory or file name. *)
Definition name_ok (c : string) : Prop := has_char slash c = false /\ c <> "" /\ c <> "." /\ c <> "..".
Definition place_ok (place : list string) : Prop := Forall name_ok place.

(** The absolute path of a place. *)
Definition absolute (place : list string) : string := "/" ++ String.concat "/" (rev place).

(** os.path.realpath without symbolic links, for a process in [cwd]. *)
Definition plain_realpath (cwd : list string) (p : string) : string := absolute (locate cwd p).

(** Items that are left as they are: absolute paths, flags, make variables and
    expansions, also behind a quote. *)
Definition protected (item : string) : Prop :=
  exists quote a rest, item = quote ++ String a rest /\ In quote [""; "'"; """"] /\ In a ["-"; "/"; "$"; "<"; ">"; "^"]%char.
