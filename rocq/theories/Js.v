(** JavaScript string primitives. *)
From Verif Require Import Lib Str.
Local Open Scope string_scope.

(** The ASCII characters that trim and parseInt take as white space; white
    space outside ASCII is not modelled. *)
Definition js_space (a : ascii) : bool := let n := nat_of_ascii a in ((9 <=? n)%nat && (n <=? 13)%nat) || (n =? 32)%nat.
Fixpoint trim_start (s : string) : string :=
  match s with
  | EmptyString => EmptyString
  | String a s' => if js_space a then trim_start s' else s
  end.
Fixpoint trim_end (s : string) : string :=
  match s with
  | EmptyString => EmptyString
  | String a s' => match trim_end s' with EmptyString => if js_space a then EmptyString else String a EmptyString | r => String a r end
  end.
(** s.trim() *)
Definition js_trim (s : string) : string := trim_end (trim_start s).
