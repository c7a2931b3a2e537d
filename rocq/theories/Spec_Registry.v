(** What is expected of looking up the Windows registry. *)
From Verif Require Import Lib Str Model_Registry.
Local Open Scope string_scope.

Definition crlf : string := String "013" (String "010" "").
Definition one_line (s : string) : Prop := has_char "010" s = false /\ has_char "013" s = false.
(** What "reg query KEY /v VALUE" writes: empty lines, the name of the key, and a line
    with the name, the type and the data. *)
Inductive heading : string -> Prop :=
| empty_line : heading ""
| key_line s : one_line s -> heading ("HKEY_" ++ s).
Definition entry (value type data : string) : string := "    " ++ value ++ "    REG_" ++ type ++ "    " ++ data.
Definition lines (l : list string) : string := String.concat "" (map (fun x => x ++ crlf) l).
Definition listing (headings : list string) (value type data rest : string) : string := lines headings ++ entry value type data ++ crlf ++ rest.
(** A letter, a digit or an underscore; and one that is not an h. *)
Definition letter (c : ascii) : Prop := In c (list_ascii_of_string "ABCDEFGHIJKLMNOPQRSTUVWXYZabcdefghijklmnopqrstuvwxyz0123456789_").
Definition value_name (v : string) : Prop := one_line v /\ exists c r, v = String c r /\ letter c /\ c <> "h"%char /\ c <> "H"%char.
Definition type_name (t : string) : Prop := t <> "" /\ forall c, In c (list_ascii_of_string t) -> letter c.
Definition spaces : list ascii := [" "; "009"; "010"; "011"; "012"; "013"]%char.
Definition proper_data (d : string) : Prop := one_line d /\ exists c r, d = String c r /\ ~ In c spaces.
(** reg.exe answers with the listing, and writes no error. *)
Definition has (reg : string -> string -> answer) (key value data : string) : Prop :=
  exists headings type rest, Forall heading headings /\ type_name type /\ reg key value = Wrote (listing headings value type data rest) "".
(** It does not: it ends with an error, or writes one. *)
Definition lacks (reg : string -> string -> answer) (key value : string) : Prop :=
  reg key value = Failed \/ exists out err c, reg key value = Wrote out err /\ In c (list_ascii_of_string err) /\ ~ In c spaces.
