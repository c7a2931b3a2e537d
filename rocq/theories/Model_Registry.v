(** Model of lib/util.js: regGetValue and regSearchKeys (13-52).  Text is of bytes, so
    the white space is that of ASCII. *)
From Verif Require Import Lib Str.
Local Open Scope string_scope.

(** ** the regular expression *)
Definition white (c : ascii) : bool := let n := N_of_ascii c in ((n =? 32) || (9 <=? n) && (n <=? 13))%N.
Definition word (c : ascii) : bool := let n := N_of_ascii c in ((48 <=? n) && (n <=? 57) || (65 <=? n) && (n <=? 90) || (97 <=? n) && (n <=? 122) || (n =? 95))%N.
Definition ends_line (c : ascii) : bool := Ascii.eqb c "010" || Ascii.eqb c "013".
Definition lower (c : ascii) : ascii := let n := N_of_ascii c in if ((65 <=? n) && (n <=? 90))%N then ascii_of_N (n + 32) else c.
(** What is matched goes on with [k]; None: it does not match. *)
Fixpoint star (p : ascii -> bool) (s : string) (k : string -> option string) : option string :=
  match s with
  | String c s' => if p c then match star p s' k with Some r => Some r | None => k s end else k s
  | "" => k ""
  end.
Definition plus (p : ascii -> bool) (s : string) (k : string -> option string) : option string :=
  match s with String c s' => if p c then star p s' k else None | "" => None end.
(** 14: [value.replace(/\W/g, '.')], without regard to case *)
Fixpoint name (v s : string) (k : string -> option string) : option string :=
  match v, s with
  | "", _ => k s
  | String a v', String c s' => if (if word a then Ascii.eqb (lower a) (lower c) else negb (ends_line c)) then name v' s' k else None
  | String _ _, "" => None
  end.
Fixpoint to_end (s : string) : string := match s with String c s' => if ends_line c then "" else String c (to_end s') | "" => "" end.
(** 15, behind "^" *)
Definition entry_at (value s : string) : option string :=
  plus white s (fun s => name value s (fun s => plus white s (fun s => name "REG_" s (fun s => plus word s (fun s => plus white s (fun s =>
    match s with String c r => if white c then None else Some (String c (to_end r)) | "" => None end)))))).
(** the first place where it matches; [start]: a line begins here *)
Fixpoint exec (value : string) (start : bool) (s : string) : option string :=
  match (if start then entry_at value s else None) with
  | Some r => Some r
  | None => match s with String c s' => exec value (ends_line c) s' | "" => None end
  end.

(** ** 13-42: regGetValue; None: an exception *)
(** [stderr.trim() === ''] *)
Fixpoint blank (s : string) : bool := match s with "" => true | String c s' => white c && blank s' end.
(** What reg.exe did: an error, or what it wrote to its two outputs. *)
Inductive answer := Failed | Wrote (stdout stderr : string).
Definition reg_get_value (reg : string -> string -> answer) (key value : string) : option string :=
  match reg key value with
  | Failed => None
  | Wrote out err => if blank err then exec value true out else None
  end.
(** ** 44-52: regSearchKeys; the first result; None: undefined *)
Fixpoint reg_search_keys (reg : string -> string -> answer) (keys : list string) (value : string) : option string :=
  match keys with
  | [] => None
  | key :: keys' => match reg_get_value reg key value with Some r => Some r | None => reg_search_keys reg keys' value end
  end.
