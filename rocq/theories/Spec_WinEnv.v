(** The environment that tools get on Windows.  Independent of Model_WinEnv. *)
From Coq Require Import NArith.
From Verif Require Import Lib Str.
Local Open Scope string_scope.

(** What "set" prints: a line for each variable *)
Definition printed (vars : list (string * string)) : string := String.concat "" (map (fun '(k, v) => k ++ "=" ++ v ++ String "013" (String "010" "")) vars).
(** No control characters *)
Fixpoint clean (s : string) : Prop := match s with "" => True | String a s' => (32 <= N_of_ascii a)%N /\ clean s' end.
Definition variable (kv : string * string) : Prop := clean (fst kv) /\ clean (snd kv) /\ has_char "=" (fst kv) = false.
(** Names are the same up to case: those that are capital letters stand for all. *)
Definition capital (a : ascii) : ascii := let n := N_of_ascii a in if N.leb 97 n && N.leb n 122 then ascii_of_N (n - 32) else a.
Fixpoint capitals (s : string) : string := match s with "" => "" | String a s' => String (capital a) (capitals s') end.
(** A variable's value: that of the last line for its name *)
Fixpoint value_of (vars : list (string * string)) (name : string) : option string :=
  match vars with
  | [] => None
  | (k, v) :: vars' => match value_of vars' name with Some x => Some x | None => if String.eqb (capitals k) name then Some v else None end
  end.
(** The variables that tools need *)
Definition needed (name : string) : bool := mem name ["INCLUDE"; "LIB"; "LIBPATH"; "PATH"; "PATHEXT"; "SYSTEMROOT"; "TEMP"; "TMP"] || String.prefix "GOMA_" name.
(** A variable's value for tools: python's directory is searched first. *)
Definition wanted (python : string) (vars : list (string * string)) (name : string) : option string :=
  if needed name then match value_of vars name with Some v => Some (if String.eqb name "PATH" then python ++ ";" ++ v else v) | None => None end else None.
(** A list without later doubles; the directories of a value *)
Fixpoint firsts (l : list string) : list string := match l with [] => [] | x :: l' => x :: filter (fun y => negb (String.eqb y x)) (firsts l') end.
Fixpoint directories (s : string) : list string :=
  match s with
  | "" => [""]
  | String a s' => match directories s' with d :: ds => if Ascii.eqb a ";" then "" :: d :: ds else String a d :: ds | [] => [] end
  end.
(** What "set" prints for each architecture; where it says headers are *)
Definition all_printed (archs : list (string * list (string * string))) : list (string * string) := map (fun '(a, vars) => (a, printed vars)) archs.
Definition included (vars : list (string * string)) : list string := directories (match value_of vars "INCLUDE" with Some i => i | None => "" end).
(** Digits and "_" are among the characters of words. *)
Definition digits_word (word : ascii -> bool) : Prop := forall c, In c ["0"; "1"; "2"; "3"; "4"; "5"; "6"; "7"; "8"; "9"; "_"]%char -> word c = true.
(** An option of the linker that names its output, in capital letters or not *)
Definition names_output (arg : string) : Prop := exists flag out, arg = flag ++ out /\ capitals flag = "/OUT:" /\ out <> "".
