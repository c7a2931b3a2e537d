(** Model of gyp/pylib/gyp/ninja_syntax.py. *)
From Coq Require Import ZArith.
From Verif Require Import Lib Str Model_Quote.
Local Open Scope string_scope.

(** [word.replace("$ ", "$$ ")]: left to right, without overlap. *)
Fixpoint replace_dollar_space (s : string) : string :=
  match s with
  | "" => ""
  | String c s' =>
    match s' with
    | String d s'' => if Ascii.eqb c dollar && Ascii.eqb d space then "$$ " ++ replace_dollar_space s'' else String c (replace_dollar_space s')
    | "" => s
    end
  end.
(** ninja_syntax.py:15-16: escape_path. *)
Definition escape_path (word : string) : string := replace1 colon "$:" (replace1 space "$ " (replace_dollar_space word)).

(** ninja_syntax.py:116-123: _count_dollars_before_index; the character at
    index 0 is not counted. *)
Fixpoint count_dollars_before (s : string) (i : nat) : nat :=
  match i with
  | O => O
  | S j => if Nat.ltb 0 j && match String.get j s with Some c => Ascii.eqb c dollar | None => false end then S (count_dollars_before s j) else O
  end.

(** A Python slice or search bound. *)
Definition py_index (len : nat) (z : Z) : nat :=
  if Z.ltb z 0 then Z.to_nat (z + Z.of_nat len) else Nat.min (Z.to_nat z) len.
(** [s.rfind(" ", 0, stop)]; the first argument is the index of the head. *)
Fixpoint rfind_space (i stop : nat) (s : string) : option nat :=
  match s with
  | "" => None
  | String c s' =>
    match rfind_space (S i) stop s' with
    | Some p => Some p
    | None => if Ascii.eqb c space && Nat.ltb i stop then Some i else None
    end
  end.
(** [s.find(" ", start)]. *)
Fixpoint find_space (i start : nat) (s : string) : option nat :=
  match s with
  | "" => None
  | String c s' => if Ascii.eqb c space && Nat.leb start i then Some i else find_space (S i) start s'
  end.
(** ninja_syntax.py:134-138. *)
Fixpoint search_back (fuel : nat) (s : string) (stop : nat) : option nat :=
  match fuel with
  | O => None
  | S fuel' =>
    match rfind_space 0 stop s with
    | None => None
    | Some p => if Nat.even (count_dollars_before s p) then Some p else search_back fuel' s p
    end
  end.
(** ninja_syntax.py:140-149. *)
Fixpoint search_forward (fuel : nat) (s : string) (start : nat) : option nat :=
  match fuel with
  | O => None
  | S fuel' =>
    match find_space 0 start s with
    | None => None
    | Some p => if Nat.even (count_dollars_before s p) then Some p else search_forward fuel' s (S p)
    end
  end.
(** ninja_syntax.py:132-149: where to break. *)
Definition break_at (width : Z) (leading : nat) (text : string) : option nat :=
  let len := String.length text in
  let available := (width - Z.of_nat leading - 2)%Z in
  match search_back (S len) text (py_index len available) with
  | Some p => Some p
  | None => search_forward (S len) text (py_index len available)
  end.

Fixpoint take (n : nat) (s : string) : string :=
  match n, s with S n', String c s' => String c (take n' s') | _, _ => "" end.
Fixpoint drop (n : nat) (s : string) : string :=
  match n, s with O, _ => s | S n', String _ s' => drop n' s' | _, "" => "" end.
Fixpoint spaces (n : nat) : string := match n with O => "" | S n' => String space (spaces n') end.

(** ninja_syntax.py:125-159: Writer._line; None is out of fuel. *)
Fixpoint wrap (fuel : nat) (width : Z) (indent leading : nat) (text : string) : option string :=
  match fuel with
  | O => None
  | S fuel' =>
    if Z.ltb width (Z.of_nat leading + Z.of_nat (String.length text)) then
      match break_at width leading text with
      | None => Some (spaces leading ++ text ++ str1 newline)
      | Some p => option_map (append (spaces leading ++ take p text ++ " $" ++ str1 newline))
                             (wrap fuel' width indent (2 * (indent + 2)) (drop (S p) text))
      end
    else Some (spaces leading ++ text ++ str1 newline)
  end.
Definition write_line (width : Z) (indent : nat) (text : string) : option string :=
  wrap (S (String.length text)) width indent (2 * indent) text.

(** ninja_syntax.py:33-38: variable (its value given as a list). *)
Definition variable_text (key : string) (values : list string) : string :=
  key ++ " = " ++ join_with " " (filter (fun v => negb (String.eqb v "")) values).
(** ninja_syntax.py:76-97: the text of a build statement. *)
Definition build_text (outputs : list string) (rule : string) (inputs implicit order_only : list string) : string :=
  let section bar l := match l with [] => [] | _ => bar :: map escape_path l end in
  "build " ++ join_with " " (map escape_path outputs) ++ ": " ++
  join_with " " (rule :: map escape_path inputs ++ section "|" implicit ++ section "||" order_only)%list.
