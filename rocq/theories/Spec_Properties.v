(** What is said about the properties in Visual Studio projects: how MSBuild
    evaluates them. *)
From Verif Require Import Lib Str.
Local Open Scope string_scope.

(** ** references: $(Name) *)
Definition letter (a : ascii) : bool := has_char a "ABCDEFGHIJKLMNOPQRSTUVWXYZabcdefghijklmnopqrstuvwxyz_".
Definition letter_or_digit (a : ascii) : bool := letter a || has_char a "0123456789".
Definition identifier (n : string) : bool := match n with "" => false | String a n' => letter a && forallb letter_or_digit (list_ascii_of_string n') end.
(** The name up to the next bracket. *)
Fixpoint up_to_bracket (s : string) : option string :=
  match s with "" => None | String a s' => if Ascii.eqb a ")" then Some "" else match up_to_bracket s' with Some n => Some (String a n) | None => None end end.
Definition reference (s : string) : option string :=
  match s with
  | String a (String b s') => if Ascii.eqb a "$" && Ascii.eqb b "(" then match up_to_bracket s' with Some n => if identifier n then Some n else None | None => None end else None
  | _ => None
  end.
(** The values of all properties; those that are not set have the empty one. *)
Definition environment := string -> string.
(** A text with the values in place of the references; [skip] characters are part of
    one that has been replaced. *)
Fixpoint expanded (env : environment) (skip : nat) (s : string) : string :=
  match s with
  | "" => ""
  | String a s' =>
    match skip with
    | S k => expanded env k s'
    | O => match reference s with Some n => env n ++ expanded env (2 + String.length n) s' | None => String a (expanded env 0 s') end
    end
  end.
Definition expand (env : environment) (s : string) : string := expanded env 0 s.
(** [n] is referred to in [s]. *)
Fixpoint refers_from (skip : nat) (s n : string) : Prop :=
  match s with
  | "" => False
  | String a s' =>
    match skip with
    | S k => refers_from k s' n
    | O => match reference s with Some m => m = n \/ refers_from (2 + String.length m) s' n | None => refers_from 0 s' n end
    end
  end.
Definition refers (s n : string) : Prop := refers_from 0 s n.

(** ** evaluation: one property after the other, each replacing the value the property
    had; names that differ in case only are one *)
Definition lower_letter (a : ascii) : ascii := let n := N_of_ascii a in if N.leb 65 n && N.leb n 90 then ascii_of_N (n + 32) else a.
Fixpoint lower_case (s : string) : string := match s with "" => "" | String a s' => String (lower_letter a) (lower_case s') end.
(** [here]: the configuration and the platform that are built, parted by a bar *)
Definition applies (here : string) (condition : option string) : bool :=
  match condition with None => true | Some c => String.eqb c ("'$(Configuration)|$(Platform)'=='" ++ here ++ "'") end.
Fixpoint evaluate (here : string) (l : list (string * option string * string)) (env : environment) : environment :=
  match l with
  | [] => env
  | (name, c, value) :: l' =>
    evaluate here l' (if applies here c then let v := expand env value in fun n => if String.eqb (lower_case n) (lower_case name) then v else env n else env)
  end.
(** ** what the user of gyp says: properties for each of some configurations *)
Definition stated (l : list (string * list (string * string))) (here name value : string) : Prop := exists g, In (here, g) l /\ In (name, value) g.
(** A name is given once for a configuration at most; or it has one value, a plain
    one, for all of them. *)
Definition consistent (l : list (string * list (string * string))) (name : string) : Prop :=
  (forall here g, In (here, g) l -> NoDup (filter (String.eqb name) (map fst g))) \/
  exists value, has_char "$" value = false /\ (forall here g, In (here, g) l -> In (name, value) g) /\ (forall here g v, In (here, g) l -> In (name, v) g -> v = value).
(** Properties and references to them are spelled alike. *)
Definition spelled_alike (l : list (string * list (string * string))) : Prop :=
  forall here name value m, stated l here name value ->
  (exists here' value', stated l here' m value') \/ (exists here' name' value', stated l here' name' value' /\ refers value' m) ->
  lower_case m = lower_case name -> m = name.
(** A property refers to another one, in any configuration. *)
Definition uses (l : list (string * list (string * string))) (x y : string) : Prop :=
  (exists here value, stated l here x value /\ refers value y) /\ (exists here value, stated l here y value) /\ y <> x.
(** A name of letters, digits, hyphens and periods. *)
Definition plain_name (n : string) : Prop := n <> "" /\ forallb (fun a => letter_or_digit a || Ascii.eqb a "-" || Ascii.eqb a ".") (list_ascii_of_string n) = true.
