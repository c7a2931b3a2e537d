(** What is said about the items of Visual Studio projects. *)
From Verif Require Import Lib Str Spec_Path Model_Vcxproj.
Local Open Scope string_scope.

(** ** paths on Windows *)
(** The names in a path, between slashes or backslashes. *)
Fixpoint pieces (s : string) : list string :=
  match s with
  | "" => [""]
  | String a s' =>
    if Ascii.eqb a "/" || Ascii.eqb a "\" then "" :: pieces s'
    else match pieces s' with x :: l => String a x :: l | [] => [] end
  end.
(** Where a relative path leads from the directory [here], see Spec_Path. *)
Definition leads (here : list string) (p : string) : list string := walk here (pieces p).
(** A relative path without macros; with no colon in it, either. *)
Definition local (s : string) : Prop :=
  s <> "" /\ has_char "$" s = false /\
  (forall a r, s <> String a (String ":" r)) /\ (forall r, s <> String "/" r) /\ (forall r, s <> String "\" r).
Definition relative (s : string) : Prop := local s /\ has_char ":" s = false.
(** Two paths to one file. *)
Definition same_file (s t : string) : Prop := forall here, leads here s = leads here t.
(** A path that goes up only. *)
Definition climbs (s : string) : Prop := s = "" \/ forall c, In c (pieces s) -> c = "..".

(** ** how MSBuild reads the list of files of an item: the files are parted by
    semicolons, blanks around them are dropped, and %XX is the character with that
    number; with wildcards or references to other items in it, it is not read here *)
Definition hex (a : ascii) : option N :=
  let n := N_of_ascii a in
  if N.leb 48 n && N.leb n 57 then Some (n - 48)%N
  else if N.leb 65 n && N.leb n 70 then Some (n - 55)%N
  else if N.leb 97 n && N.leb n 102 then Some (n - 87)%N else None.
Fixpoint unescape (s : string) : string :=
  match s with
  | "" => ""
  | String a s' =>
    match s' with
    | String b (String c s'') =>
      if Ascii.eqb a "%" then
        match hex b, hex c with Some h, Some l => String (ascii_of_N (16 * h + l)) (unescape s'') | _, _ => String a (unescape s') end
      else String a (unescape s')
    | _ => String a (unescape s')
    end
  end.
Fixpoint semicolons (s : string) : list string :=
  match s with
  | "" => [""]
  | String a s' => if Ascii.eqb a ";" then "" :: semicolons s' else match semicolons s' with x :: l => String a x :: l | [] => [] end
  end.
Definition reads (include : string) : list string := filter (fun f => negb (String.eqb f "")) (map (fun f => unescape (strip f)) (semicolons include)).
(** A path that is read as it is written. *)
Definition literal (s : string) : Prop :=
  has_char ";" s = false /\ has_char "%" s = false /\ has_char "@" s = false /\ has_char "*" s = false /\ has_char "?" s = false /\
  Forall (fun c => strip c = c) (pieces s).

(** The way from the directory of a project to that of the .gyp file: it goes up
    first, and down again for a .gyp file in a subdirectory. *)
Definition way (s : string) : Prop :=
  s = "" \/ (exists l, pieces s = ".." :: l) /\ ~ In "" (pieces s) /\ has_char "$" s = false /\ has_char ":" s = false /\ literal s.

(** ** what the user of gyp says *)
(** Two paths to one file, from the directory of the .gyp file. *)
Definition same_place (p : project) (s t : string) : Prop := forall here, leads (leads here (prefix p)) s = leads (leads here (prefix p)) t.
(** The file [s] is to be built into the target. *)
Definition meant (p : project) (s : string) : Prop :=
  In s (sources p) \/ exists a, In a (actions p) /\ as_sources a = true /\ In s (outputs a).
(** It is named elsewhere in the target: as excluded, as what an action is made
    from (an action with no inputs depends on the .gyp file), or as a file to copy. *)
Definition taken (p : project) (s : string) : Prop :=
  exists i, local i /\ same_place p i s /\
  (In i (sources_excluded p) \/
   (exists a, In a (actions p) /\ (In i (inputs a) \/ inputs a = [] /\ i = build_file p)) \/
   (exists c, In c (copies p) /\ In i (files c))).
(** [s] is not named in another way that goes out of the directory of the .gyp file
    and back into it by its name; nor is it that directory. *)
Definition one_spelling (p : project) (s : string) : Prop := forall x, x = "" \/ meant p x -> same_place p x s -> same_file x s.
(** The name of a file for the C or C++ compiler, any letters in upper or lower case. *)
Inductive same_letter : ascii -> ascii -> Prop :=
| letter_same a : same_letter a a
| letter_upper a b : (N_of_ascii b = N_of_ascii a + 32)%N -> (65 <= N_of_ascii a <= 90)%N -> same_letter a b.
Inductive same_word : string -> string -> Prop :=
| word_nil : same_word "" ""
| word_cons a b s t : same_letter a b -> same_word s t -> same_word (String a s) (String b t).
(** [s] has the extension [e]: it is not the whole name of the file, nor are there
    only periods before it. *)
Definition has_extension (s e : string) : Prop :=
  exists d n x, s = d ++ n ++ "." ++ x /\ (d = "" \/ exists d', d = d' ++ "/" \/ d = d' ++ "\") /\
  (forall c, In c ["/"; "\"]%char -> has_char c n = false /\ has_char c x = false) /\ has_char "." x = false /\
  (exists a, a <> "."%char /\ has_char a n = true) /\ e = "." ++ x.
Definition source_file (s : string) : Prop :=
  exists e l, has_extension s e /\ same_word e l /\ In l [".c"; ".cc"; ".cpp"; ".cxx"; ".mm"].
(** No rule is there for files named like [s]. *)
Definition no_rule (p : project) (s : string) : Prop :=
  forall r e l, In r (rules p) -> has_extension s e -> same_word e l -> l <> extension r /\ l <> "." ++ extension r.
(** The name of the .gyp file. *)
Definition gyp_name (s : string) : Prop := exists n, s = n ++ ".gyp" /\ has_char "/" s = false /\ has_char "\" s = false /\ relative s.

(** No precompiled headers, msvs_precompiled_header and msvs_precompiled_source, are
    named. *)
Definition no_precompiled (p : project) : Prop := Forall (fun c => precompiled c = [""; ""]) (configurations p).
(** A path that does not go up. *)
Definition below (s : string) : Prop := ~ In ".." (pieces s).
