(** How make reads lines that set variables, from the GNU make manual (6.1, 6.3.2,
    6.11, 10.5.3), as far as needed: references with names of letters, digits,
    periods, underscores, hyphens and at signs, also computed ones, two dollar signs, and $@
    and $<.  Where it finds anything else the reader gives up.  And what flags
    a compiler is to be given. *)
From Verif Require Import Lib Str Model_Path Spec_Quote Model_Quote Model_Writer Model_Flags.
Local Open Scope string_scope.

Definition letter (c : ascii) : bool := in_range "a" "z" c || in_range "A" "Z" c || in_range "0" "9" c.
Definition name_char (c : ascii) : bool := letter c || has_char c "._-@".

(** The text with its references replaced; [stack] has the texts around the
    references that are open. *)
Fixpoint refs (value : string -> option string) (stack : list string) (cur : string) (s : string) : option string :=
  match s with
  | "" => match stack with [] => Some cur | _ => None end
  | String c s' =>
    if Ascii.eqb c "$" then
      match s' with
      | "" => None
      | String d s'' =>
        if Ascii.eqb d "$" then match stack with [] => refs value [] (cur ++ "$") s'' | _ => None end
        else if Ascii.eqb d "(" then refs value (cur :: stack) "" s''
        else if Ascii.eqb d "@" || Ascii.eqb d "<" then match value (String d "") with Some v => refs value stack (cur ++ v) s'' | None => None end
        else None
      end
    else match stack with
         | [] => refs value [] (cur ++ String c "") s'
         | up :: st =>
           if Ascii.eqb c ")" then match value cur with Some v => refs value st (up ++ v) s' | None => None end
           else if name_char c then refs value stack (cur ++ String c "") s' else None
         end
  end.
(** The value that "variable := text" gives the variable: lines joined, without the
    comment, expanded. *)
Definition read_value (value : string -> option string) (text : string) : option string := refs value [] "" (make_uncomment 0 (make_join 0 false text)).

(** The variables, and those of one file, the last that was set first.  One whose
    text the reader gave up on has no value here; one not set is empty. *)
Definition variables := list (string * option string).
Definition specifics := list ((string * string) * option string).
Definition lookup_in (vars : variables) (x : string) : option string := match assoc x vars with Some v => v | None => Some "" end.
Definition read_line (s : variables * specifics) (l : assignment) : variables * specifics :=
  let '(vars, sp) := s in
  match l with
  | Assign x text => ((x, read_value (lookup_in vars) text) :: vars, sp)
  | Assign_for files x text => (vars, (map (fun f => ((f, x), read_value (lookup_in vars) text)) files ++ sp)%list)
  end.
Definition read_lines (s : variables * specifics) (ls : list assignment) : variables * specifics := fold_left read_line ls s.
(** What a variable is while the command for a file is made up: the one that is set
    for the file goes before the one for all.  (One set for a file that needs this
    one would come between.) *)
Fixpoint specific (sp : specifics) (f x : string) : option (option string) :=
  match sp with
  | [] => None
  | ((f', x'), v) :: sp' => if String.eqb f f' && String.eqb x x' then Some v else specific sp' f x
  end.
Definition in_recipe (s : variables * specifics) (f x : string) : option string := match specific (snd s) f x with Some v => v | None => lookup_in (fst s) x end.
(** The words of the command for the file [f]; [automatic] are variables that only
    have a value in a recipe. *)
Definition command_words (s : variables * specifics) (f : string) (automatic : list (string * string)) (text : string) : option (list (list atom)) :=
  match refs (fun x => match assoc x automatic with Some v => Some v | None => in_recipe s f x end) [] "" text with Some v => sh_arguments v | None => None end.

(** Text that neither make nor a shell changes: letters, digits and a few signs. *)
Definition safe_char (c : ascii) : bool := letter c || has_char c "-_=./:,+@".
Fixpoint all_chars (f : ascii -> bool) (s : string) : bool := match s with "" => true | String c s' => f c && all_chars f s' end.
Definition safe (s : string) : Prop := s <> "" /\ all_chars safe_char s = true.
(** With a double quote in it a flag may also have blanks and other signs. *)
Definition calm_char (c : ascii) : bool := negb (has_char c "$`\#" || Ascii.eqb c "010").
Definition quoted (s : string) : Prop := has_char "034" s = true /\ all_chars calm_char s = true.
Definition plain_flag (s : string) : Prop := safe s \/ quoted s.
(** A define the Makefile can hold, see C28. *)
Definition plain_define (d : string) : Prop := has_char "010" d = false /\ forall a b, "-D" ++ d <> a ++ "\#" ++ b.

(** Where an include directory is: below the directory of the build file in the
    source tree, where it says, or below a directory of the build tree. *)
Inductive include_at (vars : string -> option string) (t : target) : string -> string -> Prop :=
| include_tree i src : safe i -> safe (path t) \/ path t = "" -> isabs (path_join (path t) i) = false -> vars "srcdir" = Some src -> safe src ->
    include_at vars t i (src ++ "/" ++ normpath (path_join (path t) i))
| include_absolute i : safe i -> isabs i = true -> include_at vars t i (normpath i)
| include_built x d i : In x ["obj"; "builddir"; "srcdir"] -> vars x = Some d -> safe d -> (i = "" \/ exists r, i = "/" ++ r /\ safe r) -> (forall a, i <> a ++ "/") ->
    include_at vars t ("$(" ++ x ++ ")" ++ i) (d ++ i).

(** No other configuration's variables have the names of those of this one. *)
Definition names_apart (b : string) (ns : list string) : Prop :=
  forall n p, In n ns -> In p ["C_"; "CC_"] -> n <> p ++ b /\ b <> p ++ n.

(** Each library once, where it is first named. *)
Inductive once_each : list string -> list string -> list string -> Prop :=
| once_nil seen : once_each seen [] []
| once_again seen x l r : In x seen -> once_each seen l r -> once_each seen (x :: l) r
| once_first seen x l r : ~ In x seen -> once_each (x :: seen) l r -> once_each seen (x :: l) (x :: r).
(** Where the program is to look for shared libraries when it runs and when it is
    linked, if it is linked with one: besides itself, and in the build directory. *)
Definition names_shared (f : string) : Prop := (exists a, f = a ++ ".so") \/ (exists a b, f = a ++ ".so." ++ b).
Definition run_paths (deps : list string) (builddir : string) (r : list string) : Prop :=
  ((exists f, In f deps /\ names_shared f) /\ r = ["-Wl,-rpath=$ORIGIN/"; "-Wl,-rpath-link=" ++ builddir ++ "/"]) \/ ((forall f, In f deps -> ~ names_shared f) /\ r = []).
(** The command for each type: [ld] and [more] are the linker and the flags the user
    sets for it, [inputs] the files to link. *)
Definition link_words (ty : kind) (ld more inputs : list (list atom)) (out base : string) (flags libs : list string) : option (list (list atom)) :=
  (match ty with
   | Executable => Some (ld ++ map literal (["-o"; out] ++ flags) ++ more ++ [literal "-Wl,--start-group"] ++ inputs ++ map literal (libs ++ ["-Wl,--end-group"]))
   | Shared_library => Some (ld ++ map literal (["-o"; out; "-shared"] ++ flags) ++ more ++ map literal ["-Wl,-soname=" ++ base; "-Wl,--whole-archive"]%string ++ inputs ++ map literal ("-Wl,--no-whole-archive" :: libs))
   | Loadable_module => Some (ld ++ map literal (["-o"; out; "-shared"] ++ flags) ++ more ++ map literal ["-Wl,-soname=" ++ base; "-Wl,--start-group"]%string ++ inputs ++ map literal ("-Wl,--end-group" :: libs))
   | _ => None
   end)%list.
