(** What is expected of the commands of actions and rules in the files for ninja: how
    ninja and the shell read them, and what the programs get. *)
From Verif Require Import Lib Str Spec_Quote Spec_Ninja Model_Names Model_Path Model_Writer Model_NinjaBuild.
Local Open Scope string_scope.

(** ** ninja: variables *)
(** A line of the form "  key = value"; blanks in front of the value do not belong to
    it. *)
Fixpoint skip_blanks (s : string) : string := match s with String c s' => if Ascii.eqb c " " then skip_blanks s' else s | "" => "" end.
Fixpoint key_of (s : string) : string * string := match s with String c s' => if in_name c then let '(k, r) := key_of s' in (String c k, r) else ("", s) | "" => ("", "") end.
Definition assignment (line : string) : option (string * string) :=
  let '(k, r) := key_of (skip_blanks line) in
  match k, skip_blanks r with
  | String _ _, String c v => if Ascii.eqb c "=" then Some (k, skip_blanks v) else None
  | _, _ => None
  end.
(** [out], in front of whatever text, is read as such a line. *)
Definition reads_as (out key value : string) : Prop := forall rest, exists line, logical_line Normal (out ++ rest) = Some (line, rest) /\ assignment line = Some (key, value).
(** What a value stands for: "$$", "$ " and "$:" are a character each, "$name" and
    "${name}" the value of a variable. *)
Inductive mode := Plain | Dollar | Simple (name : string) | Braced (name : string).
Fixpoint evaluate (env : string -> string) (m : mode) (s : string) : option string :=
  match s with
  | "" => match m with Plain => Some "" | Simple n => Some (env n) | _ => None end
  | String c s' =>
    match m with
    | Plain => if Ascii.eqb c "$" then evaluate env Dollar s' else option_map (String c) (evaluate env Plain s')
    | Dollar =>
      if Ascii.eqb c "$" || Ascii.eqb c " " || Ascii.eqb c ":" then option_map (String c) (evaluate env Plain s')
      else if Ascii.eqb c "{" then evaluate env (Braced "") s'
      else if name_char c then evaluate env (Simple (String c "")) s' else None
    | Simple n =>
      if name_char c then evaluate env (Simple (n ++ String c "")) s'
      else option_map (append (env n)) (if Ascii.eqb c "$" then evaluate env Dollar s' else option_map (String c) (evaluate env Plain s'))
    | Braced n =>
      if Ascii.eqb c "}" then (if String.eqb n "" then None else option_map (append (env n)) (evaluate env Plain s'))
      else if name_char c || Ascii.eqb c "." then evaluate env (Braced (n ++ String c "")) s' else None
    end
  end.
(** The environment of a build statement: its own variables, which were evaluated when
    the statement was read, then those of the file. *)
Definition within (own : list (string * string)) (file : string -> string) (name : string) : string := match assoc name own with Some v => v | None => file name end.

(** ** the shell *)
(** The command changes to a directory and runs a program with these words there. *)
Definition runs_in (command dir : string) (words : list (list atom)) : Prop :=
  exists a b, command = a ++ "; " ++ b /\ sh_words a = Some [literal "cd"; literal dir] /\ sh_words b = Some words.
(** A directory with a simple name. *)
Definition simple (d : string) : Prop := d <> "" /\ forall c, has_char c d = true -> has_char c (String "009" (String "010" (String "034" " #$%&'()*;<=>?[{|}~\`"))) = false.

(** ** what is written in a .gyp file *)
Inductive input := Source | Root | Dirname | Ext | Name.
Inductive piece := Text (s : string) | Product_dir | Intermediate_dir | Configuration | Rule_input (i : input).
Definition input_name (i : input) : string := match i with Source => "source" | Root => "root" | Dirname => "dirname" | Ext => "ext" | Name => "name" end.
(** How the generator has gyp put it (generator_default_variables): <(PRODUCT_DIR) and so
    on. *)
Definition written (p : piece) : string :=
  match p with Text s => s | Product_dir => "$!PRODUCT_DIR" | Intermediate_dir => "$!INTERMEDIATE_DIR" | Configuration => "$|CONFIGURATION_NAME" | Rule_input i => "${" ++ input_name i ++ "}" end.
Definition argument (ps : list piece) : string := String.concat "" (map written ps).
(** What the program gets for it. *)
Record meanings := { product_is : string; intermediate_is : string; configuration_is : string; input_is : input -> string }.
Definition piece_means (m : meanings) (p : piece) : string :=
  match p with Text s => s | Product_dir => product_is m | Intermediate_dir => intermediate_is m | Configuration => configuration_is m | Rule_input i => input_is m i end.
Definition means (m : meanings) (ps : list piece) : string := String.concat "" (map (piece_means m) ps).

(** Texts that ninja's files can hold: no dollar sign and no newline. *)
Definition clear (s : string) : Prop := has_char "$" s = false /\ has_char "010" s = false.
Definition one_blank (s : string) : Prop := forall a b, s <> a ++ "  " ++ b.
(** The value of a variable of a rule: besides, nothing the shell sees in double
    quotes, and no blank in front. *)
Definition harmless (s : string) : Prop := clear s /\ one_blank s /\ has_char "034" s = false /\ has_char "\" s = false /\ has_char "`" s = false /\ (forall a, s <> " " ++ a).
(** An argument without variables of rules. *)
Definition no_input (ps : list piece) : Prop := forall i, ~ In (Rule_input i) ps.
Definition clear_argument (ps : list piece) : Prop := forall s, In (Text s) ps -> clear s.
(** No two blanks in a row, as it is written with the directories in place. *)
Definition spaced (m : meanings) (ps : list piece) : Prop :=
  one_blank (String.concat "" (map (fun p => match p with Rule_input i => "${" ++ input_name i ++ "}" | _ => piece_means m p end) ps)).
(** In the directory of the .gyp file: the build directory, the target's directory for
    generated files (its name is as the build statements have it), the name of the
    configuration. *)
Definition here (s : setup) (t : target) (to_build : string) (inputs : input -> string) : meanings :=
  {| product_is := to_build; intermediate_is := path_join to_build (int_dir t); configuration_is := config_name s; input_is := inputs |}.
Definition clear_here (s : setup) (t : target) (to_build : string) : Prop := to_build <> "" /\ clear to_build /\ clear (path_join to_build (int_dir t)) /\ clear (config_name s).
(** The parts of the path of a source. *)
Definition input_of (source : string) (i : input) : string :=
  let p := normpath source in
  match i with
  | Source => p
  | Dirname => fst (path_split p)
  | Name => snd (path_split p)
  | Root => fst (splitext (snd (path_split p)))
  | Ext => snd (splitext (snd (path_split p)))
  end.
