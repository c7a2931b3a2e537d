(** Model of the commands of actions and rules in the files for ninja,
    gyp/pylib/gyp/generator/ninja.py: ExpandSpecial with a product directory (260-289),
    WriteNewNinjaRule (1899-1985) and what WriteActions (646-685) and WriteRules (687-830)
    give it; for flavor linux, so there is no environment to set (GetToolchainEnv).
    Not modelled: descriptions, pools, depfiles. *)
From Coq Require Import ZArith.
From Verif Require Import Lib Str Model_Names Model_Path Model_Quote Model_Ninja Model_Writer Model_NinjaBuild.
Local Open Scope string_scope.

(** The way from the directory of the .gyp file to the build directory (257-258). *)
Definition ways := string.
(** 260-289: ExpandSpecial; without a product directory it is [special] *)
Definition special_in (s : setup) (t : target) (to_build : ways) (p : string) : string :=
  match to_build with
  | "" => special s t p
  | _ => replace "$|CONFIGURATION_NAME" (config_name s) (replace "$!INTERMEDIATE_DIR" (path_join to_build (int_dir t)) (replace "$!PRODUCT_DIR" to_build p))
  end.
(** 1938, 1957-1959 *)
Definition expanded (s : setup) (t : target) (to_build : ways) (args : list string) : list string := map (special_in s t to_build) args.
Definition command_text (s : setup) (t : target) (to_build : ways) (args : list string) : string :=
  "cd " ++ build_to_base s t ++ "; " ++ encode_posix_shell_list (expanded s t to_build args).
(** ninja_syntax.py:19 and 33-38: a variable in an indented line of at most 78
    characters, if possible *)
Definition variable_line (key value : string) : option string := write_line 78 1 (key ++ " = " ++ value).
Definition command_line (s : setup) (t : target) (to_build : ways) (args : list string) : option string := variable_line "command" (command_text s t to_build args).
(** 719-731: the variables of a rule; sorted *)
Definition needed_variables (args : list string) : list string :=
  filter (fun v => String.eqb v "source" || existsb (contains ("${" ++ v ++ "}")) args) ["dirname"; "ext"; "name"; "root"; "source"].
(** 760-762 and 783-811: their values for a source *)
Definition variable_value (s : setup) (t : target) (to_build : ways) (source v : string) : string :=
  let source := normpath source in
  let '(dir, base) := path_split source in
  let '(root, ext) := splitext base in
  if String.eqb v "root" then root else if String.eqb v "dirname" then special_in s t to_build dir
  else if String.eqb v "source" then special_in s t to_build source else if String.eqb v "ext" then ext else base.
Definition bindings (s : setup) (t : target) (to_build : ways) (r : rule) (source : string) : list (string * string) :=
  map (fun v => (v, variable_value s t to_build source v)) (needed_variables (expanded s t to_build (rule_command r))).
(** The ninja rules of a target: 667-669 and 713-715. *)
Definition ninja_rules (s : setup) (t : target) (to_build : ways) : list (string * string) :=
  (map (fun a => (rule_id s t (action_name a), command_text s t to_build (action_command a))) (actions t) ++
   map (fun r => (rule_id s t (rule_name r), command_text s t to_build (rule_command r))) (rules t))%list.
