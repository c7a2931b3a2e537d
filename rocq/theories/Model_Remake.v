(** What make does with the rules of Model_Writer: which recipe it runs, and which
    command that is.
    gyp/pylib/gyp/generator/make.py:505-576, 650-660, 1048-1100, 1213-1260. *)
From Verif Require Import Lib Str Model_Names Model_Path Model_Quote Model_Release Model_Make Model_Writer.
Local Open Scope string_scope.

(** All the rules for a file taken together. *)
Definition rules_for (rs : list written) (x : string) : list written := filter (fun r => mem x (heads r)) rs.
Definition needs_of (rs : list written) (x : string) : list string := flat_map needs (rules_for rs x).
Definition orders_of (rs : list written) (x : string) : list string := flat_map orders (rules_for rs x).
Definition forced_of (rs : list written) (x : string) : bool := existsb forced (rules_for rs x).
(** 651-659: the depfiles of the files in all_deps are read, no others. *)
Definition all_deps (ts : list target) : list string := flat_map tracked ts.
Definition visible (deps : list string) (st : state) (x : string) : option (string * list string) := if mem x deps then saved st x else None.
(** Prerequisites but the order-only ones, from the Makefile and from the depfile. *)
Definition watched (rs : list written) (deps : list string) (st : state) (x : string) : list string :=
  (needs_of rs x ++ match visible deps st x with Some (_, l) => l | None => [] end)%list.
(** make runs the recipe of a file that has FORCE_DO_CMD as a prerequisite, is
    missing, or is older than a prerequisite. *)
Definition out_of_date (rs : list written) (deps : list string) (st : state) (x : string) : bool :=
  forced_of rs x || match files st x with None => true | Some _ => false end || existsb (newer st x) (watched rs deps st x).
(** Then do_cmd (556) looks whether there is anything to do. *)
Definition runs (rs : list written) (deps : list string) (st : state) (x command : string) : bool :=
  out_of_date rs deps st x &&
  (command_changed command (match visible deps st x with Some (c, _) => c | None => "" end) || existsb (newer st x) (watched rs deps st x)).

(** Running a recipe.  [text] is what cmd_NAME is for a file once it is expanded:
    any function, as flags, tools and the variables of the target go into it. *)
Definition lines_of (rs : list written) (x : string) : list line := flat_map recipe (rules_for rs x).
Section Build.
Variables (exec : tool) (text : string -> string -> string) (rs : list written) (deps : list string).
Definition execute (st : state) (x c : string) (depfile : list string -> option (list string)) : option state :=
  match exec c (contents st) with
  | Some (r, reads) => Some (match depfile reads with Some l => record (write st x r) x (Some (recorded c, l)) | None => write st x r end)
  | None => None
  end.
(** 556-576; create_archive and create_thin_archive (1888, 1903) are commands
    without do_cmd.  Simplification: $? is looked at anew at each line. *)
Definition run_line (st : state) (x : string) (l : line) : option state :=
  match l with
  | Do c => if runs rs deps st x (text x c) then execute st x (text x c) (fun _ => Some []) else Some st
  | Do_tracked c => if runs rs deps st x (text x c) then execute st x (text x c) (fun reads => Some reads) else Some st
  | Archive thin => execute st x (text x (if thin then "create_thin_archive" else "create_archive")) (fun _ => None)
  | No_op => Some st
  end.
Fixpoint run_lines (st : state) (x : string) (l : list line) : option state :=
  match l with [] => Some st | i :: l' => match run_line st x i with Some st' => run_lines st' x l' | None => None end end.
Definition remake (st : state) (x : string) : option state := if out_of_date rs deps st x then run_lines st x (lines_of rs x) else Some st.
(** make goes through the files in some order; without -k it stops at the first
    failure.  Simplification: with several jobs, the order is that in which they
    end. *)
Fixpoint build (order : list string) (st : state) : state * bool :=
  match order with
  | [] => (st, true)
  | x :: l => match remake st x with Some st' => build l st' | None => (st, false) end
  end.
End Build.

(** The definitions of cmd_NAME for actions and rules, in the order in which they
    are written; a later one replaces an earlier one, and recipes are expanded when
    all is read. *)
Definition output_dirs (outputs : list string) : list string := Model_Graph.unify (filter (fun d => negb (String.eqb d "")) (map (fun o => fst (path_split o)) outputs)).
Definition library_path : string := "LD_LIBRARY_PATH=$(builddir)/lib.host:$(builddir)/lib.target:$$LD_LIBRARY_PATH; export LD_LIBRARY_PATH; ".
Definition hard_target (t : target) (s : string) : string := replace "$(TARGET)" (target_name t) s.
Definition cd_action (t : target) : string := "cd " ++ sourceify (match path t with EmptyString => "." | p => p end) ++ "; ".
(** 1054-1092; the directories are in a set, so their order is any; the model has
    one. *)
Definition action_text (t : target) (a : action) : string :=
  let command := encode_posix_shell_list (action_command a) in
  let command := match output_dirs (action_outputs a) with [] => command | ds => "mkdir -p " ++ join_with " " ds ++ "; " ++ command end in
  library_path ++ hard_target t (cd_action t) ++ hard_target t command.
(** 1213-1258 *)
Definition rule_text (t : target) (r : rule) (source : string) : string :=
  let args := map (fun a => expand_input_root a (fst (splitext (snd (path_split source)))) (fst (path_split source))) (rule_command r) in
  let mkdirs := match output_dirs (rule_outputs_for r source) with [] => "" | ds => "mkdir -p " ++ join_with " " ds ++ "; " end in
  library_path ++ hard_target t (cd_action t) ++ hard_target t mkdirs ++ hard_target t (encode_posix_shell_list args).
Fixpoint rule_definitions (t : target) (r : rule) (number : nat) (l : list string) : list (string * string) :=
  match l with [] => [] | s :: l' => (action_variable t (rule_name r) ++ "_" ++ decimal (N.of_nat number), rule_text t r s) :: rule_definitions t r (S number) l' end.
Definition definitions_of (t : target) : list (string * string) :=
  (map (fun a => (action_variable t (action_name a), action_text t a)) (actions t) ++ flat_map (fun r => rule_definitions t r 0 (rule_sources r)) (rules t))%list.
Definition definitions (ts : list target) : list (string * string) := flat_map definitions_of ts.
Definition value_of (ds : list (string * string)) (name : string) : option string := assoc name (rev ds).
