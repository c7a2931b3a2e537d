(** What is said about the standard output of node-gyp. *)
From Verif Require Import Lib Model_Cli Model_Stdout.
Local Open Scope string_scope.

(** [c] is run, after [hist], and gives [v]; the run goes on with [after]. *)
Inductive runs (w : outcomes) (pushes : more) : list task -> list task -> list (task * value) -> list task -> Prop :=
| runs_none hist todo : runs w pushes hist todo [] todo
| runs_one hist c todo v l after : w hist c = Gives v -> runs w pushes (hist ++ [c])%list (todo ++ pushes hist c)%list l after -> runs w pushes hist (c :: todo) ((c, v) :: l) after.
(** A line. *)
Definition line (s : string) : string := s ++ String "010" "".
(** What is printed for a version directory, if it can be read. *)
Definition installed (dir : listing) : option (list string) :=
  match dir with
  | Names l => Some (filter (fun v => negb (String.eqb v "current")) l)
  | Error code => if String.eqb code "ENOENT" then Some [] else None
  end.
(** In this world the command list reads the directories [dirs]; the others give
    nothing. *)
Definition honest (w : outcomes) (dirs : list task -> listing) : Prop :=
  forall hist c, (fst c = "list" -> w hist c = list_command (dirs hist)) /\ (fst c <> "list" -> forall v, w hist c = Gives v -> v = Nothing).
(** The lines for one list command. *)
Definition lines_for (names : list string) : list string :=
  match names with [] => [line "No node development files installed. Use `node-gyp install` to install a version."] | l => map line l end.
(** [out] is what is to be written as the commands [done] are run after [hist]: the lines
    of each list command, with the names in the directory at that time. *)
Inductive says (dirs : list task -> listing) : list task -> list (task * value) -> list string -> Prop :=
| says_none hist : says dirs hist [] []
| says_list hist c v l names out : fst c = "list" -> installed (dirs hist) = Some names -> says dirs (hist ++ [c])%list l out -> says dirs hist ((c, v) :: l) (lines_for names ++ out)%list
| says_other hist c v l out : fst c <> "list" -> says dirs (hist ++ [c])%list l out -> says dirs hist ((c, v) :: l) out.
(** What commands add to the queue: lib/rebuild.js:4-8 and lib/install.js:390. *)
Definition usual (pushes : more) : Prop := forall hist c, pushes hist c = [] \/
  fst c = "rebuild" /\ pushes hist c = [("clean", []); ("configure", snd c); ("build", [])] \/
  (fst c = "install" \/ fst c = "configure") /\ pushes hist c = [("remove", snd c)].
