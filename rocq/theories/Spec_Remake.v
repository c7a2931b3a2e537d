(** What is expected of the rules in the Makefile: that the commands are run again
    exactly when there is a reason to. *)
From Verif Require Import Lib Str Model_Make Model_Writer Model_Remake Spec_Quote Spec_Make Spec_Writer.
Local Open Scope string_scope.

(** The files whose commands are kept track of. *)
Inductive noticed (t : target) : string -> Prop :=
| noticed_action a o : In a (actions t) -> action_outputs a = [o] -> noticed t (output t o)
| noticed_copy c f : In c (copies t) -> In f (copy_files c) -> noticed t (copy_output t c f)
| noticed_object s : In s (sources t ++ extra_sources t) -> compilable s = true -> noticed t (object_of t s)
| noticed_product : type t <> Static_library -> noticed t (binary t)
| noticed_install : installable t = true -> install_path t <> binary t -> noticed t (install_path t).
(** The reasons to run a command: it is not the one that was run, or there is no
    record of one; or a prerequisite, in the Makefile or read at the last time, is
    newer or missing. *)
Definition feeds (rs : list written) (x y : string) : Prop := exists r, In r rs /\ In x (heads r) /\ In y (needs r).
Definition late (st : state) (x y : string) : Prop := forall e f, files st x = Some e -> files st y = Some f -> time e < time f.
Definition other_command (st : state) (x text : string) : Prop := match saved st x with Some (c, _) => c <> text | None => text <> "" end.
Definition read_before (st : state) (x y : string) : Prop := exists c l, saved st x = Some (c, l) /\ In y l.
Definition reason (rs : list written) (st : state) (x text : string) : Prop :=
  other_command st x text \/ exists y, (feeds rs x y \/ read_before st x y) /\ late st x y.

(** Projects without gyp rules, static libraries, and actions with several
    outputs. *)
Definition simple (t : target) : Prop := rules t = [] /\ type t <> Static_library /\ (forall a, In a (actions t) -> exists o, action_outputs a = [o]).
(** The text of the one command of a file. *)
Definition the_text (rs : list written) (text : string -> string -> string) (x : string) : string :=
  match lines_of rs x with [Do c] => text x c | [Do_tracked c] => text x c | _ => "" end.
Definition rule_of (rs : list written) (text : string -> string) (x : string) : Model_Make.rule :=
  {| out := x; inputs := needs_of rs x; after := orders_of rs x; command := text x |}.
Definition commanded (ts : list target) (x : string) : Prop := exists t, In t ts /\ noticed t x.
(** The commands of the files in an order; other names have none. *)
Definition commands (ts : list target) (rs : list written) (text : string -> string -> string) (order : list string) : list Model_Make.rule :=
  map (rule_of rs (the_text rs text)) (filter (fun x => mem x (all_deps ts)) order).

(** What belongs to a target: its product, what it generates and compiles, and
    what belongs to the targets it depends on. *)
Inductive part (ts : list target) (d : target) : string -> Prop :=
| part_product : part ts d (install_path d)
| part_binary : part ts d (binary d)
| part_makes y : makes d y -> part ts d y
| part_object y : links d -> compiles d y -> part ts d y
| part_more e y : solid d -> depends ts d e -> part ts e y -> part ts d y.
(** The generated files that a command of a target may read: compiling and linking
    those that are generated in the target, linking the objects, putting the product
    in its place the product; all of them what belongs to the dependencies. *)
Inductive may_read (ts : list target) (t : target) (x : string) : string -> Prop :=
| read_generated y : compiles t x \/ x = binary t -> makes t y -> may_read ts t x y
| read_object y : links t -> x = binary t -> compiles t y -> may_read ts t x y
| read_product : x = install_path t -> install_path t <> binary t -> may_read ts t x (binary t)
| read_part d y : step t x \/ (solid t /\ (x = binary t \/ x = install_path t)) -> depends ts t d -> part ts d y -> may_read ts t x y.
(** The files that the commands other than compiling are said to read. *)
Inductive listed (ts : list target) (t : target) : string -> string -> Prop :=
| listed_action a o i : In a (actions t) -> action_outputs a = [o] -> In i (action_inputs a) -> listed ts t (output t o) (input t i)
| listed_copy c f : In c (copies t) -> In f (copy_files c) -> listed ts t (copy_output t c f) (input t f)
| listed_object y : links t -> compiles t y -> listed ts t (binary t) y
| listed_library d : links t -> depends ts t d -> type d = Shared_library -> listed ts t (binary t) (binary d)
| listed_install : install_path t <> binary t -> listed ts t (install_path t) (binary t).
(** There is something to be made from: actions have inputs, what is linked has an
    object or a library, the others depend on something. *)
Definition sourced (ts : list target) (t : target) : Prop :=
  (forall a, In a (actions t) -> action_inputs a <> []) /\
  (type t = None_ -> exists d, depends ts t d) /\
  (links t -> (exists x, compiles t x) \/ exists d, depends ts t d /\ type d = Shared_library).
(** Commands that read only what they may. *)
Record careful (ts : list target) (rs : list written) (exec : tool) (tracked : string -> bool) (text : string -> string -> string) : Prop := {
  marked : forall x c, (In (Do c) (lines_of rs x) -> tracked (text x c) = false) /\ (In (Do_tracked c) (lines_of rs x) -> tracked (text x c) = true);
  allowed : forall t x f c reads y, In t ts -> noticed t x -> exec (the_text rs text x) f = Some (c, reads) -> In y reads -> commanded ts y -> may_read ts t x y;
  announced : forall t x f c reads y, In t ts -> noticed t x -> ~ compiles t x -> exec (the_text rs text x) f = Some (c, reads) -> In y reads -> listed ts t x y;
  readable : forall t x, In t ts -> noticed t x -> plain (the_text rs text x) }.

(** The text that the variable of an action should have. *)
Inductive directory : string -> string -> Prop :=
| directory_none o : has_char "/" o = false -> directory o ""
| directory_made d b c : has_char "/" b = false -> c <> "/"%char -> directory (d ++ String c ("/" ++ b)) ("mkdir -p " ++ d ++ String c "; ").
Definition place (t : target) : string :=
  match path t with "" => "$(srcdir)/." | String "/" _ => path t | p => if contains "$(" p then p else "$(srcdir)/" ++ p end.
Definition runs_action (t : target) (a : action) (o value : string) : Prop :=
  exists mk command, directory o mk /\ sh_words command = Some (map with_dollars (action_command a)) /\
  value = "LD_LIBRARY_PATH=$(builddir)/lib.host:$(builddir)/lib.target:$$LD_LIBRARY_PATH; export LD_LIBRARY_PATH; " ++
          replace "$(TARGET)" (target_name t) ("cd " ++ place t ++ "; ") ++ replace "$(TARGET)" (target_name t) (mk ++ command).
