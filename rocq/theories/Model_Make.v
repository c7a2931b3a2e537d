(** Model of how a generated Makefile decides what to run:
    gyp/pylib/gyp/generator/make.py:505-576 (command_changed, prereq_changed,
    do_cmd) and the depfiles it writes and includes (404-443, 662-672), run by
    GNU make. *)
From Verif Require Import Lib Str Model_Quote Spec_Quote.
Local Open Scope string_scope.

(** $(subst p,,s): occurrences from the left, not overlapping; [skip] is what is
    left of the present one.  With an empty p nothing is taken away. *)
Fixpoint cut_out (p : string) (skip : nat) (s : string) : string :=
  match s with
  | EmptyString => ""
  | String a s' =>
    match skip with
    | S k => cut_out p k s'
    | O => if String.prefix p s then cut_out p (String.length p - 1) s' else String a (cut_out p 0 s')
    end
  end.
Definition subst_empty (p s : string) : string := match p with EmptyString => s | _ => cut_out p 0 s end.
(** make.py:520-521 *)
Definition command_changed (cmd saved : string) : bool :=
  negb (String.eqb (subst_empty cmd saved) "") || negb (String.eqb (subst_empty saved cmd) "").

(** make.py:565: the line "cmd_NAME := COMMAND" with dollar signs doubled
    (escape_vars, 496), printed through the shell as it is (exact_echo, 501), and
    read back by make (670: include).  Simplification: a line that ends in a
    backslash is continued by an empty one, not by the rules behind it. *)
Definition recorded (cmd : string) : string :=
  match make_value (replace1 dollar "$$" cmd ++ str1 newline) with Some v => lstrip_ws v | None => "" end.

(** A rule that calls do_cmd (2083-2181, 625-641): one target; its prerequisites
    without FORCE_DO_CMD; those that are order-only (1450-1466); the command.
    Simplification: the rules for several outputs at once and postbuilds are left
    out. *)
Record rule := { out : string; inputs : list string; after : list string; command : string }.
(** The files with their times; for each target the depfile: the text it gives
    the variable, and the prerequisites it adds; and a clock that ticks at every
    change.  Simplification: no two changes happen at the same time. *)
Record entry := { content : string; time : nat }.
Record state := { files : string -> option entry; saved : string -> option (string * list string); clock : nat }.
Definition contents (st : state) (f : string) : option string := option_map content (files st f).
Definition set {A} (m : string -> option A) (k : string) (v : option A) : string -> option A := fun x => if String.eqb x k then v else m x.
Definition write (st : state) (f c : string) : state := {| files := set (files st) f (Some {| content := c; time := S (clock st) |}); saved := saved st; clock := S (clock st) |}.
Definition remove (st : state) (f : string) : state := {| files := set (files st) f None; saved := saved st; clock := clock st |}.
Definition record (st : state) (f : string) (d : option (string * list string)) : state := {| files := files st; saved := set (saved st) f d; clock := clock st |}.

(** $?: a prerequisite that is newer than the target, or has been missing, or any
    if the target is missing. *)
Definition newer (st : state) (target f : string) : bool :=
  match files st target, files st f with Some t, Some p => Nat.ltb (time t) (time p) | _, _ => true end.
(** 527-528; the prerequisites from the depfile count as the others do, the
    order-only ones do not. *)
Definition saved_command (st : state) (f : string) : string := match saved st f with Some (c, _) => c | None => "" end.
Definition saved_deps (st : state) (f : string) : list string := match saved st f with Some (_, l) => l | None => [] end.
Definition must_run (st : state) (r : rule) : bool :=
  command_changed (command r) (saved_command st (out r)) || existsb (newer st (out r)) (inputs r ++ saved_deps st (out r))%list.

(** What a command does: what it leaves in its target, and which files it has
    read (what the compiler writes under DEPFLAGS, 406); None if it fails.
    [tracked] is the second argument of do_cmd: whether the files that were read
    go into the depfile. *)
Definition tool := string -> (string -> option string) -> option (string * list string).
(** 556-576; None if the command fails: the depfile is not written then and the
    target is left alone. *)
Definition do_cmd (exec : tool) (tracked : string -> bool) (st : state) (r : rule) : option state :=
  if must_run st r then
    match exec (command r) (contents st) with
    | Some (c, reads) => Some (record (write st (out r) c) (out r) (Some (recorded (command r), if tracked (command r) then reads else [])))
    | None => None
    end
  else Some st.
(** make without -k: stops at the first failure. *)
Fixpoint make (exec : tool) (tracked : string -> bool) (rules : list rule) (st : state) : state * bool :=
  match rules with
  | [] => (st, true)
  | r :: rs => match do_cmd exec tracked st r with Some st' => make exec tracked rs st' | None => (st, false) end
  end.
(** do_cmd ended between its lines: after the command (562), or after the first
    line of the depfile (565). *)
Definition killed_before_depfile (exec : tool) (st : state) (r : rule) : option state :=
  if must_run st r then match exec (command r) (contents st) with Some (c, _) => Some (write st (out r) c) | None => None end else None.
Definition killed_in_depfile (exec : tool) (st : state) (r : rule) : option state :=
  if must_run st r then match exec (command r) (contents st) with Some (c, _) => Some (record (write st (out r) c) (out r) (Some (recorded (command r), []))) | None => None end else None.
(** A command that fails, or is killed, having written something. *)
Definition half_written (st : state) (r : rule) (c : string) : option state := if must_run st r then Some (write st (out r) c) else None.
