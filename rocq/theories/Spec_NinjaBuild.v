(** What is expected of the build statements for ninja: in which order things are
    made, and what is made. *)
From Verif Require Import Lib Str Model_Names Model_Path Model_Writer Model_NinjaBuild.
Local Open Scope string_scope.

(** ** ninja *)
(** What a build statement names as its inputs, of whatever sort. *)
Definition reads (e : edge) : list string := (ins e ++ implicit e ++ order_only e)%list.
Definition made (es : list edge) (p : string) : Prop := exists e, In e es /\ In p (outs e).
(** ninja wants each statement to have an output, no output without a name, and no
    file that two statements make. *)
Definition accepted (es : list edge) : Prop := (forall e, In e es -> outs e <> []) /\ ~ In "" (flat_map outs es) /\ NoDup (flat_map outs es).
(** What can happen, with any number of jobs: a statement is begun after all those are
    finished that make what it reads, and it is finished after it was begun.  One that
    is up to date is finished at once. *)
Inductive event := Begin (e : edge) | Finish (e : edge).
Definition allowed (es : list edge) (run : list event) : Prop :=
  (forall done e later, run = (done ++ Begin e :: later)%list -> forall p e', In p (reads e) -> In e' es -> In p (outs e') -> In (Finish e') done) /\
  (forall done e later, run = (done ++ Finish e :: later)%list -> In (Begin e) done).
(** The making of the file [p] is finished before that of [q] is begun. *)
Definition first (es : list edge) (run : list event) (p q : string) : Prop :=
  made es p /\ made es q /\
  forall e' e done later, In e' es -> In e es -> In p (outs e') -> In q (outs e) -> run = (done ++ Begin e :: later)%list -> In (Finish e') done.
(** What "ninja q" sees to. *)
Inductive asked (es : list edge) (q : string) : edge -> Prop :=
| asked_itself e : In e es -> In q (outs e) -> asked es q e
| asked_for e p e' : asked es q e -> In p (reads e) -> In e' es -> In p (outs e') -> asked es q e'.
Definition sees_to (es : list edge) (q x : string) : Prop := exists e, asked es q e /\ In x (outs e).

(** ** targets *)
Definition depends (ts : list target) (t d : target) : Prop := In t ts /\ In d ts /\ In (qualified d) (dependencies t).
Definition through (ts : list target) : target -> target -> Prop := clos_trans target (depends ts).
(** Each target comes after those it depends on: C01. *)
Definition in_order (ts : list target) : Prop := forall l1 t l2 d, ts = (l1 ++ t :: l2)%list -> depends ts t d -> In d l1.

Section Target.
Variables (s : setup) (ts : list target).
(** The files that an action, a rule, or copying makes. *)
Definition from_rule (t : target) (r : rule) (p : string) : Prop := exists f o, In f (rule_sources r) /\ In o (outputs_for r f) /\ to_ninja s t o = Some p.
Inductive generates (t : target) : string -> Prop :=
| gen_action a o p : In a (actions t) -> In o (action_outputs a) -> to_ninja s t o = Some p -> generates t p
| gen_rule r p : In r (rules t) -> from_rule t r p -> generates t p
| gen_copy c f p : In c (copies t) -> In f (copy_files c) -> to_ninja s t (path_join (destination c) (snd (path_split (normpath f)))) = Some p -> generates t p.
(** The same, without the rules behind one with two inputs or more and three sources or
    more. *)
Definition big (r : rule) : Prop := 2 <= length (rule_inputs r) /\ 3 <= length (rule_sources r).
Inductive waits (t : target) : string -> Prop :=
| wait_action a o p : In a (actions t) -> In o (action_outputs a) -> to_ninja s t o = Some p -> waits t p
| wait_rule l1 r l2 p : rules t = (l1 ++ r :: l2)%list -> (forall r', In r' l1 -> ~ big r') -> from_rule t r p -> waits t p
| wait_copy c f p : In c (copies t) -> In f (copy_files c) -> to_ninja s t (path_join (destination c) (snd (path_split (normpath f)))) = Some p -> waits t p.
(** The objects it is compiled to, obj/DIR/NAME.STEM.o for DIR/STEM.c. *)
Definition compiles (t : target) (o : string) : Prop :=
  exists f c, In f (all_sources t) /\ compiler f = Some c /\ unique s t (fst (splitext f) ++ ".o") true = Some o.
(** A target that has something to link: an object, or a library. *)
Inductive linked (t : target) : Prop :=
| linked_compiled o : type t <> None_ -> compiles t o -> linked t
| linked_object f : type t <> None_ -> In f (all_sources t) -> ends_with ".o" f = true -> linked t
| linked_library d : type t <> None_ -> depends ts t d -> type d = Static_library \/ type d = Shared_library -> linked d -> linked t.
(** Everything made for it. *)
Definition done (t : target) (x : string) : Prop :=
  generates t x \/ (type t <> None_ /\ compiles t x) \/ (linked t /\ product s t = Some x).
Definition has_cpp (t : target) : Prop := exists f, In f (all_sources t) /\ In (snd (splitext f)) [".cc"; ".cpp"; ".cxx"].
End Target.
