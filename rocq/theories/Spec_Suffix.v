(** What is expected of compiling: each object comes from its source. *)
From Verif Require Import Lib Str Spec_Path Model_Writer.
Local Open Scope string_scope.

(** The kinds of source, and what compiles them. *)
Definition languages : list (string * string) := [(".c", "cc"); (".cc", "cxx"); (".cpp", "cxx"); (".cxx", "cxx"); (".s", "cc"); (".S", "cc")].
(** A name: no slash, no dollar sign, some character that is no period. *)
Definition plain_name (n : string) : Prop := has_char "/" n = false /\ has_char "$" n = false /\ exists a c b, n = a ++ String c b /\ c <> "."%char.
(** A directory: nothing, or with a slash at the end. *)
Definition plain_dir (d : string) : Prop := has_char "$" d = false /\ (d = "" \/ exists e, d = e ++ "/").
(** A source [s] of a target is the file [f] and compiled with [c]: it is in the tree,
    relative to the build file; or generated in the directory that all targets
    share; or in that of the target. *)
Inductive source_at (t : target) : string -> string -> string -> Prop :=
| in_tree d n e c q : plain_dir d -> (forall r, d <> String "/" r) -> plain_name n -> In (e, c) languages ->
    (forall r, q <> String "/" r) -> (forall here, locate here q = locate (locate here (path t)) (d ++ n ++ e)) ->
    source_at t (d ++ n ++ e) ("$(srcdir)/" ++ q) c
| shared d n e c : plain_dir d -> plain_name n -> In (e, c) languages ->
    source_at t ("$(obj)/" ++ d ++ n ++ e) ("$(obj)/" ++ d ++ n ++ e) c
| private d n e c : plain_dir d -> plain_name n -> In (e, c) languages ->
    source_at t ("$(obj).$(TOOLSET)/$(TARGET)/" ++ d ++ n ++ e) ("$(obj)." ++ toolset t ++ "/" ++ target_name t ++ "/" ++ d ++ n ++ e) c.
(** The same without the file. *)
Definition plain_source (s e c : string) : Prop :=
  In (e, c) languages /\ exists d n, plain_dir d /\ plain_name n /\
    (((forall r, d <> String "/" r) /\ s = d ++ n ++ e) \/ s = "$(obj)/" ++ d ++ n ++ e \/ s = "$(obj).$(TOOLSET)/$(TARGET)/" ++ d ++ n ++ e).
(** The files from which the patterns let an object be made. *)
Definition fits (ts : list target) (x c : string) : Prop :=
  exists u s d e k, In u ts /\
    (x = "$(obj)." ++ toolset u ++ "/" ++ s ++ ".o" \/ x = "$(obj)." ++ toolset u ++ "/" ++ target_name u ++ "/" ++ s ++ ".o") /\
    (d = "$(srcdir)/" \/ d = "$(obj)." ++ toolset u ++ "/" \/ d = "$(obj)/") /\ In (e, k) languages /\ c = d ++ s ++ e.
(** Names of targets and toolsets, and the directory of the build file. *)
Definition plain_word (w : string) : Prop := w <> "" /\ has_char "$" w = false /\ has_char "/" w = false /\ has_char "%" w = false.
Definition plain_names (t : target) : Prop := plain_word (target_name t) /\ plain_word (toolset t) /\ has_char "$" (path t) = false /\ (forall r, path t <> String "/" r).
(** Those that a target itself lets be taken, because some source of it, or of one with
    the same name, has the extension. *)
Definition nearest (ts : list target) (t : target) (x k : string) : Prop :=
  exists s d e b u, x = "$(obj)." ++ toolset t ++ "/" ++ target_name t ++ "/" ++ s ++ ".o" /\
    (d = "$(srcdir)/" \/ d = "$(obj)." ++ toolset t ++ "/" \/ d = "$(obj)/") /\ k = d ++ s ++ e /\
    In u ts /\ target_name u = target_name t /\ toolset u = toolset t /\ In (b ++ e) (sources u ++ extra_sources u)%list.
Definition not_private (s : string) : Prop := forall r, s <> "$(obj).$(TOOLSET)/$(TARGET)/" ++ r.
(** The sources of a target: those listed, and the outputs of actions and rules that
    say so. *)
Inductive source_of (t : target) : string -> Prop :=
| own_source s : In s (sources t) -> source_of t s
| action_source a s : In a (actions t) -> outputs_are_sources a = true -> In s (action_outputs a) -> source_of t s
| rule_source r x s : In r (rules t) -> rule_outputs_are_sources r = true -> In x (rule_sources r) -> In s (rule_outputs_for r x) -> source_of t s.
