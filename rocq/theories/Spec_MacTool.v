(** What is said about the tools of the Makefiles. *)
From Coq Require Import ZArith.
From Verif Require Import Lib.
Local Open Scope string_scope.

(** A word has no blanks. *)
Definition is_blank (c : ascii) : Prop := In (nat_of_ascii c) [9; 10; 11; 12; 13; 28; 29; 30; 31; 32].
Definition word (s : string) : Prop := forall c, In c (list_ascii_of_string s) -> ~ is_blank c.
(** The warnings that are not shown: a file has no symbols, a library has none *)
Inductive silenced : string -> Prop :=
| no_symbols tool file : silenced (tool ++ "libtool: file: " ++ file ++ " has no symbols")
| no_symbols_arch tool arch file : word arch -> silenced (tool ++ "libtool: for architecture: " ++ arch ++ " file: " ++ file ++ " has no symbols")
| no_contents tool lib : silenced (tool ++ "libtool: warning for library: " ++ lib ++ " the table of contents is empty (no object file members in the library define global symbols)").
(** The lines without those that are silenced *)
Inductive shows : list string -> list string -> Prop :=
| shows_nil : shows [] []
| shows_line l ls out : ~ silenced l -> shows ls out -> shows (l :: ls) (l :: out)
| shows_not l ls out : silenced l -> shows ls out -> shows (l :: ls) out.
(** [f] is the library that the command writes: the first name in .a behind -o *)
Definition library (cmd : list string) (f : string) : Prop :=
  (exists s, f = s ++ ".a") /\ exists a b, cmd = (a ++ "-o" :: f :: b)%list /\
  forall a' s' b', cmd = (a' ++ "-o" :: (s' ++ ".a")%string :: b')%list -> length a <= length a'.
(** The exit codes of processes, negative for signals *)
Definition code (c : Z) : Prop := (-128 < c < 256)%Z.
