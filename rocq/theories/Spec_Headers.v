(** Which headers an addon is compiled against: what node-gyp's documentation
    says of --nodedir, --target and --tarball. *)
From Verif Require Import Lib Str Model_Headers.
Local Open Scope string_scope.

Definition ends_line (a : ascii) : Prop := a = "010"%char \/ a = "013"%char.
Definition one_line (s : string) : Prop := forall a, ends_line a -> has_char a s = false.
Inductive has_lines : string -> list string -> Prop :=
| hl_last s : one_line s -> has_lines s [s]
| hl_more s a t ls : one_line s -> ends_line a -> has_lines t ls -> has_lines (s ++ String a t) (s :: ls).
Definition digit (a : ascii) : Prop := In a ["0"; "1"; "2"; "3"; "4"; "5"; "6"; "7"; "8"; "9"]%char.
Definition number (s : string) : Prop := s <> "" /\ forall a, has_char a s = true -> digit a.
(** #define NAME 12 *)
Definition defines_number (name line n : string) : Prop :=
  number n /\ exists rest, line = "#define " ++ name ++ " " ++ n ++ rest /\ forall a t, rest = String a t -> ~ digit a.
Definition first_defined (name : string) (ls : list string) (n : string) : Prop :=
  exists a line b, ls = (a ++ line :: b)%list /\ defines_number name line n /\ forall l m, In l a -> ~ defines_number name l m.
Definition text_version (text v : string) : Prop :=
  exists ls a b c, has_lines text ls /\ first_defined "NODE_MAJOR_VERSION" ls a /\ first_defined "NODE_MINOR_VERSION" ls b /\ first_defined "NODE_PATCH_VERSION" ls c /\
    v = a ++ "." ++ b ++ "." ++ c.
Definition at_home (home d e : string) : Prop := (exists r, d = "~" ++ r /\ e = home ++ r) \/ ((forall r, d <> "~" ++ r) /\ e = d).
(** A directory is named: by --nodedir, or by the prefix of a node that was built
    to look there, if the headers there are of the version wanted. *)
Definition named (p : header_place) (d : string) : Prop :=
  (opt_nodedir p = Some d /\ d <> "") \/
  ((opt_nodedir p = None \/ opt_nodedir p = Some "") /\ use_prefix p = true /\ d = node_prefix p /\ d <> "" /\
   exists t, read p (prefix_header p) = Some t /\ text_version t (version p)).
