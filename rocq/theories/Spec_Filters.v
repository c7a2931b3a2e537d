(** What is said about the folders in which Visual Studio shows files. *)
From Verif Require Import Lib Str Model_Path Model_Vcxproj Spec_Vcxproj Model_Filters.
Local Open Scope string_scope.

(** The files that belong to the project: sources, inputs of actions, outputs that are
    sources, files to copy, excluded files, and the .gyp file. *)
Definition belongs (p : project) (y : string) : Prop :=
  (exists x, y = normalized_source x /\
     (meant p x \/ (exists a, In a (actions p) /\ In x (inputs a)) \/ (exists c, In c (copies p) /\ In x (files c)))) \/
  standalone p = false /\ y = gyp_file p \/ In y (sources_excluded p).
(** Those that are not compiled: excluded ones and inputs of actions, but not those that
    are for precompiled headers. *)
Definition set_aside (p : project) (f : string) : Prop :=
  (exists y, f = fix_path (prefix p) y /\
     (In y (sources_excluded p) \/ exists a x, In a (actions p) /\ y = normalized_source x /\ In x (inputs a))) /\
  ~ exists c h, In c (configurations p) /\ In h (precompiled c) /\ h <> "" /\ f = fix_path (prefix p) h.
(** The file [f] is in the directory [d], names from outside to inside, for the project,
    in which set aside files have a directory of their own in each directory. *)
Definition lies (p : project) (y : string) (d : list string) (f : string) : Prop :=
  f = normalized_source (fix_path (prefix p) y) /\
  exists dirs name, split_char "\" (fix_path (prefix p) y) = (dirs ++ [name])%list /\
    (set_aside p f /\ d = (dirs ++ ["_excluded_files"])%list \/ ~ set_aside p f /\ d = dirs).
(** The name of a directory; the root of the tree has none. *)
Fixpoint from_root (d : list string) : list string := match d with "" :: d' => from_root d' | _ => d end.
Definition shown_as (d : list string) : string := String.concat "\" (from_root d).
