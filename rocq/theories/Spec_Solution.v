(** What is said about solutions. *)
From Verif Require Import Lib Str Model_Solution.
Local Open Scope string_scope.

(** ** targets and the files they are in *)
Definition of_file (file q : string) : Prop := exists rest, q = file ++ ":" ++ rest /\ has_char ":" rest = false.
(** A target needs another, or did before some of its dependencies were taken out. *)
Inductive reaches (dicts : list (string * spec)) : string -> string -> Prop :=
| itself q : reaches dicts q q
| through q s d t : assoc q dicts = Some s -> In d (dependencies s) \/ In d (dependencies_original s) -> reaches dicts d t -> reaches dicts q t.
(** What is in the solution of a .gyp file. *)
Definition in_solution (targets : list string) (dicts : list (string * spec)) (file q : string) : Prop := exists root, In root targets /\ of_file file root /\ reaches dicts root q.
(** Every order is one of the same things. *)
Definition fair (o : orders) : Prop := (forall l, Permutation (walk o l) l) /\ forall l, Permutation (walk_entries o l) l.

(** ** where a target is shown *)
Definition named (q file n ts : string) : Prop := q = file ++ ":" ++ n ++ "#" ++ ts /\ has_char ":" (n ++ "#" ++ ts) = false /\ has_char "#" ts = false.
Definition piece (s : string) : Prop := s <> "" /\ has_char "/" s = false /\ has_char "\" s = false.
(** A path has these pieces, all but the last of which are folders; it may begin at the
    root of a drive. *)
Inductive consists : string -> list string -> Prop :=
| one_piece s : piece s -> has_char ":" s = false -> consists s [s]
| from_root a s : a <> "/"%char -> a <> "\"%char -> piece s -> consists (String a (":\" ++ s)) [s]
| longer p l sep s : consists p l -> sep = "/" \/ sep = "\" -> piece s -> consists (p ++ sep ++ s) (l ++ [s])%list.
Definition host_suffix (ts : string) : string := if String.eqb ts "host" then "_host" else "".
Definition spot (q : string) (l : list string) : Prop := exists file n ts folders base, named q file n ts /\ n <> "" /\ consists file (app folders [base]) /\ l = app folders [n ++ host_suffix ts ++ ".vcproj"].
(** No two targets are shown in the same place, and none in a place where others have a
    folder. *)
Definition apart (qs : list string) : Prop :=
  (forall q, In q qs -> exists l, spot q l) /\
  forall q1 q2 l1 l2 more, In q1 qs -> In q2 qs -> spot q1 l1 -> spot q2 l2 -> l2 = (l1 ++ more)%list -> q1 = q2.

(** ** the text *)
Definition project_start : string := "Project(""{8BC9CEB8-8B4A-11D0-8D11-00A0C91BC942}"")".
Definition windows (p : string) : string := match Model_Path.replace_char "/" "\" p with "" => "." | f => f end.
Definition project_line (st : settings) (p : project) : string :=
  project_start ++ " = """ ++ name p ++ """, """ ++ windows (relative st (path p)) ++ """, """ ++ guid p ++ """".
Definition tabs (n : nat) (s : string) : string := Nat.iter n (String (ascii_of_nat 9)) s.
(** The lines of a project. *)
Definition project_block (st : settings) (p : project) (guids : list string) : list string :=
  app [project_line st p]
    (app (match guids with [] => [] | _ => app [tabs 1 "ProjectSection(ProjectDependencies) = postProject"] (app (map (fun g => tabs 2 (g ++ " = " ++ g)) guids) [tabs 1 "EndProjectSection"]) end)
      ["EndProject"]).
(** A part of the file. *)
Definition holds (lines part : list string) : Prop := exists before after, lines = (before ++ part ++ after)%list.
(** The objects of the targets. *)
Definition objects_of (st : settings) (dicts : list (string * spec)) (p : string -> project) (qs : list string) : Prop :=
  forall q, In q qs -> exists s, assoc q dicts = Some s /\ create (md5 st) (file_suffix st) (generator_output st) (cross_compiling st) q s = Some (p q).

(** ** configurations *)
(** The name of a configuration is that of Visual Studio, with or without the platform
    behind it. *)
Definition plain_config (n : string) (c : config) (base plat : string) : Prop :=
  plat = (match platform c with Some p => p | None => "Win32" end) /\ has_char "_" plat = false /\ target_platform c = None /\
  (n = base /\ has_char "_" base = false \/ n = base ++ "_" ++ plat).
(** ** what is assumed of the targets *)
(** The dependencies that are in the solution: none if something else builds the target. *)
Definition wanted (s : spec) : list string := if external s then [] else dependencies s.
(** Each target is there once, has a project, and its dependencies are targets; those in
    the solution are apart. *)
Definition well_formed (st : settings) (dicts : list (string * spec)) (targets : list string) (file : string) (p : string -> project) : Prop :=
  file <> "" /\ NoDup targets /\ objects_of st dicts p targets /\
  (forall q s d, In q targets -> assoc q dicts = Some s -> In d (dependencies s) \/ In d (dependencies_original s) -> In d targets) /\
  exists qs, NoDup qs /\ (forall q, In q qs <-> in_solution targets dicts file q) /\ apart qs.
(** Python's [not x]. *)
Definition falsy (o : option string) : Prop := o = None \/ o = Some "".
