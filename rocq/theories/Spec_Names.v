(** Specification vocabulary for names. *)
From Verif Require Import Lib Str Model_Graph Model_Names Spec_Graph.

(** A qualified name written out: FILE:TARGET or FILE:TARGET#TOOLSET. *)
Definition spelled (q : string) (file : option string) (target : string) (toolset : option string) : Prop :=
  q = ((match file with Some f => f ++ ":" | None => "" end) ++ target ++
       (match toolset with Some s => "#" ++ s | None => "" end))%string.

Definition no_colon (s : string) : Prop := has_char colon s = false.
Definition no_hash (s : string) : Prop := has_char hash s = false.

(** FILE:TARGET#TOOLSET matched against a target of that file; "*" matches
    anything. *)
Definition pattern_matches (target toolset : string) (ti : tinfo) : Prop :=
  (target = "*" \/ target = ti_name ti)%string /\ (toolset = "*" \/ toolset = ti_toolset ti)%string.

(** One file depends on another through some pair of targets. *)
Definition file_depends (ts : targets) (f g : string) : Prop :=
  f <> g /\ exists t d, depends_on ts t d /\ build_file t = f /\ build_file d = g.
Definition file_exists (ts : targets) (f : string) : Prop :=
  exists t, In t (names ts) /\ build_file t = f.
Definition files_closed (ts : targets) : Prop :=
  forall f g, file_depends ts f g -> file_exists ts g.
Definition file_cyclic (ts : targets) : Prop := exists f, clos_trans string (file_depends ts) f f.

(** Two targets (at different positions) share directory and name. *)
Definition same_place (q1 q2 : string) : Prop :=
  exists p1 p2 name, q1 = (p1 ++ ":" ++ name)%string /\ q2 = (p2 ++ ":" ++ name)%string /\ no_colon name /\
                     subdir_of p1 = subdir_of p2.
Definition colliding (qs : list string) : Prop :=
  exists l1 q1 l2 q2 l3, qs = l1 ++ q1 :: l2 ++ q2 :: l3 /\ same_place q1 q2.

(** A root pattern names a target. *)
Definition named_by (flat : list string) (pattern q : string) : Prop :=
  In q flat /\ target_name_of q = strip pattern.

(** A target pruning must keep: named by a root, or needed by one that is. *)
Definition wanted_by (ts : targets) (flat roots : list string) (x : string) : Prop :=
  exists r q, In r roots /\ named_by flat r q /\ (x = q \/ depends_transitively ts q x).

(** ** Wildcard dependencies *)

(** File, target and toolset are all spelled out, as QualifyDependencies
    leaves them. *)
Definition fully_qualified (d : string) : Prop :=
  exists file target toolset, parse_qualified_target d = (Some file, target, Some toolset).
Definition wildcard (d : string) : Prop :=
  exists file target toolset, parse_qualified_target d = (Some file, target, Some toolset) /\
                              (target = "*" \/ toolset = "*")%string.

(** A wildcard must name another, known, build file. *)
Definition expandable (data : build_data) (target d : string) : Prop :=
  wildcard d -> build_file d <> build_file target /\ In (build_file d) (map fst data).

(** One entry and the entries that replace it: itself if it is no wildcard,
    otherwise the matching, not suppressed, targets of that file in order. *)
Definition expands (data : build_data) (d : string) (piece : list string) : Prop :=
  (~ wildcard d /\ piece = [d]) \/
  (wildcard d /\ exists file target toolset tis chosen,
     parse_qualified_target d = (Some file, target, Some toolset) /\ In (file, tis) data /\
     sublist chosen tis /\
     (forall ti, In ti chosen <-> In ti tis /\ ti_suppress ti = false /\ pattern_matches target toolset ti) /\
     piece = map (fun ti => qualified_target file (ti_name ti) (ti_toolset ti)) chosen).

(** Target names free of ':' and not "*". *)
Definition plain_info (ti : tinfo) : Prop :=
  no_colon (ti_name ti) /\ no_colon (ti_toolset ti) /\ no_hash (ti_toolset ti) /\
  ti_name ti <> "*"%string /\ ti_toolset ti <> "*"%string /\ ti_toolset ti <> EmptyString.

(** A reported cycle of files. *)
Definition file_cycle (ts : targets) (c : list string) : Prop :=
  2 <= length c /\ hd_error c = Some (last c EmptyString) /\ chain (file_depends ts) c.
