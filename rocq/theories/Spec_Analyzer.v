(** What the analyzer should answer, in terms of the target dicts only. *)
From Verif Require Import Lib Model_Names Model_Analyzer.

Section Spec.
Variable ts : atargets.
Variable target_list : list string.
Variable changed : string -> bool.
Variable build_files : list string.

(** [t] lists [d] among its "dependencies". *)
Definition needs (t d : string) : Prop := exists a, In (t, a) ts /\ In d (a_deps a).
(** The targets gyp was asked about and everything they depend on. *)
Definition known (t : string) : Prop := exists r, In r target_list /\ clos_refl_trans string needs r t.
(** [t] itself uses a changed file, or something [t] depends on does. *)
Definition affected (t : string) : Prop := exists u, clos_refl_trans string needs t u /\ changed u = true.
(** The targets of "all": in the given build files and needed by nobody. *)
Definition root (t : string) : Prop := known t /\ In (build_file t) build_files /\ forall u, known u -> ~ needs u t.

(** The state in which the generator runs: names are unique, every dependency
    exists, and there are no cycles ([flat] is the order of C01). *)
Definition loaded : Prop :=
  NoDup (map fst ts) /\ (forall t d, needs t d -> In d (map fst ts)) /\ incl target_list (map fst ts) /\
  exists flat, Permutation flat (map fst ts) /\ forall t d, needs t d -> before d t flat.

(** [a] is known and is [u] or depends on [u]. *)
Definition above (u a : string) : Prop := clos_refl_trans string (fun x y => known x /\ needs x y) a u.
Definition of_type (t ty : string) : Prop := exists a, In (t, a) ts /\ a_type a = ty.
(** Building [t] does something. *)
Definition builds (t : string) : Prop := exists a, In (t, a) ts /\ (a_type a <> "none"%string \/ a_work a = true).
(** [t] is, or is needed by, one of [supplied]. *)
Definition below (supplied : list string) (t : string) : Prop := exists s, In s supplied /\ above t s.
End Spec.

(** Any order in which Python may iterate over a set. *)
Definition any_order (ord : list string -> list string) : Prop := forall l, Permutation (ord l) l.
(** The target a name given by the user stands for: some known target of that
    name. *)
Definition stands_for (ts : atargets) (target_list : list string) (m : string -> option string) : Prop :=
  (forall n q, m n = Some q -> known ts target_list q /\ target_name_of q = n) /\
  (forall n, m n = None -> forall q, known ts target_list q -> target_name_of q <> n).

Section Answer.
Variable ts : atargets.
Variable target_list : list string.
Variable changed : string -> bool.
Variable build_files tests additional : list string.

(** A name given as a test target or an additional compile target. *)
Definition asked (n : string) : Prop := In n tests \/ In n additional.
(** The targets the user asked for, "all" meaning the roots. *)
Definition supplied_by (m : string -> option string) (q : string) : Prop :=
  (exists n, asked n /\ n <> "all"%string /\ m n = Some q) \/ (asked "all"%string /\ root ts target_list build_files q).
(** The names to report as test targets. *)
Definition test_answer (m : string -> option string) (n : string) : Prop :=
  (n <> "all"%string /\ In n tests /\ exists q, m n = Some q /\ affected ts changed q) \/
  (n = "all"%string /\ In n tests /\ exists q, root ts target_list build_files q /\ affected ts changed q).

(** [res] is a right set of targets to compile for the supplied targets:
    each is affected, is or is needed by a supplied target, and is there for a
    reason (it is an executable, nothing else in [res] would build it, or it is
    a changed static library nobody links); and every affected target that is
    or is needed by a supplied one is there if it is an executable, and is
    built by one that is there if building it does anything. *)
Definition linked_above (t : string) : Prop := exists a, above ts target_list t a /\ (of_type ts a "executable" \/ of_type ts a "shared_library").
Definition compile_answer (supplied : string -> Prop) (res : list string) : Prop :=
  NoDup res /\
  (forall x, In x res ->
     affected ts changed x /\ (exists s, supplied s /\ above ts target_list x s) /\ (changed x = true \/ builds ts x) /\
     (of_type ts x "executable" \/ (forall a, above ts target_list x a -> In a res -> a = x) \/
      (of_type ts x "static_library" /\ changed x = true /\ ~ linked_above x))) /\
  (forall u, known ts target_list u -> affected ts changed u -> (exists s, supplied s /\ above ts target_list u s) ->
     (of_type ts u "executable" -> In u res) /\ (builds ts u -> exists a, above ts target_list u a /\ In a res)).
End Answer.
