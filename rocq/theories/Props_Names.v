(** Properties of target names (C05, C11, C12, C44, C48, C52). *)
From Verif Require Import Lib Str Model_Graph Spec_Graph Model_Names Spec_Names Proof_Names Proof_Files Examples_Graph.

(** C12: a qualified name parses back to the parts it was built from. *)
Theorem C12_round_trip : forall file target toolset,
  no_colon target -> no_colon toolset -> no_hash toolset -> (toolset = EmptyString -> no_hash target) ->
  parse_qualified_target (qualified_target file target toolset) =
  (Some file, target, match toolset with EmptyString => None | _ => Some toolset end).
Proof. exact parse_qualify. Qed.
Print Assumptions C12_round_trip.

(** C12: different (file, target, toolset) triples get different names. *)
Theorem C12_no_collision : forall f1 t1 s1 f2 t2 s2,
  no_colon t1 -> no_colon s1 -> no_hash s1 -> (s1 = EmptyString -> no_hash t1) ->
  no_colon t2 -> no_colon s2 -> no_hash s2 -> (s2 = EmptyString -> no_hash t2) ->
  qualified_target f1 t1 s1 = qualified_target f2 t2 s2 -> f1 = f2 /\ t1 = t2 /\ s1 = s2.
Proof. exact qualify_injective. Qed.
Print Assumptions C12_no_collision.

(** C12: parsing loses no character of any name. *)
Theorem C12_parse_spelled : forall q f t s, parse_qualified_target q = (f, t, s) -> spelled q f t s.
Proof. exact parse_spelled. Qed.
Print Assumptions C12_parse_spelled.

Example C12_witness :
  no_colon "lib#a" /\ no_colon "host" /\ no_hash "host" /\
  parse_qualified_target (qualified_target "C:\x/y.gyp" "lib#a" "host") =
  (Some "C:\x/y.gyp", "lib#a", Some "host")%string.
Proof. repeat split. Qed.

(** C12 without the restriction on target names: false of the code.  A colon
    in a target name makes two different targets share one name. *)
Theorem C12_any_name_refuted : exists f1 t1 f2 t2,
  f1 <> f2 /\ t1 <> t2 /\ qualified_target f1 t1 "target" = qualified_target f2 t2 "target".
Proof. exact name_collision. Qed.
Print Assumptions C12_any_name_refuted.

(** C52: loading rejects exactly the inputs in which two targets have the same
    qualified name, and names one of them. *)
Theorem C52_duplicate_targets : forall data,
  (NoDup (qualified_names data) -> build_targets_dict data = inl (all_targets data)) /\
  (~ NoDup (qualified_names data) -> exists q, build_targets_dict data = inr (DuplicateTarget q) /\
     exists l1 l2 l3, qualified_names data = l1 ++ q :: l2 ++ q :: l3).
Proof. exact build_targets_spec. Qed.
Print Assumptions C52_duplicate_targets.

Definition sample_data : build_data :=
  [("a.gyp", [mk_tinfo "x" "target" false; mk_tinfo "x" "host" false; mk_tinfo "y" "target" true]);
   ("d/b.gyp", [mk_tinfo "x" "target" false; mk_tinfo "z" "target" false])]%string.
Example C52_witness :
  map fst (all_targets sample_data) =
    ["a.gyp:x#target"; "a.gyp:x#host"; "a.gyp:y#target"; "d/b.gyp:x#target"; "d/b.gyp:z#target"]%string /\
  NoDup (qualified_names sample_data) /\
  build_targets_dict (sample_data ++ [("c.gyp", [mk_tinfo "q" "host" false; mk_tinfo "q" "host" true])]%string) =
    inr (DuplicateTarget "c.gyp:q#host").
Proof. split; [reflexivity|]. split; [apply nodupb_ok; reflexivity|reflexivity]. Qed.

(** C44: each wildcard dependency is replaced, in place, by exactly the matching
    targets of the file it names, other entries are untouched, no wildcard
    remains, and a wildcard on the same or on an unknown file is an error. *)
Theorem C44_wildcards : forall data target ds,
  NoDup (map fst data) -> (forall d, In d ds -> fully_qualified d) ->
  ((exists r, expand_wildcards data target ds = inl r) <-> forall d, In d ds -> expandable data target d) /\
  (forall r, expand_wildcards data target ds = inl r ->
     (exists pieces, Forall2 (expands data) ds pieces /\ r = concat pieces) /\
     ((forall f tis ti, In (f, tis) data -> In ti tis -> plain_info ti) -> forall x, In x r -> ~ wildcard x)).
Proof. exact wildcards_final. Qed.
Print Assumptions C44_wildcards.

Example C44_witness :
  NoDup (map fst sample_data) /\
  (forall d, In d ["d/b.gyp:z#target"; "a.gyp:*#target"; "d/b.gyp:x#*"]%string -> fully_qualified d) /\
  expand_wildcards sample_data "e.gyp:t#target" ["d/b.gyp:z#target"; "a.gyp:*#target"; "d/b.gyp:x#*"]%string =
    inl ["d/b.gyp:z#target"; "a.gyp:x#target"; "d/b.gyp:x#target"]%string /\
  expand_wildcards sample_data "a.gyp:t#target" ["a.gyp:*#target"]%string = inr (SameFileWildcard "a.gyp:t#target").
Proof.
  split; [apply nodupb_ok; reflexivity|]. split; [|split; reflexivity].
  intros d [<-|[<-|[<-|[]]]]; eexists _, _, _; reflexivity.
Qed.

(** C44, no wildcard remains whatever the target names: false of the code. *)
Theorem C44_star_name_refuted : exists data target ds r,
  NoDup (map fst data) /\ (forall d, In d ds -> fully_qualified d) /\
  expand_wildcards data target ds = inl r /\ exists x, In x r /\ wildcard x.
Proof. exact star_name. Qed.
Print Assumptions C44_star_name_refuted.

(** C05: the file check passes exactly when no .gyp file depends on itself
    through other files; reported cycles are real; a dependency into a file
    with no targets is reported as such. *)
Theorem C05_gyp_file_cycles : forall ts,
  (verify_no_gyp_file_cycles ts = inl tt <-> files_closed ts /\ ~ file_cyclic ts) /\
  ((exists cs, verify_no_gyp_file_cycles ts = inr (FileCycle cs)) <-> files_closed ts /\ file_cyclic ts) /\
  ((exists g, verify_no_gyp_file_cycles ts = inr (FileNotFound g)) <-> ~ files_closed ts) /\
  (forall cs, verify_no_gyp_file_cycles ts = inr (FileCycle cs) -> Forall (file_cycle ts) cs).
Proof. exact file_cycles_iff. Qed.
Print Assumptions C05_gyp_file_cycles.

Definition file_target (t : string) (ds : list string) : string * spec :=
  (t, mk_spec (Some ds) [] (Some "none"%string) true true false false None).
Example C05_witness :
  verify_no_gyp_file_cycles
    [file_target "a.gyp:x" ["b.gyp:y"; "a.gyp:z"]; file_target "a.gyp:z" []; file_target "b.gyp:y" []]%string = inl tt /\
  (* no target depends on itself, yet the files do *)
  verify_no_gyp_file_cycles
    [file_target "a.gyp:x" ["b.gyp:y"]; file_target "a.gyp:z" []; file_target "b.gyp:y" ["a.gyp:z"]]%string =
    inr (FileCycle [["a.gyp"; "b.gyp"; "a.gyp"]%string]).
Proof. split; vm_compute; reflexivity. Qed.

(** C11: pruning keeps exactly the named roots and everything they need, in
    every view of the data, and preserves order; an unknown root is an
    error. *)
Theorem C11_prune : forall ts flat roots data,
  is_dict ts -> closed ts -> ~ cyclic ts -> Permutation flat (names ts) ->
  ((forall r, In r roots -> exists q, named_by flat r q) ->
   exists wanted flat' data', prune_unwanted_targets ts flat (node_dependencies ts) roots data = inl (wanted, flat', data') /\
     NoDup wanted /\ (forall x, In x wanted <-> wanted_by ts flat roots x) /\
     sublist flat' flat /\ (forall x, In x flat' <-> wanted_by ts flat roots x) /\
     map fst data' = map fst data /\
     (forall f tis, In (f, tis) data -> exists tis', In (f, tis') data' /\ sublist tis' tis /\
        forall ti, In ti tis' <-> In ti tis /\ wanted_by ts flat roots (qualified_target f (ti_name ti) (ti_toolset ti)))) /\
  ((exists r, In r roots /\ ~ exists q, named_by flat r q) ->
   exists r, In r roots /\ (~ exists q, named_by flat r q) /\
     prune_unwanted_targets ts flat (node_dependencies ts) roots data = inr (TargetNotFound (strip r))).
Proof. exact prune_spec. Qed.
Print Assumptions C11_prune.

Definition prune_sample : targets :=
  [file_target "a.gyp:x#target" ["d/b.gyp:z#target"]; file_target "a.gyp:x#host" [];
   file_target "a.gyp:y#target" ["a.gyp:x#target"];
   file_target "d/b.gyp:x#target" []; file_target "d/b.gyp:z#target" []]%string.
Example C11_witness :
  dependency_phase prune_sample =
    Ok ["d/b.gyp:z#target"; "a.gyp:x#target"; "a.gyp:y#target"; "d/b.gyp:x#target"; "a.gyp:x#host"]%string /\
  prune_unwanted_targets prune_sample
    ["d/b.gyp:z#target"; "a.gyp:x#target"; "a.gyp:y#target"; "d/b.gyp:x#target"; "a.gyp:x#host"]%string
    (node_dependencies prune_sample) [" x "]%string sample_data =
  inl (["a.gyp:x#target"; "d/b.gyp:z#target"; "d/b.gyp:x#target"; "a.gyp:x#host"],
       ["d/b.gyp:z#target"; "a.gyp:x#target"; "d/b.gyp:x#target"; "a.gyp:x#host"],
       [("a.gyp", [mk_tinfo "x" "target" false; mk_tinfo "x" "host" false]);
        ("d/b.gyp", [mk_tinfo "x" "target" false; mk_tinfo "z" "target" false])])%string.
Proof. split; vm_compute; reflexivity. Qed.

(** C48: the collision check fails exactly when two targets have the same name
    and live in the same directory. *)
Theorem C48_colliding_targets : forall qs, (forall q, In q qs -> has_char colon q = true) ->
  (verify_no_colliding_targets qs = inl tt <-> ~ colliding qs) /\
  ((exists n d, verify_no_colliding_targets qs = inr (Colliding n d)) <-> verify_no_colliding_targets qs <> inl tt).
Proof. exact colliding_spec. Qed.
Print Assumptions C48_colliding_targets.

Example C48_witness :
  (forall q, In q ["x/a.gyp:t"; "x/b.gyp:t"]%string -> has_char colon q = true) /\
  verify_no_colliding_targets ["x/a.gyp:t"; "y/a.gyp:t"; "x/a.gyp:u"]%string = inl tt /\
  verify_no_colliding_targets ["x/a.gyp:t"; "x/b.gyp:t"]%string = inr (Colliding "t" "x").
Proof. split; [intros q [<-|[<-|[]]]; reflexivity|]. split; reflexivity. Qed.
