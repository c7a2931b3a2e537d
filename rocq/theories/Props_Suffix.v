(** C78: from which file an object is compiled, and which sources share one. *)
From Verif Require Import Lib Str Model_Writer Model_Suffix Spec_Path Spec_Remake Spec_Suffix Proof_Suffix Proof_Suffix2 Proof_Suffix3 Proof_Parts.
Local Open Scope string_scope.

(** C78.  Whatever order the sets of extensions and toolsets have: the object of a
    source, in the tree, generated for all targets or for this one, is compiled from
    that source with the compiler for its extension, if the file is there and none of
    the other files that patterns would let be taken is. *)
Theorem C78_compiled : forall toolsets ts order available t s e c,
  (forall w, In w toolsets <-> exists u, In u ts /\ toolset u = w) -> (forall u, In u ts -> forall e, In e (order u) <-> In e (used_extensions u)) ->
  In t ts -> plain_names t -> plain_source s e c -> source_of t s ->
  exists f, source_at t s f c /\ (available f = true -> (forall k, available k = true -> fits ts (object_of t s) k -> k = f) -> chosen available (patterns toolsets ts order) (object_of t s) = Some (f, c)).
Proof. exact (fun toolsets ts order available t s e c T O I P S K => compiled_from toolsets ts order available t s e c T O I P S (plain_compiled t s e c S K)). Qed.
Print Assumptions C78_compiled.
Example C78_compiled_witness : (forall w, In w ["target"] <-> exists u, In u ts2 /\ toolset u = w) /\ (forall u, In u ts2 -> forall e, In e (listed_extensions u) <-> In e (used_extensions u)) /\
  plain_names addon /\ plain_source "src/a.c" ".c" "cc" /\ plain_source "$(obj)/gen/c.cpp" ".cpp" "cxx" /\ plain_source "$(obj).$(TOOLSET)/$(TARGET)/geni/d.s" ".s" "cc" /\ plain_source "../src/a.c" ".c" "cc" /\
  (forall k, on_disk disk k = true -> fits ts2 (object_of addon "src/a.c") k -> k = "$(srcdir)/src/a.c") /\
  chosen (on_disk disk) (patterns ["target"] ts2 listed_extensions) (object_of addon "src/a.c") = Some ("$(srcdir)/src/a.c", "cc") /\
  (forall k, on_disk disk k = true -> fits ts2 (object_of addon "$(obj)/gen/c.cpp") k -> k = "$(obj)/gen/c.cpp") /\
  chosen (on_disk disk) (patterns ["target"] ts2 listed_extensions) (object_of addon "$(obj)/gen/c.cpp") = Some ("$(obj)/gen/c.cpp", "cxx") /\
  (forall k, on_disk disk k = true -> fits ts2 (object_of addon "$(obj).$(TOOLSET)/$(TARGET)/geni/d.s") k -> k = "$(obj).target/addon/geni/d.s") /\
  chosen (on_disk disk) (patterns ["target"] ts2 listed_extensions) (object_of addon "$(obj).$(TOOLSET)/$(TARGET)/geni/d.s") = Some ("$(obj).target/addon/geni/d.s", "cc") /\
  chosen (on_disk disk) (patterns ["target"] ts2 listed_extensions) (object_of tool_target "../src/a.c") = Some ("$(srcdir)/src/a.c", "cc").
Proof.
  split; [exact toolsets_ok|]. split; [apply listed_ok|]. split; [exact plain_addon|]. split; [exact source_a|]. split; [exact source_c|]. split; [exact source_d|]. split; [exact source_up|].
  split; [apply disk_only; vm_compute; reflexivity|]. split; [vm_compute; reflexivity|]. split; [apply disk_only; vm_compute; reflexivity|]. split; [vm_compute; reflexivity|]. split; [apply disk_only; vm_compute; reflexivity|].
  split; vm_compute; reflexivity.
Qed.
(** C78.  For sources in the tree and those generated for all targets, only files
    count that have the same path but for the directory it begins with and the
    extension, and only extensions that sources of the target have; not those that
    lie in a directory with the name of the target, say. *)
Theorem C78_nearest : forall toolsets ts order available t s e c,
  (forall w, In w toolsets <-> exists u, In u ts /\ toolset u = w) -> (forall u, In u ts -> forall e, In e (order u) <-> In e (used_extensions u)) ->
  (forall u, In u ts -> plain_names u) -> In t ts -> plain_source s e c -> not_private s -> source_of t s ->
  exists f, source_at t s f c /\ (available f = true -> (forall k, available k = true -> nearest ts t (object_of t s) k -> k = f) -> chosen available (patterns toolsets ts order) (object_of t s) = Some (f, c)).
Proof. exact (fun toolsets ts order available t s e c T O PA I S NP K => nearest_wins toolsets ts order available t s e c T O PA I S NP (plain_compiled t s e c S K)). Qed.
Print Assumptions C78_nearest.
Example C78_nearest_witness : (forall u, In u ts2 -> plain_names u) /\ not_private "src/a.c" /\ source_of addon "src/a.c" /\ fits ts2 (object_of addon "src/a.c") "$(srcdir)/addon/src/a.cc" /\
  chosen (on_disk ("$(srcdir)/addon/src/a.cc" :: disk)) (patterns ["target"] ts2 listed_extensions) (object_of addon "src/a.c") = Some ("$(srcdir)/src/a.c", "cc").
Proof.
  split; [intros u [<-|[<-|[]]]; [exact plain_addon|exact plain_tool]|]. split; [intros r E; discriminate|]. split; [apply own_source; left; reflexivity|]. split; [|vm_compute; reflexivity].
  exists addon, "addon/src/a", "$(srcdir)/", ".cc", "cxx". split; [left; reflexivity|]. split; [left; vm_compute; reflexivity|]. split; [auto|]. split; [cbn; auto|reflexivity].
Qed.
(** C78.  But a file next to a source that nobody listed is compiled in its place, if
    it has an extension that another source of the target has, and that comes first
    in the set (make.py:939-943). *)
Theorem C78_unlisted_refuted : ~ (forall toolsets ts order available t s e c f,
  (forall w, In w toolsets <-> exists u, In u ts /\ toolset u = w) -> (forall u, In u ts -> forall e, In e (order u) <-> In e (used_extensions u)) ->
  In t ts -> plain_names t -> plain_source s e c -> source_of t s -> source_at t s f c -> available f = true -> chosen available (patterns toolsets ts order) (object_of t s) = Some (f, c)).
Proof. exact hidden_twin. Qed.
Print Assumptions C78_unlisted_refuted.
(** C78.  For a source with an absolute path there is no rule: the object is put under
    the directory of the target with all of the path, and the pattern looks for that
    in the source tree (make.py:2309-2315). *)
Theorem C78_absolute_refuted : ~ (forall toolsets ts order available t s,
  (forall w, In w toolsets <-> exists u, In u ts /\ toolset u = w) -> (forall u, In u ts -> forall e, In e (order u) <-> In e (used_extensions u)) ->
  In t ts -> plain_names t -> source_of t s -> (exists b e c, s = b ++ e /\ In (e, c) languages) -> available (input t s) = true -> chosen available (patterns toolsets ts order) (object_of t s) <> None).
Proof. apply (no_rule far_away "/usr/src/a.c" "/usr/src/a.c"); [reflexivity|repeat split; discriminate || reflexivity|left; reflexivity|exists "/usr/src/a", ".c", "cc"; split; [reflexivity|left; reflexivity]|vm_compute; reflexivity|vm_compute; reflexivity]. Qed.
Print Assumptions C78_absolute_refuted.
(** C78.  Nor is there one for a source generated in PRODUCT_DIR (make.py:2309-2315). *)
Theorem C78_product_dir_refuted : ~ (forall toolsets ts order available t s,
  (forall w, In w toolsets <-> exists u, In u ts /\ toolset u = w) -> (forall u, In u ts -> forall e, In e (order u) <-> In e (used_extensions u)) ->
  In t ts -> plain_names t -> source_of t s -> (exists b e c, s = b ++ e /\ In (e, c) languages) -> available (input t s) = true -> chosen available (patterns toolsets ts order) (object_of t s) <> None).
Proof. apply (no_rule in_product "$(builddir)/gen/a.c" "$(builddir)/gen/a.c"); [reflexivity|repeat split; discriminate || reflexivity|left; reflexivity|exists "$(builddir)/gen/a", ".c", "cc"; split; [reflexivity|left; reflexivity]|vm_compute; reflexivity|vm_compute; reflexivity]. Qed.
Print Assumptions C78_product_dir_refuted.

(** C78.  Targets with different names, or for different toolsets, share no object. *)
Theorem C78_apart : forall t t' s s' e c e' c', plain_names t -> plain_names t' -> plain_source s e c -> plain_source s' e' c' -> object_of t s = object_of t' s' -> target_name t = target_name t' /\ toolset t = toolset t'.
Proof. exact objects_apart. Qed.
Print Assumptions C78_apart.
(** C78.  And sources of one target in the tree have the same object only if they are the
    same file but for the extension. *)
Theorem C78_same_object : forall t d n e c d' n' e' c', plain_names t -> plain_dir d -> (forall r, d <> String "/" r) -> plain_name n -> In (e, c) languages ->
  plain_dir d' -> (forall r, d' <> String "/" r) -> plain_name n' -> In (e', c') languages -> object_of t (d ++ n ++ e) = object_of t (d' ++ n' ++ e') ->
  forall here, locate (locate here (path t)) (d ++ n ++ e) = locate (locate here (path t)) (d' ++ n' ++ e).
Proof. exact same_object. Qed.
Print Assumptions C78_same_object.
Example C78_same_object_witness : plain_names tool_target /\ object_of tool_target ("../src/" ++ "a" ++ ".c") = object_of tool_target ("sub/../../src/./" ++ "a" ++ ".cc") /\
  object_of tool_target "../src/a.c" = "$(obj).target/tool/src/a.o" /\ object_of addon "src/a.c" = "$(obj).target/addon/src/a.o" /\ object_of tool_target "src/a.c" <> object_of tool_target "../src/a.c".
Proof. split; [exact plain_tool|]. repeat split; try (vm_compute; reflexivity). vm_compute. discriminate. Qed.
(** C78.  Two that differ only in the extension do have the same object, so one of
    them is not linked (make.py:701-703); there is a check for this only in static
    libraries. *)
Theorem C78_same_base_refuted : ~ (forall t s s' e c e' c', plain_names t -> plain_source s e c -> plain_source s' e' c' -> s <> s' -> object_of t s <> object_of t s').
Proof. exact same_base. Qed.
Print Assumptions C78_same_base_refuted.
(** C78.  So do a source in the tree and a generated one with the same path
    (make.py:2311-2312). *)
Theorem C78_generated_refuted : ~ (forall t s s' e c e' c' f f' k, plain_names t -> plain_source s e c -> plain_source s' e' c' -> source_at t s (f ++ e) k -> source_at t s' (f' ++ e') k -> f <> f' -> object_of t s <> object_of t s').
Proof. exact generated_twin. Qed.
Print Assumptions C78_generated_refuted.
(** C78.  And so do targets with the same name in different build files that have a
    source in common, whatever their flags are. *)
Theorem C78_twin_targets_refuted : ~ (forall t t' s s' e c e' c', plain_names t -> plain_names t' -> plain_source s e c -> plain_source s' e' c' -> qualified t <> qualified t' -> object_of t s <> object_of t' s').
Proof. exact twin_objects. Qed.
Print Assumptions C78_twin_targets_refuted.
(** C78.  An object among the sources is linked under the path that is written, not
    under that relative to the build file (make.py:1534). *)
Theorem C78_prebuilt_refuted : ~ (forall sha1 needed ts rs t s, NoDup (map qualified ts) -> makefile sha1 needed ts = Some rs -> In t ts -> type t = Executable -> In s (sources t) -> linkable s = true -> feeds rs (binary t) (input t s)).
Proof. exact objects_elsewhere. Qed.
Print Assumptions C78_prebuilt_refuted.
