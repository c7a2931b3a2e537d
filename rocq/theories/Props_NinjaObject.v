(** C92: which object ninja makes of which source. *)
From Verif Require Import Lib Str Model_Path Spec_Path Model_Writer Model_NinjaBuild Spec_NinjaBuild Spec_NinjaObject Proof_NinjaObject.
Local Open Scope string_scope.

(** C92.  For each source in C, C++ or assembler of a target there is a statement that
    compiles that file, with the compiler for its extension, to an object of its own
    name in the directory for objects, wherever the build directory is; also for a
    source that is generated in <(PRODUCT_DIR) or <(INTERMEDIATE_DIR). *)
Theorem C92_compiled : forall s needed ts es t f c, build_ninja s needed ts = Some es -> In t ts -> In (text f) (all_sources t) -> regular t -> proper f -> compiled_by (ext f) c ->
  exists e i o, In e es /\ outs e = [o] /\ command e = c /\ ins e = [i] /\ implicit e = [] /\ forall build, locate build i = source_place s t build f /\ locate build o = object_place t build f.
Proof. exact built_edge. Qed.
Print Assumptions C92_compiled.
Example C92_compiled_witness :
  (exists es, build_ninja object_setup (fun _ => true) [plain_target "addon" "deps/addon"] = Some es) /\ regular (plain_target "addon" "deps/addon") /\ proper addon_cc /\ proper names_c /\
  In (text addon_cc) (all_sources (plain_target "addon" "deps/addon")) /\ In (text names_c) (all_sources (plain_target "addon" "deps/addon")) /\ compiled_by (ext addon_cc) "cxx" /\ compiled_by (ext names_c) "cc" /\
  source_place object_setup (plain_target "addon" "deps/addon") ["Release"; "build"; "top"] addon_cc = ["addon.cc"; "src"; "addon"; "deps"; "top"] /\
  object_place (plain_target "addon" "deps/addon") ["Release"; "build"; "top"] addon_cc = ["addon.addon.o"; "src"; "addon"; "deps"; "obj"; "Release"; "build"; "top"] /\
  source_place object_setup (plain_target "addon" "deps/addon") ["Release"; "build"; "top"] names_c = ["names.c"; "addon.gen"; "addon"; "deps"; "obj"; "Release"; "build"; "top"].
Proof.
  split; [eexists; vm_compute; reflexivity|]. split; [apply plain_regular; reflexivity|]. split; [exact addon_proper|]. split; [exact names_proper|]. split; [left; reflexivity|]. split; [right; left; reflexivity|].
  split; [left; reflexivity|]. split; [right; right; right; left; reflexivity|]. split; [reflexivity|]. split; reflexivity.
Qed.
(** C92.  In a target, two sources of the tree, or two of <(PRODUCT_DIR), or two of
    <(INTERMEDIATE_DIR), have one object only if they differ in the extension alone. *)
Theorem C92_own_object : forall t f f' build, down (dir f) -> down (dir f') -> from f = from f' -> object_place t build f = object_place t build f' ->
  stem f = stem f' /\ forall here, locate here (dir f) = locate here (dir f').
Proof. exact same_source. Qed.
Print Assumptions C92_own_object.
Example C92_own_object_witness : down (dir addon_cc) /\ down (dir names_c) /\ down "a/b/./c".
Proof. split; [|split]; apply down_list; reflexivity. Qed.
(** C92.  Sources of different targets, not of <(INTERMEDIATE_DIR), have one object only
    if the targets are of one toolset, the directories of the sources are the same, and
    NAME.STEM is the same; with names of targets without dots: the names of the
    targets and the stems. *)
Theorem C92_targets : forall t t' f f' build, down (path t) -> down (path t') -> down (dir f) -> down (dir f') ->
  from f <> In_intermediate_dir -> from f' <> In_intermediate_dir -> object_place t build f = object_place t' build f' ->
  toolset t = toolset t' /\ (has_char "." (target_name t) = false -> has_char "." (target_name t') = false -> target_name t = target_name t' /\ stem f = stem f') /\
  forall here, locate (locate here (path t)) (dir f) = locate (locate here (path t')) (dir f').
Proof.
  exact (fun t t' f f' b P P' D D' F F' E => match same_object t t' f f' b P P' D D' F F' E with conj A (conj B C) => conj A (conj (fun N N' => dotless_inj _ _ _ _ N N' B) C) end).
Qed.
Print Assumptions C92_targets.
Example C92_targets_witness : down (path (plain_target "addon" "deps/addon")) /\ down (dir addon_cc) /\ from addon_cc <> In_intermediate_dir /\ has_char "." (target_name (plain_target "addon" "deps/addon")) = false.
Proof. split; [apply down_list; reflexivity|]. split; [apply down_list; reflexivity|]. split; [discriminate|reflexivity]. Qed.
(** C92.  The objects are inside the build directory, if the sources are in the
    directory of the .gyp file or below, and that is not above the top. *)
Theorem C92_inside : forall t build f, down (path t) -> down (dir f) -> exists l, object_place t build f = (l ++ build)%list /\ l <> [].
Proof. exact object_inside. Qed.
Print Assumptions C92_inside.

(** Two sources that differ in the extension alone, src/addon.c and src/addon.cc, have
    one object, since the extension is cut off (ninja.py:1213, 1245); there are two statements for
    it, which ninja does not accept. *)
Theorem C92_extension_refuted : forall t build d n, object_place t build {| from := In_tree; dir := d; stem := n; ext := "c" |} = object_place t build {| from := In_tree; dir := d; stem := n; ext := "cc" |}.
Proof. reflexivity. Qed.
Print Assumptions C92_extension_refuted.
(** A source that an action makes in <(PRODUCT_DIR) and one of the same name next to the
    .gyp file have one object: ExpandSpecial takes the directory away (ninja.py:271-275). *)
Theorem C92_product_dir_refuted : forall t build d n e, object_place t build {| from := In_product_dir; dir := d; stem := n; ext := e |} = object_place t build {| from := In_tree; dir := d; stem := n; ext := e |}.
Proof. reflexivity. Qed.
Print Assumptions C92_product_dir_refuted.
(** Two targets of a .gyp file, a with the source b.c.c, and a.b with the source c.c,
    have one object, a.b.c.o (ninja.py:353-354). *)
Theorem C92_dots_refuted : exists t t' f f' build, target_name t <> target_name t' /\ path t = path t' /\ stem f <> stem f' /\ object_place t build f = object_place t' build f'.
Proof.
  exists (plain_target "a" ""), (plain_target "a.b" ""), {| from := In_tree; dir := ""; stem := "b.c"; ext := "c" |}, {| from := In_tree; dir := ""; stem := "c"; ext := "c" |}, ["Release"; "build"].
  split; [discriminate|]. split; [reflexivity|]. split; [discriminate|reflexivity].
Qed.
Print Assumptions C92_dots_refuted.
(** The object of a source two directories above a .gyp file at the top,
    ../../common/log.c, is outside of the directory of the configuration, and the same
    for Debug and Release (ninja.py:355-357): what was compiled for one is linked for
    the other. *)
Theorem C92_configurations_refuted : exists t f, proper f /\ regular t /\ object_place t ["Debug"; "build"; "top"] f = object_place t ["Release"; "build"; "top"] f.
Proof.
  exists (plain_target "addon" ""), {| from := In_tree; dir := "../../common/"; stem := "log"; ext := "c" |}. split; [|split; [apply plain_regular; reflexivity|reflexivity]].
  split; [right; exists "../../common"; reflexivity|]. repeat split. exists "l"%char. split; [reflexivity|discriminate].
Qed.
Print Assumptions C92_configurations_refuted.
