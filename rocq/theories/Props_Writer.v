(** C73 and C74: in which order the generated Makefile lets things be made, and
    what it makes. *)
From Verif Require Import Lib Str Model_Writer Spec_Writer Proof_Writer Proof_Writer2 Proof_Writer3.
Local Open Scope string_scope.

(** C73.  In every order that the Makefile allows, with any number of jobs, what a
    target depends on, through any number of others, is done before anything of the
    target is begun: before its actions, rules, copies and compilations. *)
Theorem C73_dependencies_first : forall sha1 needed ts rs order t d x,
  NoDup (map qualified ts) -> makefile sha1 needed ts = Some rs -> (forall t, In t ts -> install_path t <> "") -> schedule rs order ->
  through ts t d -> step t x -> first order (install_path d) x.
Proof. exact (fun sha1 needed ts rs order t d x ND M NE SC => through_after sha1 needed ts rs ND M NE order SC t d x). Qed.
Print Assumptions C73_dependencies_first.
Example C73_dependencies_first_witness :
  NoDup (map qualified project) /\ makefile id_sha everything project = Some project_rules /\ (forall t, In t project -> install_path t <> "") /\ schedule project_rules project_order /\
  through project addon header_maker /\ step addon "$(obj).target/addon/src/addon.o" /\ In "$(obj).target/addon/src/addon.o" project_order /\ install_path header_maker = "$(obj).target/gen.stamp".
Proof. split; [exact project_distinct|]. split; [exact project_made|]. split; [exact project_named|]. split; [exact project_schedule|]. split; [exact project_through|]. split; [exact addon_step|]. split; [cbn; tauto|reflexivity]. Qed.
(** C73.  Within a target: what is generated comes before compiling and linking,
    compiling before linking, linking before the product is put in its place, and
    the libraries it is linked with before that. *)
Theorem C73_within : forall sha1 needed ts rs order t,
  NoDup (map qualified ts) -> makefile sha1 needed ts = Some rs -> schedule rs order -> In t ts ->
  (forall x y, makes t y -> compiles t x -> first order y x) /\
  (forall y, makes t y -> first order y (binary t)) /\
  (forall x, links t -> compiles t x -> first order x (binary t)) /\
  (forall d, links t -> depends ts t d -> type d = Static_library \/ type d = Shared_library -> first order (binary d) (binary t)) /\
  (install_path t = binary t \/ first order (binary t) (install_path t)).
Proof.
  exact (fun sha1 needed ts rs order t ND M SC I =>
    conj (fun x y H C => generated_before sha1 needed ts rs ND M order SC t x y I H (or_introl C))
   (conj (fun y H => generated_before sha1 needed ts rs ND M order SC t (binary t) y I H (or_intror eq_refl))
   (conj (fun x L C => linked_after_objects sha1 needed ts rs ND M order SC t x I L C)
   (conj (fun d L D T => linked_after_libraries sha1 needed ts rs ND M order SC t d D L T)
         (installed_after sha1 needed ts rs ND M order SC t I))))).
Qed.
Print Assumptions C73_within.
Example C73_within_witness : In some_library project /\ links some_library /\ compiles some_library "$(obj).target/util/src/util.o" /\ binary some_library = "$(obj).target/libutil.a" /\
  depends project addon some_library /\ install_path addon = "$(builddir)/addon.node" /\ binary addon = "$(obj).target/addon.node" /\ makes header_maker "$(obj)/gen/config.h".
Proof.
  split; [cbn; tauto|]. split; [discriminate|]. split; [exists "src/util.c"; split; [left; reflexivity|split; reflexivity]|]. split; [reflexivity|].
  split; [split; [cbn; tauto|split; [cbn; tauto|left; reflexivity]]|]. split; [reflexivity|]. split; [reflexivity|]. apply (makes_action header_maker (hd {| action_name := ""; action_inputs := []; action_outputs := []; action_command := []; outputs_are_sources := false |} (actions header_maker)) "$(obj)/gen/config.h"); left; reflexivity.
Qed.
(** C73.  Not through targets that compile and generate nothing: a library with
    headers only is there without what it depends on, so a target behind it may be
    compiled before that (make.py:1455, 1726, 1880). *)
Theorem C73_header_only_refuted :
  ~ (forall sha1 needed ts rs order t d, NoDup (map qualified ts) -> makefile sha1 needed ts = Some rs -> (forall t, In t ts -> install_path t <> "") -> schedule rs order ->
       depends ts t d -> first order (install_path d) (install_path t)).
Proof. exact header_only. Qed.
Print Assumptions C73_header_only_refuted.
(** C73.  Not for an action with several outputs: its command is the recipe of an
    intermediate file that has the inputs as prerequisites but not what the target
    depends on; only the outputs have that (make.py:1726-1733, 2160-2177). *)
Theorem C73_several_outputs_refuted :
  ~ (forall sha1 needed ts rs order t d a r x, NoDup (map qualified ts) -> makefile sha1 needed ts = Some rs -> (forall t, In t ts -> install_path t <> "") -> schedule rs order -> depends ts t d ->
       In a (actions t) -> In r rs -> In (Do (action_variable t (action_name a))) (recipe r) -> In x (heads r) -> first order (install_path d) x).
Proof. exact two_early. Qed.
Print Assumptions C73_several_outputs_refuted.

(** C74.  "make" makes the product of every target that belongs to the build files
    asked for, and "make NAME" that of the target; and with a product come its
    generated files, its objects if it is linked, and the products of what it
    depends on. *)
Theorem C74_asked : forall sha1 needed ts rs t,
  NoDup (map qualified ts) -> makefile sha1 needed ts = Some rs -> (forall t, In t ts -> install_path t <> "") -> In t ts ->
  (needed (qualified t) = true -> binary t <> target_name t -> asked rs "all" (install_path t)) /\
  asked rs (target_name t) (install_path t) /\
  (forall x, makes t x -> asked rs (install_path t) x) /\
  (forall x, links t -> compiles t x -> asked rs (install_path t) x) /\
  (forall d, solid t -> depends ts t d -> asked rs (install_path t) (install_path d)).
Proof.
  exact (fun sha1 needed ts rs t ND M NE I =>
    conj (fun Q N => asks_all sha1 needed ts rs ND M t I N Q)
   (conj (asks_name sha1 needed ts rs ND M t I)
   (conj (fun x H => asks_makes sha1 needed ts rs ND M t x I H)
   (conj (fun x L C => asks_compiles sha1 needed ts rs ND M t x I L C)
         (fun d S D => asks_depends sha1 needed ts rs ND M NE t d D S))))).
Qed.
Print Assumptions C74_asked.
Example C74_asked_witness : In addon project /\ everything (qualified addon) = true /\ binary addon <> target_name addon /\ solid some_library /\ depends project some_library header_maker.
Proof.
  split; [cbn; tauto|]. split; [reflexivity|]. split; [vm_compute; discriminate|]. split; [right; left; exists (object_of some_library "src/util.c"), "src/util.c"; split; [left; reflexivity|split; reflexivity]|].
  split; [cbn; tauto|split; [cbn; tauto|left; reflexivity]].
Qed.
