(** C90: in which order ninja makes things with the build statements of the ninja
    generator, and what it makes. *)
From Coq Require Import Relations Operators_Properties.
From Verif Require Import Lib Str Model_Names Model_Path Model_Graph Model_Writer Model_NinjaBuild Spec_NinjaBuild Proof_NinjaBuild Proof_NinjaBuild2 Proof_NinjaBuild3 Proof_NinjaBuild4 Proof_NinjaBuild5.
Local Open Scope string_scope.

(** C90.  In everything ninja may do, with any number of jobs: what a target depends
    on, through any number of others, has been generated, compiled and linked before
    an action of the target, a rule, or a copy is begun; for rules see
    [C90_rules_refuted]. *)
Theorem C90_dependencies_first : forall s needed ts es run t d x y,
  NoDup (map qualified ts) -> in_order ts -> build_ninja s needed ts = Some es -> accepted es -> allowed es run ->
  through ts t d -> done s ts d x -> waits s t y -> first es run x y.
Proof.
  exact (fun s needed ts es run t d x y N O B A R T X Y => lt_first es A run x y R (proj1 (whole_facts s needed ts es B N O A t (through_from ts t d T)) d x y T X Y)).
Qed.
Print Assumptions C90_dependencies_first.
Example C90_dependencies_first_witness :
  NoDup (map qualified some_project) /\ in_order some_project /\ build_ninja some_setup (fun _ => true) some_project = Some some_edges /\ accepted some_edges /\ allowed some_edges some_run /\
  through some_project addon header /\ done some_setup some_project header "obj/header.gen/config.h" /\ waits some_setup addon "obj/addon.gen/names.c".
Proof. exact (conj some_distinct (conj some_order (conj some_built (conj some_accepted (conj some_allowed (conj some_through (conj (or_introl header_generates) addon_waits))))))). Qed.
(** C90.  A source is compiled after everything is there that the target and those it
    depends on, through any number of others, generate. *)
Theorem C90_generated_before_compiling : forall s needed ts es run t d x y,
  NoDup (map qualified ts) -> in_order ts -> build_ninja s needed ts = Some es -> accepted es -> allowed es run ->
  In t ts -> d = t \/ through ts t d -> generates s d x -> compiles s t y -> first es run x y.
Proof.
  exact (fun s needed ts es run t d x y N O B A R I T X Y => lt_first es A run x y R (proj1 (proj2 (whole_facts s needed ts es B N O A t I)) x y (ex_intro _ d (conj T X)) Y)).
Qed.
Print Assumptions C90_generated_before_compiling.
Example C90_generated_before_compiling_witness : through some_project addon header /\ generates some_setup header "obj/header.gen/config.h" /\ compiles some_setup addon "obj/src/addon.addon.o".
Proof. exact (conj some_through (conj header_generates addon_compiles)). Qed.
(** C90.  A target is linked after its objects and what it generates are there, and
    everything of what it depends on. *)
Theorem C90_linking : forall s needed ts es run t b x,
  NoDup (map qualified ts) -> in_order ts -> build_ninja s needed ts = Some es -> accepted es -> allowed es run ->
  In t ts -> linked s ts t -> product s t = Some b ->
  (exists d, through ts t d /\ done s ts d x) \/ generates s t x \/ compiles s t x -> first es run x b.
Proof.
  exact (fun s needed ts es run t b x N O B A R I L P X => lt_first es A run x b R (proj2 (proj2 (whole_facts s needed ts es B N O A t I)) b x L P X)).
Qed.
Print Assumptions C90_linking.
Example C90_linking_witness : linked some_setup some_project addon /\ product some_setup addon = Some "addon.node" /\ through some_project addon util /\ done some_setup some_project util "obj/libutil.a" /\
  compiles some_setup addon "obj/src/addon.addon.o".
Proof. exact (conj addon_linked (conj addon_product (conj (t_step _ _ _ _ (proj1 some_depends)) (conj util_done addon_compiles)))). Qed.
(** C90.  "ninja all" sees to everything of the targets of the build files given and of
    all they depend on; "ninja NAME" does so for the target NAME. *)
Theorem C90_all : forall s needed ts es t d x,
  NoDup (map qualified ts) -> in_order ts -> build_ninja s needed ts = Some es -> accepted es ->
  In t ts -> d = t \/ through ts t d -> done s ts d x ->
  (needed (qualified t) = true -> sees_to es "all" x) /\ (toolset t = "target" -> sees_to es (target_name t) x).
Proof.
  exact (fun s needed ts es t d x N O B A I T X => conj (fun Q => whole_all s needed ts es B N O A t x I Q (ex_intro _ d (conj T X))) (fun Q => whole_name s needed ts es B N O A t x I Q (ex_intro _ d (conj T X)))).
Qed.
Print Assumptions C90_all.
Example C90_all_witness : In addon some_project /\ through some_project addon header /\ done some_setup some_project header "obj/header.gen/config.h" /\ done some_setup some_project addon "addon.node".
Proof. exact (conj (or_intror (or_intror (or_introl eq_refl))) (conj some_through (conj (or_introl header_generates) (or_intror (or_intror (conj addon_linked addon_product)))))). Qed.
(** C90.  The linker for C++ is used for an executable, a shared library, or a loadable
    module, if there are C++ sources in it or in what it depends on, through any
    number of others, and not otherwise. *)
Theorem C90_linker : forall s needed ts es t e b,
  NoDup (map qualified ts) -> in_order ts -> build_ninja s needed ts = Some es -> accepted es ->
  In t ts -> linked s ts t -> type t <> Static_library -> product s t = Some b -> In e es -> In b (outs e) ->
  (In ("ld", "$ldxx") (variables e) -> exists d, (d = t \/ through ts t d) /\ has_cpp d) /\
  (forall d, d = t \/ through ts t d -> has_cpp d -> type d <> None_ -> In ("ld", "$ldxx") (variables e)).
Proof. exact (fun s needed ts es t e b N O B A => whole_driver s needed ts es B N O A t e b). Qed.
Print Assumptions C90_linker.
Example C90_linker_witness : has_cpp util /\ ~ has_cpp addon /\ through some_project addon util /\ type util <> None_ /\
  exists e, In e some_edges /\ In "addon.node" (outs e) /\ In ("ld", "$ldxx") (variables e).
Proof.
  split; [exact util_cpp|]. split; [intros (f & [<-|[<-|[]]] & C); cbn in C; decompose [or] C; try discriminate; contradiction|]. split; [constructor 1; apply some_depends|]. split; [discriminate|].
  eexists. unfold some_edges. split; [do 8 right; left; reflexivity|]. split; [left; reflexivity|left; reflexivity].
Qed.
(** C90.  A binary is linked from all objects of its target, those among the sources
    included.  A static library among what the target depends on is an input of the link,
    and the table of contents of a shared library is one too, so that the binary is
    linked again if they change. *)
Theorem C90_linked_with : forall s needed ts es t e b,
  NoDup (map qualified ts) -> in_order ts -> build_ninja s needed ts = Some es -> accepted es ->
  In t ts -> linked s ts t -> product s t = Some b -> In e es -> In b (outs e) ->
  (forall o, compiles s t o -> In o (ins e)) /\
  (forall f x, In f (all_sources t) -> ends_with ".o" f = true -> to_ninja s t f = Some x -> In x (ins e)) /\
  (type t <> Static_library -> forall d x, depends ts t d -> linked s ts d -> product s d = Some x ->
     (type d = Static_library -> In x (ins e)) /\ (type d = Shared_library -> In (x ++ ".TOC") (implicit e))).
Proof. exact (fun s needed ts es t e b N O B A => linked_with s needed ts es B N O A t e b). Qed.
Print Assumptions C90_linked_with.
Example C90_linked_with_witness : linked some_setup some_project addon /\ product some_setup addon = Some "addon.node" /\ depends some_project addon util /\ linked some_setup some_project util /\ product some_setup util = Some "obj/libutil.a" /\
  exists e, In e some_edges /\ In "addon.node" (outs e) /\ In "obj/src/addon.addon.o" (ins e) /\ In "obj/libutil.a" (ins e).
Proof.
  split; [exact addon_linked|]. split; [exact addon_product|]. split; [exact (proj1 some_depends)|]. split; [exact util_linked|]. split; [reflexivity|].
  eexists. unfold some_edges. split; [do 8 right; left; reflexivity|]. cbn [outs ins In]. tauto.
Qed.
(** C90.  The names of what is linked: an executable has the name of its target, libraries
    have "lib" before and ".so" behind it, shared ones are in the directory lib, and an
    addon is NAME.node with the prefix and the extension that node-gyp asks for. *)
Theorem C90_product : forall s t, product_name t = None -> product_dir t = None -> standalone t = false -> toolset t = "target" ->
  (type t = Executable -> product_prefix t = None -> product_extension t = None -> product s t = Some (target_name t)) /\
  (type t = Shared_library -> product_prefix t = None -> product_extension t = None -> (forall x, target_name t <> "lib" ++ x) -> product s t = Some ("lib/lib" ++ target_name t ++ ".so")) /\
  (type t = Loadable_module -> product_prefix t = None -> product_extension t = None -> (forall x, target_name t <> "lib" ++ x) -> product s t = Some ("lib" ++ target_name t ++ ".so")) /\
  (type t = Loadable_module -> product_prefix t = Some "" -> product_extension t = Some "node" -> product s t = Some (target_name t ++ ".node")).
Proof. exact product_names. Qed.
Print Assumptions C90_product.
Example C90_product_witness : product_name addon = None /\ product_dir addon = None /\ standalone addon = false /\ toolset addon = "target" /\ type addon = Loadable_module /\ product_prefix addon = Some "" /\ product_extension addon = Some "node" /\
  product some_setup addon = Some "addon.node".
Proof. repeat split. Qed.
(** C90.  Not for every rule: with a rule that has three sources or more and two inputs
    or more, what the target waits for is moved to a stamp of that rule
    (ninja.py:750-756), and the list that is emptied by this is the one the rules
    behind it use too.  Nothing makes these wait for the dependencies. *)
Theorem C90_rules_refuted :
  ~ (forall s needed ts es run t d x y, NoDup (map qualified ts) -> in_order ts -> build_ninja s needed ts = Some es -> accepted es -> allowed es run ->
       through ts t d -> generates s d x -> generates s t y -> first es run x y).
Proof. exact rule_early. Qed.
Print Assumptions C90_rules_refuted.
(** C90.  What is written is not always accepted by ninja, even if no two targets have
    the same name: the name of a target is an output of its own (ninja.py:2863-2867),
    so with a target named all there are two statements for "all" (2881). *)
Theorem C90_target_all_refuted :
  ~ (forall s needed ts es, NoDup (map qualified ts) -> in_order ts -> build_ninja s needed ts = Some es -> (forall t a, In t ts -> In a (actions t) -> action_outputs a <> []) -> NoDup (map target_name ts) -> NoDup (flat_map outs es)).
Proof. exact all_twice. Qed.
Print Assumptions C90_target_all_refuted.
(** C90.  An action without outputs becomes a statement without outputs, which ninja
    rejects; the reader of .gyp files checks that an action has inputs, but not that it
    has outputs (ninja.py:646-685, input.py:2819-2835). *)
Theorem C90_no_output_refuted :
  ~ (forall s needed ts es, NoDup (map qualified ts) -> in_order ts -> build_ninja s needed ts = Some es -> forall e, In e es -> outs e <> []).
Proof. exact no_output. Qed.
Print Assumptions C90_no_output_refuted.
