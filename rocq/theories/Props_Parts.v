(** C79: what the things in a generated Makefile are made from. *)
From Verif Require Import Lib Str Model_Writer Spec_Path Spec_Writer Spec_Remake Spec_Suffix Spec_Parts Proof_Suffix Proof_Suffix2 Proof_Parts Proof_Parts2 Proof_Writer3.
Local Open Scope string_scope.

(** C79.  An output of an action is made from each of its inputs, and one of a rule
    from the source and the inputs of the rule. *)
Theorem C79_inputs : forall sha1 needed ts rs t o i, NoDup (map qualified ts) -> makefile sha1 needed ts = Some rs -> In t ts -> uses t o i -> made_from rs (output t o) (input t i).
Proof. exact (fun sha1 needed ts rs t o i ND M I U => uses_from sha1 needed ts rs ND M t o i I U). Qed.
Print Assumptions C79_inputs.
Example C79_inputs_witness : NoDup (map qualified [kit]) /\ makefile id_sha everything [kit] = Some kit_rules /\ uses kit "$(obj)/gen/version.c" "version.txt" /\ uses kit "$(obj).$(TOOLSET)/$(TARGET)/geni/parser.c" "src/parser.y" /\ uses kit "$(obj)/gen/parser.h" "yacc.py" /\
  made_from kit_rules "$(obj).target/kit/geni/parser.c" "$(srcdir)/sub/src/parser.y" /\ ~ feeds kit_rules "$(obj).target/kit/geni/parser.c" "$(srcdir)/sub/src/parser.y".
Proof.
  split; [exact kit_distinct|]. split; [exact kit_made|]. split; [eapply uses_action; [left; reflexivity|right; left; reflexivity|left; reflexivity]|]. assert (U : uses kit "$(obj).$(TOOLSET)/$(TARGET)/geni/parser.c" "src/parser.y").
  { eapply uses_source; [left; reflexivity|left; reflexivity|vm_compute; auto]. }
  split; [exact U|]. split; [eapply uses_input; [left; reflexivity|left; reflexivity|vm_compute; auto|left; reflexivity]|].
  split; [exact (C79_inputs id_sha everything [kit] kit_rules kit _ _ kit_distinct kit_made (or_introl eq_refl) U)|].
  intros (r & R & H & N). assert (B : existsb (fun r => mem "$(obj).target/kit/geni/parser.c" (heads r) && mem "$(srcdir)/sub/src/parser.y" (needs r)) kit_rules = false) by (vm_compute; reflexivity).
  apply Bool.not_true_iff_false in B. apply B. apply existsb_exists. exists r. split; [exact R|]. apply andb_true_intro. split; apply LibFacts.mem_In; assumption.
Qed.
(** C79.  The name of an output of a rule is that of the source, without directories and
    extension, in the place of %(INPUT_ROOT)s. *)
Theorem C79_root : forall r a b d n e, In (a ++ "%(INPUT_ROOT)s" ++ b) (rule_outputs r) -> has_char "%" a = false -> has_char "%" b = false -> has_char "%" n = false ->
  (d = "" \/ exists p, d = p ++ "/") -> plain_name n -> has_char "." e = false -> has_char "/" e = false -> In (a ++ n ++ b) (rule_outputs_for r (d ++ n ++ "." ++ e)).
Proof. exact rule_output. Qed.
Print Assumptions C79_root.
Example C79_root_witness : In ("$(obj)/gen/" ++ "%(INPUT_ROOT)s" ++ ".h") (rule_outputs parser) /\ In ("$(obj)/gen/" ++ "parser" ++ ".h") (rule_outputs_for parser ("src/" ++ "parser" ++ "." ++ "y")) /\ plain_name "parser".
Proof. split; [right; left; reflexivity|]. split; [right; left; vm_compute; reflexivity|]. apply (plain_char "parser" "p" "arser"); reflexivity || discriminate. Qed.
(** C79.  Every source, listed or the output of an action or rule that says so, with an
    extension of a language is compiled, and its object linked. *)
Theorem C79_linked : forall sha1 needed ts rs t b e c, NoDup (map qualified ts) -> makefile sha1 needed ts = Some rs -> In t ts -> links t -> source_of t (b ++ e) -> In (e, c) languages -> feeds rs (binary t) (object_of t (b ++ e)).
Proof. exact (fun sha1 needed ts rs t b e c ND M I L S E => source_linked sha1 needed ts rs ND M t b e c I L S E). Qed.
Print Assumptions C79_linked.
Example C79_linked_witness : links kit /\ source_of kit "src/a.cc" /\ source_of kit "$(obj)/gen/version.c" /\ source_of kit "$(obj).$(TOOLSET)/$(TARGET)/geni/parser.c" /\
  object_of kit "$(obj)/gen/version.c" = "$(obj).target/kit/gen/version.o" /\ feeds kit_rules "$(obj).target/sub/libkit.so" "$(obj).target/kit/geni/parser.o".
Proof.
  split; [discriminate|]. split; [apply own_source; left; reflexivity|]. split; [eapply action_source; [left; reflexivity|reflexivity|right; left; reflexivity]|].
  assert (S : source_of kit ("$(obj).$(TOOLSET)/$(TARGET)/geni/parser" ++ ".c")) by (eapply rule_source; [left; reflexivity|reflexivity|left; reflexivity|left; vm_compute; reflexivity]).
  split; [exact S|]. split; [vm_compute; reflexivity|].
  pose proof (C79_linked id_sha everything [kit] kit_rules kit _ ".c" "cc" kit_distinct kit_made (or_introl eq_refl) ltac:(discriminate) S (or_introl eq_refl)) as F.
  assert (E1 : binary kit = "$(obj).target/sub/libkit.so") by (vm_compute; reflexivity). assert (E2 : object_of kit ("$(obj).$(TOOLSET)/$(TARGET)/geni/parser" ++ ".c") = "$(obj).target/kit/geni/parser.o") by (vm_compute; reflexivity).
  rewrite E1, E2 in F. exact F.
Qed.
(** C79.  A file that is copied goes, under its own name, into the directory it is said
    to go to. *)
Theorem C79_copies : forall sha1 needed ts rs t c f n, NoDup (map qualified ts) -> makefile sha1 needed ts = Some rs -> In t ts -> In c (copies t) -> In f (copy_files c) ->
  has_char "$" (path t) = false -> (forall r, path t <> String "/" r) -> file_named n f -> plain_destination (destination c) -> exists x, goes t n (destination c) x /\ feeds rs x (input t f).
Proof. exact (fun sha1 needed ts rs t c f n ND M => copy_from sha1 needed ts rs ND M t c f n). Qed.
Print Assumptions C79_copies.
Example C79_copies_witness : file_named "LICENSE" "../LICENSE" /\ plain_destination "$(builddir)/share" /\ file_named "a.txt" "a.txt" /\ plain_destination "../dist/" /\
  feeds kit_rules "$(builddir)/share/LICENSE" "$(srcdir)/LICENSE" /\ feeds kit_rules "$(srcdir)/dist/a.txt" "$(srcdir)/sub/a.txt".
Proof.
  split; [exact license|]. split; [right; exists "/share"; split; reflexivity|]. split; [exact text_file|]. split; [left; split; [reflexivity|discriminate]|].
  assert (F : forall x y, existsb (fun r => mem x (heads r) && mem y (needs r)) kit_rules = true -> feeds kit_rules x y).
  { intros x y H. apply existsb_exists in H. destruct H as (r & R & H). apply andb_prop in H. destruct H as [H1 H2]. exists r. split; [exact R|]. split; apply LibFacts.mem_In; assumption. }
  split; apply F; vm_compute; reflexivity.
Qed.
(** C79.  No recipe that runs anything stands for several files, so that no command is run
    twice, or by two jobs at once, in a build. *)
Theorem C79_one_file : forall sha1 needed ts rs r, makefile sha1 needed ts = Some rs -> In r rs -> runs_something r -> exists x, heads r = [x].
Proof. exact (fun sha1 needed ts rs r M => one_file sha1 needed ts rs M r). Qed.
Print Assumptions C79_one_file.
Example C79_one_file_witness : exists r, In r kit_rules /\ runs_something r /\ In (Do "sub_kit_gyp_kit_target_version") (recipe r) /\ exists q, In q kit_rules /\ heads q = ["$(obj)/gen/version.h"; "$(obj)/gen/version.c"] /\ needs q = heads r.
Proof.
  eexists. split; [right; left; reflexivity|]. split; [exists (Do "touch"); split; [left; reflexivity|discriminate]|]. split; [right; left; vm_compute; reflexivity|].
  eexists. split; [left; reflexivity|]. split; reflexivity.
Qed.
