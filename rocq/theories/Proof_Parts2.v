From Verif Require Import Lib Str Model_Writer Spec_Path Spec_Writer Spec_Remake Spec_Suffix Spec_Parts Proof_Suffix Proof_Suffix2 Proof_Parts Proof_Writer3.
Local Open Scope string_scope.
Definition parser : rule := {| rule_name := "yacc"; rule_sources := ["src/parser.y"]; rule_inputs := ["yacc.py"]; rule_outputs := ["$(obj).$(TOOLSET)/$(TARGET)/geni/%(INPUT_ROOT)s.c"; "$(obj)/gen/%(INPUT_ROOT)s.h"]; rule_command := ["yacc"]; rule_outputs_are_sources := true |}.
Definition kit : target := {| qualified := "sub/kit.gyp:kit#target"; target_name := "kit"; type := Loadable_module; toolset := "target"; path := "sub"; dependencies := []; sources := ["src/a.cc"; "src/parser.y"];
  actions := [{| action_name := "version"; action_inputs := ["version.txt"]; action_outputs := ["$(obj)/gen/version.h"; "$(obj)/gen/version.c"]; action_command := ["python"]; outputs_are_sources := true |}];
  rules := [parser]; copies := [{| copy_files := ["../LICENSE"; "$(obj)/gen/version.h"]; destination := "$(builddir)/share" |}; {| copy_files := ["a.txt"]; destination := "../dist/" |}];
  product_prefix := None; product_name := None; product_extension := None; product_dir := None; standalone := false |}.
Definition kit_rules : list written := match makefile id_sha everything [kit] with Some rs => rs | None => [] end.
Lemma kit_made : makefile id_sha everything [kit] = Some kit_rules. Proof. vm_compute. reflexivity. Qed.
Lemma kit_distinct : NoDup (map qualified [kit]). Proof. repeat constructor. intros []. Qed.
Lemma license : file_named "LICENSE" "../LICENSE".
Proof. split; [apply (plain_char "LICENSE" "L" "ICENSE"); reflexivity || discriminate|]. exists "../". split; [right; exists ".."; reflexivity|]. split; [reflexivity|]. left. split; [reflexivity|discriminate]. Qed.
Lemma text_file : file_named "a.txt" "a.txt".
Proof. split; [apply (plain_char "a.txt" "a" ".txt"); reflexivity || discriminate|]. exists "". split; [left; reflexivity|]. split; [reflexivity|]. left. split; [reflexivity|discriminate]. Qed.
