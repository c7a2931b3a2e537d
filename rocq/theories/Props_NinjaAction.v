(** C91: what the programs of actions and rules get from ninja. *)
From Verif Require Import Lib Str Spec_Quote Spec_Ninja Model_Names Model_Path Model_Quote Model_Writer Model_NinjaBuild Model_NinjaAction Spec_NinjaAction Proof_NinjaAction Proof_NinjaAction2.
Local Open Scope string_scope.

(** C91.  The build statement of an action has a rule with a command; as ninja reads it,
    the shell goes to the directory of the .gyp file and runs the program with exactly
    the arguments of the action there, whatever quotes, blanks and other characters
    they have: the directories and the configuration in their places, no variable of
    ninja's.  Two blanks in a row, a newline and a dollar sign are excluded; see
    [C91_dollar_refuted]. *)
Theorem C91_action : forall s t to_build prebuild env a e pss,
  In a (actions t) -> write_action s t prebuild a = Some e -> action_command a = map argument pss ->
  NoDup (map variable_name (map action_name (actions t) ++ map rule_name (rules t))%list) ->
  clear_here s t to_build -> simple (build_to_base s t) ->
  (forall ps, In ps pss -> clear_argument ps /\ no_input ps /\ one_blank (means (here s t to_build (fun _ => "")) ps)) ->
  exists value out cmd, assoc (command e) (ninja_rules s t to_build) = Some value /\ variable_line "command" value = Some out /\ reads_as out "command" value /\ evaluate env Plain value = Some cmd /\
    runs_in cmd (build_to_base s t) (map (fun ps => literal (means (here s t to_build (fun _ => "")) ps)) pss).
Proof. exact action_runs. Qed.
Print Assumptions C91_action.
Example C91_action_witness :
  In gen_header (actions maker) /\ (exists e, write_action maker_setup maker None gen_header = Some e) /\ action_command gen_header = map argument header_pieces /\
  NoDup (map variable_name (map action_name (actions maker) ++ map rule_name (rules maker))%list) /\ clear_here maker_setup maker "../../build/Release" /\ simple (build_to_base maker_setup maker) /\
  (forall ps, In ps header_pieces -> clear_argument ps /\ no_input ps /\ one_blank (means (here maker_setup maker "../../build/Release" (fun _ => "")) ps)) /\
  map (means (here maker_setup maker "../../build/Release" (fun _ => ""))) header_pieces = ["python"; "tools/gen.py"; "--out=../../build/Release/names.h"; "My 'first' addon"].
Proof.
  split; [left; reflexivity|]. split; [eexists; vm_compute; reflexivity|]. split; [reflexivity|]. split; [exact maker_names|]. split; [exact maker_clear|]. split; [exact maker_simple|]. split; [exact header_ok|vm_compute; reflexivity].
Qed.
(** C91.  So for a rule and each of its sources: the statement has the variables of the
    source, ninja reads each as it is, and the program gets its arguments with the
    source, its directory, name, root and extension in their places. *)
Theorem C91_rule : forall s t to_build inputs prebuild r f file e pss,
  In r (rules t) -> write_rule_source s t r inputs prebuild f = Some e -> rule_command r = map argument pss ->
  NoDup (map variable_name (map action_name (actions t) ++ map rule_name (rules t))%list) ->
  clear_here s t to_build -> simple (build_to_base s t) -> (forall i, harmless (input_of f i)) ->
  (forall ps, In ps pss -> clear_argument ps /\ spaced (here s t to_build (input_of f)) ps) ->
  (forall k v, In (k, v) (bindings s t to_build r f) -> exists out, variable_line k v = Some out /\ reads_as out k v /\ evaluate file Plain v = Some v) /\
  exists value out cmd, assoc (command e) (ninja_rules s t to_build) = Some value /\ variable_line "command" value = Some out /\ reads_as out "command" value /\
    evaluate (within (bindings s t to_build r f) file) Plain value = Some cmd /\
    runs_in cmd (build_to_base s t) (map (fun ps => literal (means (here s t to_build (input_of f)) ps)) pss).
Proof. exact rule_runs. Qed.
Print Assumptions C91_rule.
Example C91_rule_witness :
  In compile_idl (rules maker) /\ (exists e, write_rule_source maker_setup maker compile_idl [] None "idl/main page.idl" = Some e) /\ rule_command compile_idl = map argument idl_pieces /\
  (forall i, harmless (input_of "idl/main page.idl" i)) /\
  (forall ps, In ps idl_pieces -> clear_argument ps /\ spaced (here maker_setup maker "../../build/Release" (input_of "idl/main page.idl")) ps) /\
  map (means (here maker_setup maker "../../build/Release" (input_of "idl/main page.idl"))) idl_pieces =
    ["python"; "tools/idl.py"; "idl/main page.idl"; "-o"; "../../build/Release/obj/deps/maker/maker.gen/main page.cc"].
Proof.
  split; [left; reflexivity|]. split; [eexists; vm_compute; reflexivity|]. split; [reflexivity|]. split; [exact idl_harmless|]. split; [exact idl_ok|vm_compute; reflexivity].
Qed.
(** C91.  The rules of a target have different names exactly if the actions and rules
    of the .gyp file have, seen without regard to characters other than letters,
    digits and underscores; see [C91_names_refuted]. *)
Theorem C91_names : forall s t to_build, NoDup (map fst (ninja_rules s t to_build)) <-> NoDup (map variable_name (map action_name (actions t) ++ map rule_name (rules t))%list).
Proof. exact rules_distinct. Qed.
Print Assumptions C91_names.
(** C91.  Two targets never have a rule of the same name, unless their digests are the
    same. *)
Theorem C91_targets : forall s t t' a b, (forall x, String.length (md5 s x) = 32) -> (forall x, variable_name (md5 s x) = md5 s x) -> rule_id s t a = rule_id s t' b -> md5 s (qualified t) = md5 s (qualified t').
Proof. exact id_targets. Qed.
Print Assumptions C91_targets.
Example C91_targets_witness : (forall x, String.length (md5 maker_setup x) = 32) /\ (forall x, variable_name (md5 maker_setup x) = md5 maker_setup x).
Proof. split; intros x; reflexivity. Qed.

(** A dollar sign in an argument of an action (["echo", "${HOME}"]) is meant for
    the shell, which EncodePOSIXShellArgument (common.py:264-282) leaves it to, but
    WriteNewNinjaRule (ninja.py:1957-1959) writes it into the file for ninja as it is:
    ninja takes ${HOME} for a variable of its own, which is empty. *)
Theorem C91_dollar_refuted : forall s t to_build, to_build <> "" ->
  command_text s t to_build ["echo"; "${HOME}"] = "cd " ++ build_to_base s t ++ "; " ++ "echo ""${HOME}""" /\
  evaluate (fun _ => "") Plain "echo ""${HOME}""" = Some "echo """"".
Proof. intros s t [|c b] N; [contradiction|]. split; reflexivity. Qed.
Print Assumptions C91_dollar_refuted.
(** The directory of the .gyp file is not quoted in the command (ninja.py:1959): with a
    blank in its name, "cd" gets two arguments, and the program does not run in it. *)
Theorem C91_directory_refuted : exists s t, build_to_base s t = "../../my addon" /\ command_text s t "../../build/Release" ["make"] = "cd ../../my addon; make" /\
  sh_words "cd ../../my addon" = Some [literal "cd"; literal "../../my"; literal "addon"].
Proof.
  exists maker_setup, {| qualified := "my addon/binding.gyp:a#target"; target_name := "a"; type := None_; toolset := "target"; path := "my addon"; dependencies := []; sources := []; actions := []; rules := []; copies := [];
    product_prefix := None; product_name := None; product_extension := None; product_dir := None; standalone := false |}. split; [reflexivity|]. split; reflexivity.
Qed.
Print Assumptions C91_directory_refuted.
(** The name of a source is put by ninja into the double quotes of the command as it is
    (ninja.py:783-811): a double quote in it ends the argument there. *)
Theorem C91_source_refuted : exists f cmd, f = "a"" ""b.idl" /\ variable_value maker_setup maker "../../build/Release" f "source" = f /\
  evaluate (within [("source", f)] (fun _ => "")) Plain (encode_posix_shell_list ["idl"; "${source}"]) = Some cmd /\ sh_words cmd = Some [literal "idl"; literal "a"; literal "b.idl"].
Proof. exists "a"" ""b.idl", "idl ""a"" ""b.idl""". split; [reflexivity|]. split; [reflexivity|]. split; reflexivity. Qed.
Print Assumptions C91_source_refuted.
(** All characters but letters, digits and underscores become underscores in the name of
    a ninja rule (ninja.py:1921-1928), so two actions of a target called gen-a and gen_a
    have one name, and so have an action and a rule that are both called gen; ninja
    does not accept the file. *)
Theorem C91_names_refuted : forall s t, rule_id s t "gen-a" = rule_id s t "gen_a" /\
  forall to_build a r, In a (actions t) -> In r (rules t) -> action_name a = rule_name r -> ~ NoDup (map fst (ninja_rules s t to_build)).
Proof. exact names_clash. Qed.
Print Assumptions C91_names_refuted.
