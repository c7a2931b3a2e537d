(** C75 to C77: what a generated Makefile runs again, what a build with it leaves,
    and which command it runs. *)
From Verif Require Import Lib Str Model_Make Model_Writer Model_Remake Spec_Quote Spec_Make Spec_Writer Spec_Remake Proof_Make Proof_Writer3 Proof_Remake Proof_Remake2 Proof_Remake3 Proof_Remake4.
Local Open Scope string_scope.

(** C75.  A file that is compiled, copied, linked or put in its place, or is the one
    output of an action, is made again exactly if its command is another than the
    one that made it, or one of the files it is made from, those read at the last
    time among them, is newer or missing. *)
Theorem C75_again : forall sha1 needed ts rs t x st text, NoDup (map qualified ts) -> makefile sha1 needed ts = Some rs -> In t ts -> noticed t x ->
  (runs rs (all_deps ts) st x text = true <-> reason rs st x text).
Proof. exact (fun sha1 needed ts rs t x st text ND M I N => remade_iff sha1 needed ts rs ND M t x st text I N). Qed.
Print Assumptions C75_again.
Example C75_again_witness : NoDup (map qualified pair_project) /\ makefile id_sha everything pair_project = Some pair_rules /\ In user pair_project /\ noticed user "$(obj)/gen/config.h" /\
  reason pair_rules pair_built "$(obj)/gen/config.h" "python make.py --new" /\ ~ reason pair_rules pair_built "$(obj)/gen/config.h" "binding_gyp_addon_target_header $(obj)/gen/config.h" /\
  reason pair_rules pair_edited "$(obj).target/addon/src/addon.o" "cxx $(obj).target/addon/src/addon.o".
Proof.
  split; [exact pair_distinct|]. split; [exact pair_made|]. split; [right; left; reflexivity|]. split; [apply (noticed_action user own_header "$(obj)/gen/config.h"); [left; reflexivity|reflexivity]|].
  assert (N : noticed user "$(obj)/gen/config.h") by (apply (noticed_action user own_header "$(obj)/gen/config.h"); [left; reflexivity|reflexivity]).
  assert (O : noticed user "$(obj).target/addon/src/addon.o") by (apply (noticed_object user "src/addon.cc"); [left; reflexivity|reflexivity]).
  assert (IU : In user pair_project) by (right; left; reflexivity).
  split; [apply (remade_iff id_sha everything pair_project pair_rules pair_distinct pair_made user _ _ _ IU N); vm_compute; reflexivity|].
  split; [intros H; apply (remade_iff id_sha everything pair_project pair_rules pair_distinct pair_made user _ _ _ IU N) in H; vm_compute in H; discriminate|].
  apply (remade_iff id_sha everything pair_project pair_rules pair_distinct pair_made user _ _ _ IU O). vm_compute. reflexivity.
Qed.
(** C75.  Not what the rules of a target make: these are written without
    FORCE_DO_CMD, so do_cmd is not even asked, and a changed command is not
    noticed (make.py:1207-1209). *)
Theorem C75_rules_refuted :
  ~ (forall sha1 needed ts rs t r s o st text, NoDup (map qualified ts) -> makefile sha1 needed ts = Some rs -> In t ts -> In r (rules t) -> In s (rule_sources r) -> rule_outputs_for r s = [o] ->
       reason rs st (output t o) text -> runs rs (all_deps ts) st (output t o) text = true).
Proof. exact rule_unnoticed. Qed.
Print Assumptions C75_rules_refuted.
(** C75.  Not a static library: it is made with neither do_cmd nor FORCE_DO_CMD, so
    if a source is taken away, its object stays in the archive and is linked
    (make.py:1884-1904). *)
Theorem C75_archive_refuted :
  ~ (forall sha1 needed ts rs ts' rs' t t' st, NoDup (map qualified ts) -> makefile sha1 needed ts = Some rs -> NoDup (map qualified ts') -> makefile sha1 needed ts' = Some rs' ->
       In t ts -> In t' ts' -> type t = Static_library -> type t' = Static_library -> binary t = binary t' -> (forall y, feeds rs (binary t) y -> ~ late st (binary t) y) ->
       (exists y, feeds rs (binary t) y /\ ~ feeds rs' (binary t) y) -> out_of_date rs' (all_deps ts') st (binary t) = true).
Proof. exact archive_kept. Qed.
Print Assumptions C75_archive_refuted.
(** C75.  And an action with several outputs is run at every build: its command is
    recorded for the intermediate file, which is not in all_deps, so the record is
    never read (make.py:2107, 2160-2177). *)
Theorem C75_several_outputs_refuted :
  ~ (forall sha1 needed ts rs t a r x st text, NoDup (map qualified ts) -> makefile sha1 needed ts = Some rs -> In t ts -> In a (actions t) -> In r rs -> In (Do (action_variable t (action_name a))) (recipe r) -> In x (heads r) ->
       ~ reason rs st x text -> runs rs (all_deps ts) st x text = false).
Proof. exact two_again. Qed.
Print Assumptions C75_several_outputs_refuted.

(** C76.  For a project without gyp rules, static libraries and actions with several
    outputs, in which no two commands make the same file and commands read what they
    may and list: whatever order make takes, and after any history of edits and
    builds, a build leaves exactly what a build from scratch leaves, and fails
    exactly if that fails. *)
Theorem C76_incremental : forall sha1 needed ts rs order exec tracked text st,
  NoDup (map qualified ts) -> makefile sha1 needed ts = Some rs -> (forall t, In t ts -> install_path t <> "") -> Forall simple ts -> NoDup (all_deps ts) -> (forall t, In t ts -> sourced ts t) ->
  schedule rs order -> NoDup order -> honest exec -> careful ts rs exec tracked text -> history exec tracked st ->
  match from_scratch exec (commands ts rs text order) (contents st) with
  | Some fs => exists st', build exec text rs (all_deps ts) order st = (st', true) /\ forall x, contents st' x = fs x
  | None => snd (build exec text rs (all_deps ts) order st) = false
  end.
Proof. exact (fun sha1 needed ts rs order exec tr text st ND M NE SI DI SO SC NO HO CA => project_incremental sha1 needed ts rs ND M NE SI DI exec tr text order SC NO CA SO st HO). Qed.
Print Assumptions C76_incremental.
Example C76_incremental_witness :
  NoDup (map qualified pair_project) /\ makefile id_sha everything pair_project = Some pair_rules /\ (forall t, In t pair_project -> install_path t <> "") /\ Forall simple pair_project /\ NoDup (all_deps pair_project) /\
  (forall t, In t pair_project -> sourced pair_project t) /\ schedule pair_rules pair_order /\ NoDup pair_order /\ honest pair_exec /\ careful pair_project pair_rules pair_exec pair_tracked pair_text /\ history pair_exec pair_tracked pair_edited /\
  contents pair_edited "$(builddir)/libaddon.so" = Some "amhuh" /\ contents (fst (build pair_exec pair_text pair_rules (all_deps pair_project) pair_order pair_edited)) "$(builddir)/libaddon.so" = Some "amHuH".
Proof.
  split; [exact pair_distinct|]. split; [exact pair_made|]. split; [exact pair_named|]. split; [exact pair_simple|]. split; [exact pair_deps|]. split; [exact pair_sourced|]. split; [exact pair_schedule|]. split; [exact pair_once|].
  split; [exact pair_honest|]. split; [exact pair_careful|]. split; [exact pair_history|]. split; vm_compute; reflexivity.
Qed.
(** C76.  And right after that there is nothing to do. *)
Theorem C76_nothing_twice : forall sha1 needed ts rs order exec tracked text st st',
  NoDup (map qualified ts) -> makefile sha1 needed ts = Some rs -> (forall t, In t ts -> install_path t <> "") -> Forall simple ts -> NoDup (all_deps ts) -> (forall t, In t ts -> sourced ts t) ->
  schedule rs order -> NoDup order -> honest exec -> careful ts rs exec tracked text -> history exec tracked st -> finds exec (commands ts rs text order) ->
  build exec text rs (all_deps ts) order st = (st', true) -> build exec text rs (all_deps ts) order st' = (st', true).
Proof. exact (fun sha1 needed ts rs order exec tr text st st' ND M NE SI DI SO SC NO HO CA => project_nothing sha1 needed ts rs ND M NE SI DI exec tr text order SC NO CA SO st st' HO). Qed.
Print Assumptions C76_nothing_twice.
Example C76_nothing_twice_witness : finds pair_exec (commands pair_project pair_rules pair_text pair_order) /\ snd (build pair_exec pair_text pair_rules (all_deps pair_project) pair_order pair_edited) = true.
Proof. split; [exact pair_finds|vm_compute; reflexivity]. Qed.
(** C76.  The build is one more step of a history, so the next may follow. *)
Theorem C76_history : forall sha1 needed ts rs order exec tracked text st,
  NoDup (map qualified ts) -> makefile sha1 needed ts = Some rs -> (forall t, In t ts -> install_path t <> "") -> Forall simple ts -> NoDup (all_deps ts) -> (forall t, In t ts -> sourced ts t) ->
  schedule rs order -> NoDup order -> careful ts rs exec tracked text -> history exec tracked st -> history exec tracked (fst (build exec text rs (all_deps ts) order st)).
Proof. exact (fun sha1 needed ts rs order exec tr text st ND M NE SI DI SO SC NO CA => project_history sha1 needed ts rs ND M NE SI DI exec tr text order SC NO CA SO st). Qed.
Print Assumptions C76_history.
Example C76_history_witness : history pair_exec pair_tracked pair_start /\ contents pair_start "$(builddir)/libaddon.so" = None /\ contents pair_built "$(builddir)/libaddon.so" = Some "amhuh".
Proof. split; [exact pair_fresh|]. split; vm_compute; reflexivity. Qed.

(** C77.  Where all variables for actions and rules are different, each action runs
    its own command, in the directory of its build file, with the directory of its
    output made first. *)
Theorem C77_own_command : forall ts t a o, NoDup (map fst (definitions ts)) -> In t ts -> In a (actions t) -> action_outputs a = [o] -> (exists mk, directory o mk) ->
  exists v, value_of (definitions ts) (action_variable t (action_name a)) = Some v /\ runs_action t a o v.
Proof. exact own_text. Qed.
Print Assumptions C77_own_command.
Example C77_own_command_witness : NoDup (map fst (definitions pair_project)) /\ In user pair_project /\ In own_header (actions user) /\ directory "$(obj)/gen/config.h" "mkdir -p $(obj)/gen; " /\
  value_of (definitions pair_project) "binding_gyp_addon_target_header" =
  Some "LD_LIBRARY_PATH=$(builddir)/lib.host:$(builddir)/lib.target:$$LD_LIBRARY_PATH; export LD_LIBRARY_PATH; cd $(srcdir)/.; mkdir -p $(obj)/gen; python make.py".
Proof.
  split; [apply distinct_sound; vm_compute; reflexivity|]. split; [right; left; reflexivity|]. split; [left; reflexivity|]. split; [exact (directory_made "$(obj)/ge" "config.h" "n" eq_refl ltac:(discriminate))|vm_compute; reflexivity].
Qed.
(** C77.  In a project with one target it is enough that the names of the actions
    differ and consist of letters, digits and underscores. *)
Theorem C77_names : forall t, rules t = [] -> NoDup (map action_name (actions t)) -> (forall a, In a (actions t) -> Model_Release.all_chars word_char (action_name a) = true) -> NoDup (map fst (definitions [t])).
Proof. exact distinct_variables. Qed.
Print Assumptions C77_names.
Example C77_names_witness : rules user = [] /\ NoDup (map action_name (actions user)) /\ Model_Release.all_chars word_char "header" = true.
Proof. split; [reflexivity|]. split; [apply distinct_sound; vm_compute; reflexivity|reflexivity]. Qed.
(** C77.  It is not enough that they differ: of two actions "gen-a" and "gen_a" both
    run the command of the second, as both have the same variable (make.py:741-743,
    1029). *)
Theorem C77_same_variable_refuted :
  ~ (forall ts t a, NoDup (map qualified ts) -> In t ts -> NoDup (map action_name (actions t)) -> In a (actions t) -> value_of (definitions ts) (action_variable t (action_name a)) = Some (action_text t a)).
Proof. exact twin_commands. Qed.
Print Assumptions C77_same_variable_refuted.
(** C77.  Nor is it enough in two targets that all names are of letters, digits and
    underscores: action "y_target_z" of target "x" and action "z" of target
    "x_target_y" have the same variable. *)
Theorem C77_two_targets_refuted :
  ~ (forall ts t a, NoDup (map qualified ts) -> In t ts -> NoDup (map action_name (actions t)) -> (forall u b, In u ts -> In b (actions u) -> Model_Release.all_chars word_char (target_name u ++ action_name b) = true) -> In a (actions t) ->
       value_of (definitions ts) (action_variable t (action_name a)) = Some (action_text t a)).
Proof. exact near_commands. Qed.
Print Assumptions C77_two_targets_refuted.
