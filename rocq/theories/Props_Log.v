(** C107: what node-gyp prints as it works. *)
From Verif Require Import Lib Model_Log Spec_Log Proof_Log.
Local Open Scope string_scope.

(** Whatever is logged, held back, let out, and at whatever levels: the messages that are
    to be seen when they come out are printed, each once, in order, and nothing else. *)
Theorem C107_printed : forall tty h, neat_prefixes h -> Forall2 (looks tty) (expected true "info" h) (run (Some tty) h).
Proof. exact printed. Qed.
Print Assumptions C107_printed.
Example C107_printed_witness :
  let h := [Log "warn" "early" "x"; Level "notice"; Log "resume" "" ""; Log "info" "a" "not seen"; Log "error" "" ("two" ++ String "010" "  lines")] in
  neat_prefixes h /\ expected true "info" h = [("warn", "early", "x"); ("error", "", "two" ++ String "010" "  lines")] /\
  run (Some false) h = ["gyp WARN early x" ++ String "010" ""; "gyp ERR! two" ++ String "010" ("gyp ERR! lines" ++ String "010" "")].
Proof.
  split; [|split; vm_compute; reflexivity]. intros k p t I. cbn in I.
  assert (N : p = "early" \/ p = "" \/ p = "a") by (repeat destruct I as [I|I]; try discriminate I; try (injection I; intros; subst; tauto); destruct I).
  clear -N. exists "", "". destruct N as [->|[->| ->]]; (split; [reflexivity|]; split; [exact Logic.I|]; split; [exact Logic.I|]; split; [intros c y Q|intros c y Q]).
  all: try discriminate Q.
  all: try (destruct y as [|? [|? [|? [|? [|? [|? y]]]]]]; try discriminate Q).
  all: injection Q; intros; subst; intros W; apply white_iff in W; discriminate W.
Qed.

(** No message is printed twice, none before an earlier one. *)
Theorem C107_once : forall h, sublist (expected true "info" h) (messages h).
Proof. intros h. exact (expected_sub h true "info"). Qed.
Print Assumptions C107_once.
Example C107_once_witness : messages [Log "info" "a" "b"; Log "resume" "" ""; Log "silly" "" "c"] = [("info", "a", "b"); ("silly", "", "c")] /\
  expected true "info" [Log "info" "a" "b"; Log "resume" "" ""; Log "silly" "" "c"] = [("info", "a", "b")].
Proof. split; reflexivity. Qed.

(** In a run, those messages come out whose level is at least as grave as that of the
    command line, or else of npm, or else info. *)
Theorem C107_run : forall env option ms, NoDup (map fst env) ->
  (forall e, In e ms -> exists k p t, e = Log k p t /\ k <> "pause" /\ k <> "resume") ->
  expected true "info" (parse_argv_events env option ++ ms) = filter (fun m => seen (level_of_run env option) (fst (fst m))) (messages ms).
Proof. exact of_a_run. Qed.
Print Assumptions C107_run.
Example C107_run_witness : let env := [("PATH", "/bin"); ("npm_config_loglevel", "verbose")] in NoDup (map fst env) /\
  run (Some false) (parse_argv_events env "" ++ [Log "verbose" "cli" "node"; Log "silly" "x" "y"]) = ["gyp verb cli node" ++ String "010" ""] /\
  run (Some true) (parse_argv_events env "error" ++ [Log "verbose" "cli" "node"; Log "error" "stack" "y"]) =
  [in_colour "37;40" "gyp" ++ " " ++ in_colour "31;40" "ERR!" ++ " " ++ in_colour "35" "stack" ++ " y" ++ String "010" ""].
Proof.
  split; [|split; vm_compute; reflexivity]. cbn. repeat constructor; cbn; intuition discriminate.
Qed.

(** Without a stream nothing is printed. *)
Theorem C107_null : forall h, run None h = [].
Proof. exact quiet. Qed.
Print Assumptions C107_null.

(** An error is not printed at every level but silent: a level that node-gyp does not know
    makes it print nothing at all (lib/log.js:98-104).  The level timing of npm 7 and 8 is
    one; its variable npm_config_loglevel is taken over (lib/node-gyp.js:128-129). *)
Theorem C107_errors_refuted : ~ (forall level p t, level <> "silent" ->
  run (Some false) (parse_argv_events [("npm_config_loglevel", level)] "" ++ [Log "error" p t]) <> []).
Proof. intros H. apply (H "timing" "stack" "Error"); [discriminate|vm_compute; reflexivity]. Qed.
Print Assumptions C107_errors_refuted.

(** A line is not printed as it is: its indentation is lost (lib/log.js:162). *)
Theorem C107_indentation_refuted : ~ (forall p t, ~ In newline (list_ascii_of_string t) ->
  exists h, run (Some false) (parse_argv_events [] "" ++ [Log "error" p t]) = [h ++ t ++ String newline ""] /\ head_of false "error" p = Some h).
Proof.
  intros H. destruct (H "find VS" "    - found" ltac:(vm_compute; intuition discriminate)) as (h & E & E'). vm_compute in E'. injection E' as <-. vm_compute in E. discriminate E.
Qed.
Print Assumptions C107_indentation_refuted.
