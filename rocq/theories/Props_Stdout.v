(** C109: the standard output of node-gyp. *)
From Verif Require Import Lib Model_Cli Model_Stdout Spec_Stdout Proof_Stdout.
Local Open Scope string_scope.

(** What is written is, for each list command that is run, the versions that are
    installed as it is run, each on a line, or a notice that there are none; and nothing
    else.  The exit code is 0 exactly if all commands are run. *)
Theorem C109_printed : forall version usage argv fuel w pushes todo dirs o code, honest w dirs -> todo <> [] ->
  main false version usage argv fuel w pushes todo = Some (o, code) ->
  exists done after, runs w pushes [] todo done after /\ says dirs [] done o /\
    (code = 0 /\ after = [] \/ exists c rest, after = c :: rest /\ (code = 1 /\ w (map fst done) c = Throws \/ code = 6 /\ w (map fst done) c = Never)).
Proof. exact main_prints. Qed.
Print Assumptions C109_printed.
(** The first list command sees two versions, the second, after remove, none. *)
Definition some_dirs (hist : list task) : listing := match hist with [] => Names ["18.0.0"; "current"; "20.1.0"] | _ => Error "ENOENT" end.
Definition some_world (hist : list task) (c : task) : outcome := if String.eqb (fst c) "list" then list_command (some_dirs hist) else Gives Nothing.
Example C109_printed_witness : honest some_world some_dirs /\
  main false "10.0.0" "usage" [] 9 some_world (fun _ _ => []) [("list", []); ("remove", ["18"]); ("list", [])] =
  Some ([line "18.0.0"; line "20.1.0"; line "No node development files installed. Use `node-gyp install` to install a version."], 0).
Proof.
  split; [|reflexivity]. intros hist c. unfold some_world. destruct (String.eqb_spec (fst c) "list") as [E|E]; split; congruence.
Qed.

(** Each run ends. *)
Theorem C109_ends : forall null version usage argv w pushes todo, usual pushes -> exists n, forall fuel, n <= fuel -> exists r, main null version usage argv fuel w pushes todo = Some r.
Proof. exact main_ends. Qed.
Print Assumptions C109_ends.
Example C109_ends_witness : usual (fun _ c => if String.eqb (fst c) "rebuild" then [("clean", []); ("configure", snd c); ("build", [])] else []).
Proof. intros hist c. destruct (String.eqb_spec (fst c) "rebuild"); auto. Qed.

(** Without a command the version is printed if it is asked for, or else the usage. *)
Theorem C109_no_command : forall version usage argv fuel w pushes, exists s, main false version usage argv fuel w pushes [] = Some ([line s], 0) /\
  (In "-v" argv \/ In "--version" argv -> s = "v" ++ version) /\ (~ In "-v" argv -> ~ In "--version" argv -> s = usage).
Proof. exact without_command. Qed.
Print Assumptions C109_no_command.

(** With NODE_GYP_NULL_LOGGER nothing is written, and nothing else is different. *)
Theorem C109_null : forall version usage argv fuel w pushes todo,
  main true version usage argv fuel w pushes todo = match main false version usage argv fuel w pushes todo with Some (_, code) => Some ([], code) | None => None end.
Proof. exact with_null. Qed.
Print Assumptions C109_null.

(** The string that a command gives is not printed as it is: that of remove for a version
    that is not installed (lib/remove.js:37) is printed without its first letter and with
    blanks between all others, as bin/node-gyp.js:90 spreads it as if it were an array. *)
Theorem C109_message_refuted : ~ (forall w pushes fuel c s o code, w [] c = Gives (Text s) -> pushes [] c = [] -> 2 <= fuel -> fst c <> "list" ->
  main false "" "" [] fuel w pushes [c] = Some (o, code) -> o = [line s]).
Proof.
  intros H. specialize (H (fun _ _ => Gives (Text "version was already uninstalled: 18.0.0")) (fun _ _ => []) 2 ("remove", ["18.0.0"]) _ _ _ eq_refl eq_refl (le_n _) ltac:(discriminate) eq_refl).
  discriminate H.
Qed.
Print Assumptions C109_message_refuted.
Example C109_message_shown : main false "" "" [] 2 (fun _ _ => Gives (Text "version was")) (fun _ _ => []) [("remove", ["18.0.0"])] = Some ([line "e r s i o n   w a s"], 0).
Proof. reflexivity. Qed.
