(** C80: what the commands in a .gyp file are answered with. *)
From Coq Require Import ZArith.
From Verif Require Import Lib Str Model_Path Model_Commands Spec_Commands Proof_Commands Proof_Commands2 Proof_Commands3.
Local Open Scope string_scope.

(** C80.  After any references, whatever commands and modules do: one to a command,
    whose text was not answered before for the same directory, runs the command in
    the directory of the build file, and is answered with what that prints, without
    the white space at its end; only if the command can be started, its status is
    not above zero and its output is UTF-8, and else it is an error. *)
Theorem C80_run : forall W M Source win literal repr split decode spawn chdir file_in load_module main p0 rs pre s r v post c,
  history W M Source win literal repr split decode spawn chdir file_in load_module main ([], p0) rs = (pre ++ (s, r, v) :: post)%list ->
  holds literal r c -> word r = None ->
  (forall x, ~ answered literal repr pre (match c with Shell l => l | Argv ws => repr ws end) (directory (build_file r)) x) ->
  forall x, v = inl x <-> exists c' at_, given win c c' /\ works_in (cwd (snd s)) (directory (build_file r)) at_ /\ outputs decode (snd (spawn (world (snd s)) c' at_)) x.
Proof.
  exact (fun W M Source win literal repr split decode spawn chdir file_in load_module main p0 rs pre s r v post c E H HW NA x =>
    eq_ind_r (fun v => v = inl x <-> _) (eq_ind_r (fun w => snd (execute W M Source win split decode spawn chdir file_in load_module main (snd s) w c (directory (build_file r))) = inl x <-> _)
      (subprocess_outputs W M Source win split decode spawn chdir file_in load_module main (snd s) c (directory (build_file r)) x) HW)
      (proj1 (not_cached W M Source win literal repr split decode spawn chdir file_in load_module main p0 rs pre s r v post c E H NA))).
Qed.
Print Assumptions C80_run.
Example C80_run_witness : answers (history nat string string false lists spell split_words utf8 runs move found load do_main ([], start) steps) =
  [inl "/r/a"; inl "later"; inl "/r/b"; inr (Gyp "returned exit status"); inl "42"; inl "hello from /r/a"; inl "later"; inl "/r"] /\
  holds lists (listed "['node', '-p', '6*7']" "binding.gyp") (Argv ["node"; "-p"; "6*7"]) /\ works_in "/r" (directory "a/x.gyp") "/r/a" /\ outputs utf8 (snd (runs 3 (Shell "pwd") "/r/a")) "/r/a".
Proof.
  split; [exact steps_answers|]. split; [apply holds_words; reflexivity|]. split; [apply works_join; reflexivity|].
  exists 0%Z, ("/r/a" ++ String "010" ""), ("/r/a" ++ String "010" ""). split; [reflexivity|]. split; [lia|]. split; [reflexivity|]. apply trimmed_rstrip. reflexivity.
Qed.

(** C80.  Once answered, references with the same text and directory are answered the
    same, and nothing more is run for them: not even time passes. *)
Theorem C80_once : forall W M Source win literal repr split decode spawn chdir file_in load_module main p0 rs pre s r v post c x,
  history W M Source win literal repr split decode spawn chdir file_in load_module main ([], p0) rs = (pre ++ (s, r, v) :: post)%list ->
  holds literal r c -> answered literal repr pre (match c with Shell l => l | Argv ws => repr ws end) (directory (build_file r)) x ->
  v = inl x /\ fst (answer W M Source win literal repr split decode spawn chdir file_in load_module main s r) = s.
Proof. exact from_cache. Qed.
Print Assumptions C80_once.
Example C80_once_witness : exists pre s post, history nat string string false lists spell split_words utf8 runs move found load do_main ([], start) steps = (pre ++ (s, shell "count" "binding.gyp", inl "later") :: post)%list /\
  holds lists (shell "count" "binding.gyp") (Shell "count") /\ answered lists spell pre "count" (directory "binding.gyp") "later" /\ world (snd s) = 5.
Proof.
  set (h := history nat string string false lists spell split_words utf8 runs move found load do_main ([], start) steps).
  exists (firstn 6 h). assert (K : exists s post, skipn 6 h = (s, shell "count" "binding.gyp", inl "later") :: post /\ world (snd s) = 5).
  { vm_compute. eexists. eexists. split; reflexivity. }
  destruct K as (s & post & K & T). exists s, post. split; [rewrite <- K; symmetry; apply firstn_skipn|]. split; [apply holds_line; reflexivity|]. split; [|exact T].
  exists (nth 1 (map (fun e => fst (fst e)) h) ([], start)), (shell "count" "binding.gyp"), (Shell "count"). split; [vm_compute; auto|]. split; [apply holds_line; reflexivity|]. split; reflexivity.
Qed.

(** C80.  The working directory and sys.path are the same at every reference, whatever
    errors commands and modules end with, as long as modules leave sys.path alone and
    the directory gyp was started in is there; a module may change directory. *)
Theorem C80_restored : forall W M Source win literal repr split decode spawn chdir file_in load_module main rs ca p,
  (forall src q, path (fst (load_module src q)) = path q) -> (forall m q a, path (fst (main m q a)) = path q) -> (forall u x, chdir u x (cwd p) = Some (cwd p)) ->
  forall s r v, In (s, r, v) (history W M Source win literal repr split decode spawn chdir file_in load_module main (ca, p) rs) -> cwd (snd s) = cwd p /\ path (snd s) = path p.
Proof. exact history_restores. Qed.
Print Assumptions C80_restored.
Example C80_restored_witness : (forall src q, path (fst (load src q)) = path q) /\ (forall m q a, path (fst (do_main m q a)) = path q) /\ (forall u x, move u x (cwd start) = Some (cwd start)) /\
  path (with_path nat string (with_cwd nat string start "/r/a") (path start ++ ["/r/a"])%list) <> path start /\ In (inl "hello from /r/a") (answers (history nat string string false lists spell split_words utf8 runs move found load do_main ([], start) steps)).
Proof. split; [exact load_path|]. split; [exact main_path|]. split; [exact move_back|]. split; [discriminate|]. rewrite steps_answers. cbn. tauto. Qed.

(** C80.  If what commands print does not change while gyp runs, and no two references
    that share text and directory differ in how they are to be run, each command is
    answered with what it prints itself, whatever was met before it. *)
Theorem C80_own : forall W M Source win literal repr split decode spawn chdir file_in load_module main p0 rs (prints : command -> string -> ran),
  (forall src q, path (fst (load_module src q)) = path q) -> (forall m q a, path (fst (main m q a)) = path q) -> (forall u x, chdir u x (cwd p0) = Some (cwd p0)) ->
  (forall u c d, snd (spawn u c d) = prints c d) -> (forall a b, repr a = repr b -> a = b) ->
  (forall r r' c c', In r rs -> In r' rs -> holds literal r c -> holds literal r' c' ->
     match c with Shell l => l | Argv ws => repr ws end = match c' with Shell l => l | Argv ws => repr ws end -> directory (build_file r) = directory (build_file r') -> word r = word r' /\ array r = array r') ->
  forall s r v c, In (s, r, v) (history W M Source win literal repr split decode spawn chdir file_in load_module main ([], p0) rs) -> word r = None -> holds literal r c ->
  forall x, v = inl x <-> exists c' at_, given win c c' /\ works_in (cwd p0) (directory (build_file r)) at_ /\ outputs decode (prints c' at_) x.
Proof. exact own_answer. Qed.
Print Assumptions C80_own.
Example C80_own_witness : (forall u x, fixed_move u x (cwd fixed_start) = Some (cwd fixed_start)) /\ (forall u c d, snd (fixed_runs u c d) = snd (runs 1 c d)) /\ (forall a b, spell a = spell b -> a = b) /\
  (forall r r' c c', In r apart -> In r' apart -> holds lists r c -> holds lists r' c' ->
     match c with Shell l => l | Argv ws => spell ws end = match c' with Shell l => l | Argv ws => spell ws end -> directory (build_file r) = directory (build_file r') -> word r = word r' /\ array r = array r') /\
  answers (history unit string string false lists spell split_words utf8 fixed_runs fixed_move fixed_found fixed_load fixed_main ([], fixed_start) apart) = [inl "/r/a"; inl "/r/b"; inl "hello from /r/a"; inl "42"; inl "/r/a"].
Proof. split; [reflexivity|]. split; [reflexivity|]. split; [exact spell_inj|]. split; [exact apart_kinds|exact apart_answers]. Qed.

(** C80.  A pymod_do_main reference not answered before is answered with what DoMain
    of the module named first returns for the other words, without the white space
    at its end.  The module is looked for with the directory of the build file as
    the working directory and as the last place of sys.path; and gyp must find its
    way back from where the module leaves it. *)
Theorem C80_module : forall W M Source win literal repr split decode spawn chdir file_in load_module main p0 rs pre s r v post l,
  history W M Source win literal repr split decode spawn chdir file_in load_module main ([], p0) rs = (pre ++ (s, r, v) :: post)%list ->
  holds literal r (Shell l) -> word r = Some "pymod_do_main" ->
  (forall x, ~ answered literal repr pre l (directory (build_file r)) x) ->
  forall x, v = inl x <-> exists d name args m q y q',
    (directory (build_file r) = None /\ d = cwd (snd s) \/ exists t, directory (build_file r) = Some t /\ chdir (world (snd s)) (cwd (snd s)) t = Some d) /\
    split l = inl (name :: args) /\
    got file_in load_module {| cwd := d; path := (path (snd s) ++ [d])%list; modules := modules (snd s); world := world (snd s) |} name m q /\
    main m q args = (q', inl y) /\ trimmed y x /\ path q' <> [] /\ chdir (world q') (cwd q') (cwd (snd s)) <> None.
Proof.
  exact (fun W M Source win literal repr split decode spawn chdir file_in load_module main p0 rs pre s r v post l E H HW NA x =>
    eq_ind_r (fun v => v = inl x <-> _) (eq_ind_r (fun w => snd (execute W M Source win split decode spawn chdir file_in load_module main (snd s) w (Shell l) (directory (build_file r))) = inl x <-> _)
      (pymod_answers W M Source win split decode spawn chdir file_in load_module main (snd s) l (directory (build_file r)) x) HW)
      (proj1 (not_cached W M Source win literal repr split decode spawn chdir file_in load_module main p0 rs pre s r v post (Shell l) E H NA))).
Qed.
Print Assumptions C80_module.
Example C80_module_witness : exists pre s post, history nat string string false lists spell split_words utf8 runs move found load do_main ([], start) steps = (pre ++ (s, py "hello world" "a/x.gyp", inl "hello from /r/a") :: post)%list /\
  holds lists (py "hello world" "a/x.gyp") (Shell "hello world") /\ (forall x, ~ answered lists spell pre "hello world" (directory "a/x.gyp") x).
Proof.
  set (h := history nat string string false lists spell split_words utf8 runs move found load do_main ([], start) steps).
  exists (firstn 5 h). assert (K : exists s post, skipn 5 h = (s, py "hello world" "a/x.gyp", inl "hello from /r/a") :: post).
  { vm_compute. eexists. eexists. reflexivity. }
  destruct K as (s & post & K). exists s, post. split; [rewrite <- K; symmetry; apply firstn_skipn|]. split; [apply holds_line; reflexivity|].
  intros x (s' & r & c & I & H & T & D). vm_compute in I.
  repeat (destruct I as [I|I]; [inversion I; subst; clear I; destruct H as [A|l' A B]; vm_compute in A, T, D; first [discriminate A|discriminate T|discriminate D]|]). destruct I.
Qed.

(** C80.  The directory of a build file is what its name has before the last slash. *)
Theorem C80_directory : (forall y a b, a <> "/"%char -> has_char "/" b = false -> directory ((y ++ String a "") ++ "/" ++ b) = Some (y ++ String a "")) /\
  (forall b, has_char "/" b = false -> directory b = None).
Proof. exact (conj directory_named directory_bare). Qed.
Print Assumptions C80_directory.
Example C80_directory_witness : directory "deps/zlib/zlib.gyp" = Some "deps/zlib" /\ directory "binding.gyp" = None.
Proof. split; [exact (directory_named "deps/zli" "b" "zlib.gyp" ltac:(discriminate) eq_refl)|exact (directory_bare "binding.gyp" eq_refl)]. Qed.

(** Finding: what a reference is answered with depends on the ones met before it, even
    if nothing ever changes: the word before the parenthesis is not part of what
    answers are kept under.  A pymod_do_main reference with the text of a shell
    command met before in the same directory is answered with what the shell command
    printed, and the other way round. *)
Theorem C80_word_refuted : ~ (forall M Source win literal repr split decode spawn chdir file_in load_module main p0 rs r v,
  In r rs -> word r = Some "pymod_do_main" ->
  answers (history unit M Source win literal repr split decode spawn chdir file_in load_module main ([], p0) [r]) = [v] ->
  exists s, In (s, r, v) (history unit M Source win literal repr split decode spawn chdir file_in load_module main ([], p0) rs)).
Proof.
  intros H. destruct (H string string false lists spell split_words utf8 fixed_runs fixed_move fixed_found fixed_load fixed_main fixed_start [shell "hello" "a/x.gyp"; py "hello" "a/x.gyp"] (py "hello" "a/x.gyp") (inl "hello from /r/a")) as (s & I).
  - right. left. reflexivity.
  - reflexivity.
  - exact (proj1 word_ignored).
  - vm_compute in I. destruct I as [I|[I|[]]]; discriminate I.
Qed.
Print Assumptions C80_word_refuted.

(** Finding: a reference with a word gyp does not know is an error, but not if its text
    was that of a command met before in the same directory. *)
Theorem C80_unknown_refuted : ~ (forall M Source win literal repr split decode spawn chdir file_in load_module main p0 rs s r v w,
  In (s, r, v) (history unit M Source win literal repr split decode spawn chdir file_in load_module main ([], p0) rs) -> word r = Some w -> w <> "pymod_do_main" -> exists e, v = inr e).
Proof.
  intros H. destruct (H string string false lists spell split_words utf8 fixed_runs fixed_move fixed_found fixed_load fixed_main fixed_start [shell "pwd" "a/x.gyp"; worded "python" "pwd" "a/x.gyp"]
    ([(("pwd", Some "a"), "/r/a")], fixed_start) (worded "python" "pwd" "a/x.gyp") (inl "/r/a") "python") as (e & E).
  - vm_compute. right. left. reflexivity.
  - reflexivity.
  - discriminate.
  - discriminate E.
Qed.
Print Assumptions C80_unknown_refuted.

(** Finding: a module named in one directory is taken for the one of the same name in
    another: Python has loaded it, and does not look for it again. *)
Theorem C80_module_refuted : ~ (forall M Source win literal repr split decode spawn chdir file_in load_module main p0 rs r v,
  In r rs -> (forall r', In r' rs -> word r' = Some "pymod_do_main") -> (forall r', In r' rs -> directory (build_file r') = directory (build_file r) -> r' = r) ->
  answers (history unit M Source win literal repr split decode spawn chdir file_in load_module main ([], p0) [r]) = [v] ->
  exists s, In (s, r, v) (history unit M Source win literal repr split decode spawn chdir file_in load_module main ([], p0) rs)).
Proof.
  intros H. destruct (H string string false lists spell split_words utf8 fixed_runs fixed_move fixed_found fixed_load fixed_main fixed_start [py "hello" "a/x.gyp"; py "hello" "b/x.gyp"] (py "hello" "b/x.gyp") (inl "hello from /r/b")) as (s & I).
  - right. left. reflexivity.
  - intros r' [<-|[<-|[]]]; reflexivity.
  - intros r' [<-|[<-|[]]] E; [discriminate E|reflexivity].
  - exact (proj1 other_module).
  - vm_compute in I. destruct I as [I|[I|[]]]; discriminate I.
Qed.
Print Assumptions C80_module_refuted.

(** Finding: a command that a signal ends is taken to have succeeded, its status being
    negative: what it printed until then is the answer. *)
Theorem C80_signal_refuted : ~ (forall W M Source win literal repr split decode spawn chdir file_in load_module main p0 rs s r x,
  In (s, r, inl x) (history W M Source win literal repr split decode spawn chdir file_in load_module main ([], p0) rs) -> word r = None ->
  exists w c at_ out, snd (spawn w c at_) = Exited 0 out /\ decode out = Some x).
Proof.
  intros H. destruct (H unit string string false lists spell split_words utf8 (fun _ _ _ => (tt, Exited (-11) "half")) fixed_move fixed_found fixed_load fixed_main fixed_start [shell "crash" "binding.gyp"] ([], fixed_start) (shell "crash" "binding.gyp") "half") as (w & c & a & out & E & _).
  - vm_compute. left. reflexivity.
  - reflexivity.
  - discriminate E.
Qed.
Print Assumptions C80_signal_refuted.
