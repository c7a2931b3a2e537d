(** Proofs about the search for Python. *)
From Verif Require Import Lib LibFacts Str Js Model_Python Spec_Python.
Local Open Scope string_scope.

Section Proofs.
Variable programs : programs.
Variable in_range : string -> bool.
Variable s : settings.

Lemma run_prog_spec : forall e a sh p, run_prog programs e a sh = Some p <-> says programs e a sh p.
Proof.
  intros e a sh p. unfold run_prog, says. destruct (programs e a sh) as [|f t].
  - split; [discriminate|intros (f & t & [= ] & _)].
  - split; [intros [= <-]; eauto|intros (f' & t' & [= -> ->] & ->); reflexivity].
Qed.
Lemma exec_path_spec : forall x p, check_exec_path programs in_range x = Some p <-> p = x /\ supported programs in_range x.
Proof.
  intros x p. unfold check_exec_path, supported, args_version. destruct (run_prog programs x _ false) as [v|] eqn:E.
  - apply run_prog_spec in E. destruct (in_range v) eqn:R.
    + split; [intros [= <-]; eauto|intros [-> _]; reflexivity].
    + split; [discriminate|]. intros (_ & v' & S & R'). apply run_prog_spec in S, E. congruence.
  - split; [discriminate|]. intros (_ & v' & S & R'). apply run_prog_spec in S. congruence.
Qed.

Definition try (c : candidate) : option string :=
  match c with Command x => check_command programs in_range s x | Launcher => check_py_launcher programs in_range s | At x => check_exec_path programs in_range x end.
Lemma try_spec : forall c p, try c = Some p <-> acceptable programs in_range s c p.
Proof.
  assert (G : forall e a sh p, match run_prog programs e a sh with Some q => check_exec_path programs in_range q | None => None end = Some p <-> says programs e a sh p /\ supported programs in_range p).
  { intros e a sh p. destruct (run_prog programs e a sh) as [q|] eqn:E.
    - rewrite exec_path_spec. apply run_prog_spec in E. split; [intros [-> S]; auto|]. intros [S1 S2]. apply run_prog_spec in S1, E. assert (p = q) by congruence. subst. auto.
    - split; [discriminate|]. intros [S _]. apply run_prog_spec in S. congruence. }
  intros [x| |x] p; unfold try, acceptable, stands_for.
  - unfold check_command. destruct (win s); apply G.
  - apply G.
  - rewrite exec_path_spec. split; intros [-> H]; auto.
Qed.

Fixpoint first_of (cs : list candidate) : option string :=
  match cs with [] => None | c :: cs' => match try c with Some p => Some p | None => first_of cs' end end.
Lemma run_checks_app : forall a b, run_checks (a ++ b)%list = match run_checks a with Some p => Some p | None => run_checks b end.
Proof. induction a as [|[k f] a IH]; intros b; [reflexivity|]. cbn [app run_checks]. destruct k; [apply IH|]. destruct (f tt); [reflexivity|apply IH]. Qed.
Lemma first_of_app : forall a b, first_of (a ++ b)%list = match first_of a with Some p => Some p | None => first_of b end.
Proof. induction a as [|c a IH]; intros b; [reflexivity|]. cbn [app first_of]. destruct (try c); [reflexivity|apply IH]. Qed.
Lemma find_first : find_python programs in_range s = first_of (candidates s).
Proof.
  unfold find_python, to_check, candidates, is_set. destruct (force_python s) as [|a f]; [|reflexivity]. cbn [String.eqb negb]. rewrite !run_checks_app, !first_of_app. cbn [run_checks].
  assert (L : run_checks (map (fun l => (false, fun _ => check_exec_path programs in_range l)) (locations s)) = first_of (map At (locations s))).
  { induction (locations s) as [|l ls IH]; [reflexivity|]. cbn [map run_checks first_of try]. rewrite IH. reflexivity. }
  assert (P : forall x : string, match (if negb (negb (String.eqb x "")) then None else match check_command programs in_range s x with Some p => Some p | None => None end) with Some p => Some p | None => None end = first_of (match x with "" => [] | _ => [Command x] end)).
  { intros [|b x]; [reflexivity|]. cbn. destruct (check_command programs in_range s (String b x)); reflexivity. }
  rewrite <- !P. destruct (String.eqb (config_python s) ""); cbn [negb]; destruct (String.eqb (env_python s) ""); cbn [negb];
  destruct (win s); cbn [run_checks first_of try app]; rewrite ?L;
  repeat match goal with |- context [match ?x with Some _ => _ | None => _ end] => is_var x; destruct x end;
  destruct (check_command programs in_range s (config_python s)), (check_command programs in_range s (env_python s)), (check_py_launcher programs in_range s),
    (check_command programs in_range s "python3"), (check_command programs in_range s "python"); reflexivity.
Qed.
Lemma first_of_Some : forall cs p, first_of cs = Some p <-> exists pre c post, cs = (pre ++ c :: post)%list /\ acceptable programs in_range s c p /\ forall c' p', In c' pre -> ~ acceptable programs in_range s c' p'.
Proof.
  induction cs as [|c cs IH]; intros p; cbn [first_of].
  - split; [discriminate|intros (pre & c & post & E & _); destruct pre; discriminate].
  - destruct (try c) as [q|] eqn:E.
    + split.
      * intros [= <-]. exists [], c, cs. split; [reflexivity|]. split; [apply try_spec; exact E|intros c' p' []].
      * intros (pre & d & post & E2 & A & N). destruct pre as [|e pre]; injection E2 as <- E2; [apply try_spec in A; congruence|]. destruct (N c q (or_introl eq_refl)). apply try_spec. exact E.
    + rewrite IH. split; intros (pre & d & post & E2 & A & N).
      * exists (c :: pre), d, post. rewrite E2. split; [reflexivity|]. split; [exact A|]. intros c' p' [<-|X] AC; [apply try_spec in AC; congruence|exact (N c' p' X AC)].
      * destruct pre as [|e pre]; injection E2 as <- E2; [apply try_spec in A; congruence|]. exists pre, d, post. split; [exact E2|]. split; [exact A|]. intros c' p' X. apply N. right. exact X.
Qed.
Lemma first_of_None : forall cs, first_of cs = None <-> forall c p, In c cs -> ~ acceptable programs in_range s c p.
Proof.
  induction cs as [|c cs IH]; cbn [first_of].
  - split; [intros _ c p []|reflexivity].
  - destruct (try c) as [q|] eqn:E.
    + split; [discriminate|]. intros H. destruct (H c q (or_introl eq_refl)). apply try_spec. exact E.
    + rewrite IH. split; [intros H d p [<-|X] AC; [apply try_spec in AC; congruence|exact (H d p X AC)]|intros H d p X; apply H; right; exact X].
Qed.
End Proofs.

Lemma find_python_Some : forall programs in_range s p, find_python programs in_range s = Some p <->
  exists pre c post, candidates s = (pre ++ c :: post)%list /\ acceptable programs in_range s c p /\ forall c' p', In c' pre -> ~ acceptable programs in_range s c' p'.
Proof. intros. rewrite find_first. apply first_of_Some. Qed.
Lemma find_python_None : forall programs in_range s, find_python programs in_range s = None <-> forall c p, In c (candidates s) -> ~ acceptable programs in_range s c p.
Proof. intros. rewrite find_first. apply first_of_None. Qed.
