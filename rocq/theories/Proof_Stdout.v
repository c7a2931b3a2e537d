(** Proofs about the standard output of node-gyp. *)
From Verif Require Import Lib Model_Cli Model_Stdout Spec_Stdout.
Local Open Scope string_scope.

Lemma prints : forall w pushes fuel todo hist out o code, run_printing fuel w pushes todo hist out = Some (o, code) ->
  exists done after, runs w pushes hist todo done after /\ o = (out ++ flat_map (fun x => print_value (fst (fst x)) (snd x)) done)%list /\
    (code = 0 /\ after = [] \/
     exists c rest, after = c :: rest /\ (code = 1 /\ w (hist ++ map fst done)%list c = Throws \/ code = 6 /\ w (hist ++ map fst done)%list c = Never)).
Proof.
  intros w pushes. induction fuel as [|fuel IH]; intros todo hist out o code H; [discriminate|]. cbn [run_printing] in H. destruct todo as [|c todo].
  - injection H as <- <-. exists [], []. split; [constructor|]. split; [cbn; rewrite app_nil_r; reflexivity|]. left. auto.
  - destruct (w hist c) as [v| |] eqn:W.
    + destruct (IH _ _ _ _ _ H) as (done & after & R & -> & E). exists ((c, v) :: done), after. split; [constructor; assumption|]. split; [cbn [flat_map fst snd]; rewrite app_assoc; reflexivity|].
      destruct E as [E|(c' & rest & E & K)]; [left; exact E|]. right. exists c', rest. split; [exact E|]. cbn [map fst]. rewrite <- app_assoc in K. exact K.
    + injection H as <- <-. exists [], (c :: todo). split; [constructor|]. split; [cbn; rewrite app_nil_r; reflexivity|]. right. exists c, todo. split; [reflexivity|]. left. cbn. rewrite app_nil_r. auto.
    + injection H as <- <-. exists [], (c :: todo). split; [constructor|]. split; [cbn; rewrite app_nil_r; reflexivity|]. right. exists c, todo. split; [reflexivity|]. right. cbn. rewrite app_nil_r. auto.
Qed.
Lemma print_list : forall dir v, list_command dir = Gives v -> exists names, installed dir = Some names /\ print_value "list" v = lines_for names.
Proof.
  intros dir v H. unfold list_command in H. destruct dir as [l|code].
  - injection H as <-. eexists. split; [reflexivity|]. cbn [print_value String.eqb Ascii.eqb Bool.eqb]. destruct (filter _ l); reflexivity.
  - destruct (String.eqb code "ENOENT") eqn:E; [|discriminate]. injection H as <-. exists []. split; [cbn; rewrite E; reflexivity|reflexivity].
Qed.
Lemma main_prints : forall version usage argv fuel w pushes todo dirs o code, honest w dirs -> todo <> [] ->
  main false version usage argv fuel w pushes todo = Some (o, code) ->
  exists done after, runs w pushes [] todo done after /\ says dirs [] done o /\
    (code = 0 /\ after = [] \/ exists c rest, after = c :: rest /\ (code = 1 /\ w (map fst done) c = Throws \/ code = 6 /\ w (map fst done) c = Never)).
Proof.
  intros version usage argv fuel w pushes todo dirs o code HW N H. unfold main in H. destruct todo as [|c todo]; [destruct (N eq_refl)|]. cbv zeta in H.
  destruct (run_printing fuel w pushes (c :: todo) [] []) as [[o' code']|] eqn:R; [|discriminate]. injection H as -> ->.
  destruct (prints _ _ _ _ _ _ _ _ R) as (done & after & RU & -> & E). exists done, after. split; [exact RU|]. split; [|exact E]. cbn [app].
  revert RU. generalize (@nil task), (c :: todo), done, after. clear -HW. intros h0 t0 d0 a0 RU. induction RU as [hist todo|hist c todo v l after W R IH]; [constructor|]. cbn [flat_map fst snd]. destruct (HW hist c) as (H1 & H2). destruct (String.eqb_spec (fst c) "list") as [E|E].
  - rewrite (H1 E) in W. destruct (print_list _ _ W) as (names & I & P). rewrite E, P. eapply says_list; eassumption.
  - rewrite (H2 E v W). unfold print_value at 1. apply String.eqb_neq in E. rewrite E. apply String.eqb_neq in E. cbn [app]. apply says_other; assumption.
Qed.
Lemma without_command : forall version usage argv fuel w pushes, exists s, main false version usage argv fuel w pushes [] = Some ([line s], 0) /\
  (In "-v" argv \/ In "--version" argv -> s = "v" ++ version) /\ (~ In "-v" argv -> ~ In "--version" argv -> s = usage).
Proof.
  intros version usage argv fuel w pushes. eexists. split; [reflexivity|].
  assert (M : forall x, mem x argv = true <-> In x argv) by (intros x; unfold mem; rewrite existsb_exists; split; [intros (y & I & E); apply String.eqb_eq in E; subst y; exact I|intros I; exists x; split; [exact I|apply String.eqb_refl]]).
  split.
  - intros H. destruct (mem "-v" argv || mem "--version" argv) eqn:E; [reflexivity|]. apply orb_false_iff in E. destruct E as (E1 & E2). destruct H as [H|H]; apply M in H; congruence.
  - intros H1 H2. destruct (mem "-v" argv || mem "--version" argv) eqn:E; [|reflexivity]. apply orb_true_iff in E. destruct E as [E|E]; apply M in E; tauto.
Qed.
Lemma with_null : forall version usage argv fuel w pushes todo,
  main true version usage argv fuel w pushes todo = match main false version usage argv fuel w pushes todo with Some (_, code) => Some ([], code) | None => None end.
Proof. intros. unfold main. destruct todo; [reflexivity|]. destruct (run_printing _ _ _ _ _ _) as [[? ?]|]; reflexivity. Qed.
Definition weight (l : list task) : nat := fold_right (fun c n => task_weight c + n) 0 l.
Lemma weight_cons : forall c l, weight (c :: l) = task_weight c + weight l.
Proof. reflexivity. Qed.
Lemma weight_app : forall a b, weight (a ++ b)%list = weight a + weight b.
Proof. induction a as [|c a IH]; intros b; [reflexivity|]. cbn [app]. rewrite !weight_cons, IH. lia. Qed.
Lemma ends_fuel : forall w pushes, usual pushes -> forall fuel todo hist out, weight todo < fuel -> run_printing fuel w pushes todo hist out <> None.
Proof.
  intros w pushes U. induction fuel as [|fuel IH]; intros todo hist out L; [lia|]. cbn [run_printing]. destruct todo as [|c todo]; [discriminate|]. destruct (w hist c); try discriminate.
  apply IH. rewrite weight_app. rewrite weight_cons in L. destruct (U hist c) as [->|[(E & ->)|(E & ->)]].
  - cbn [weight fold_right]. assert (1 <= task_weight c) by (unfold task_weight; destruct (String.eqb _ _); [lia|destruct (_ || _); lia]). lia.
  - assert (task_weight c = 5) by (unfold task_weight; rewrite E; reflexivity). change (weight [("clean", []); ("configure", snd c); ("build", [])]) with 4. lia.
  - assert (task_weight c = 2) by (unfold task_weight; destruct E as [-> | ->]; reflexivity). change (weight [("remove", snd c)]) with 1. lia.
Qed.
Lemma main_ends : forall null version usage argv w pushes todo, usual pushes -> exists n, forall fuel, n <= fuel -> exists r, main null version usage argv fuel w pushes todo = Some r.
Proof.
  intros null version usage argv w pushes todo U. exists (S (weight todo)). intros fuel L. unfold main. destruct todo as [|c todo]; [eexists; reflexivity|].
  destruct (run_printing fuel w pushes (c :: todo) [] []) as [[o code]|] eqn:R; [eexists; reflexivity|]. exfalso. exact (ends_fuel w pushes U fuel _ [] [] L R).
Qed.
