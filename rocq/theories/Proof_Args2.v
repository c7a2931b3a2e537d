(** What gyp goes by, and what configure makes of it. *)
From Coq Require Import ZArith Lia.
From Verif Require Import Lib Str LibFacts StrFacts Model_Path Model_Args Spec_Args Proof_Args Model_Configure Spec_Configure.
Local Open Scope string_scope.

Lemma opt_beq_iff : forall o o', opt_beq o o' = true <-> o = o'.
Proof. intros o o'. split; [apply internal_opt_dec_bl|apply internal_opt_dec_lb]. Qed.
Lemma given_values : forall o es, given o es = values o es.
Proof.
  intros o es. induction es as [|e es IH]; [reflexivity|]. unfold values in *. cbn [given flat_map]. destruct e as [o' v| |]; cbn [app]; try exact IH. destruct (opt_eq_dec o o') as [->|N].
  - rewrite (proj2 (opt_beq_iff o' o') eq_refl), IH. reflexivity.
  - destruct (opt_beq o o') eqn:B; [apply opt_beq_iff in B; congruence|exact IH].
Qed.
Lemma left_lefts : forall es, left_over es = lefts es.
Proof. induction es as [|e es IH]; [reflexivity|]. unfold lefts in *. cbn [left_over flat_map]. destruct e; cbn [app]; congruence. Qed.
Lemma on_iff : forall o es, is_on o es = true <-> In (On o) es.
Proof.
  intros o es. unfold is_on. rewrite existsb_exists. split.
  - intros (e & I & H). destruct e as [| o' |]; try discriminate. apply opt_beq_iff in H. subst. exact I.
  - intros I. exists (On o). split; [exact I|apply opt_beq_iff; reflexivity].
Qed.
Lemma off_iff : forall o es, negb (is_on o es) = false <-> In (On o) es.
Proof. intros. rewrite negb_false_iff. apply on_iff. Qed.
Lemma stored_iff : forall o es v, stored o es = Some v <-> exists a b, es = (a ++ Given o v :: b)%list /\ forall w, ~ In (Given o w) b.
Proof.
  intros o es v. induction es as [|e es IH] using rev_ind; [split; [discriminate|intros (a & b & E & _); destruct a; discriminate]|]. rewrite stored_app. split.
  - intros H. destruct (stored o [e]) as [v'|] eqn:S.
    + injection H as ->. destruct e as [o' x| |]; try discriminate. unfold stored in S. cbn [given] in S. destruct (opt_beq o o') eqn:B; [|discriminate]. apply opt_beq_iff in B. cbn in S. injection S as ->. subst. exists es, []. split; [reflexivity|intros w []].
    + apply IH in H. destruct H as (a & b & -> & N). exists a, (b ++ [e])%list. rewrite <- app_assoc. split; [reflexivity|]. intros w I. apply in_app_or in I. destruct I as [I|[->|[]]]; [exact (N w I)|]. unfold stored in S. cbn [given] in S. rewrite (proj2 (opt_beq_iff o o) eq_refl) in S. discriminate.
  - intros (a & b & E & N). destruct (List.exists_last (l := Given o v :: b)) as (b' & x & Eb); [discriminate|]. rewrite Eb, app_assoc in E. apply app_inj_tail in E. destruct E as [-> ->]. destruct b as [|y b].
    + destruct b' as [|z b']; [|destruct b'; discriminate]. injection Eb as <-. unfold stored. cbn [given]. rewrite (proj2 (opt_beq_iff o o) eq_refl). reflexivity.
    + destruct b' as [|z b']; [discriminate|]. injection Eb as <- Eb. assert (I : In x (y :: b)) by (rewrite Eb; apply in_or_app; right; left; reflexivity). destruct (stored o [x]) eqn:S.
      * exfalso. destruct x as [o' w| |]; try discriminate. unfold stored in S. cbn [given] in S. destruct (opt_beq o o') eqn:B; [|discriminate]. apply opt_beq_iff in B. subst o'. exact (N w I).
      * apply IH. exists a, b'. split; [reflexivity|]. intros w J. apply (N w). rewrite Eb. apply in_or_app. left. exact J.
Qed.
Lemma chosen_iff : forall o es v, truth (stored o es) = Some v <-> chosen o es v.
Proof.
  intros o es v. unfold chosen. rewrite <- stored_iff. destruct (stored o es) as [[|a s]|]; cbn [truth]; split.
  - discriminate.
  - intros [N E]. congruence.
  - intros E. split; [congruence|exact E].
  - intros [_ E]. exact E.
  - discriminate.
  - intros [_ E]. discriminate.
Qed.
Lemma none_chosen : forall o es, truth (stored o es) = None <-> forall v, ~ chosen o es v.
Proof.
  intros o es. split.
  - intros H v C. apply chosen_iff in C. congruence.
  - intros H. destruct (truth (stored o es)) eqn:E; [|reflexivity]. apply chosen_iff in E. destruct (H _ E).
Qed.
Lemma truth_truth : forall s, truth (truth s) = truth s.
Proof. intros [[|a s]|]; reflexivity. Qed.
Lemma env_chosen : forall o es e d,
  match truth (stored o es) with Some v => Some v | None => if negb (is_on Ignore_environment es) then truth e else None end = Some d <-> chosen_or_env o es e d.
Proof.
  intros o es e d. unfold chosen_or_env. destruct (truth (stored o es)) as [v|] eqn:T.
  - split; [intros [= ->]; left; apply chosen_iff; exact T|]. intros [C|(N & _)]; [apply chosen_iff in C; congruence|]. apply chosen_iff in T. destruct (N _ T).
  - pose proof (proj1 (none_chosen o es) T) as N. split.
    + intros H. destruct (is_on Ignore_environment es) eqn:I; [discriminate|]. right. split; [exact N|]. split; [intros J; apply on_iff in J; congruence|]. cbn [negb] in H. destruct e as [[|a s]|]; try discriminate. injection H as <-. split; [reflexivity|discriminate].
    + intros [C|(_ & I & -> & NE)]; [destruct (N _ C)|]. destruct (is_on Ignore_environment es) eqn:J; [apply on_iff in J; contradiction|]. cbn [negb]. destruct d; [congruence|reflexivity].
Qed.
Lemma heeded_env : forall {A} es (l : list A), heeded es l (if negb (is_on Ignore_environment es) then l else []).
Proof.
  intros A es l. unfold heeded. destruct (is_on Ignore_environment es) eqn:I; cbn [negb]; [left|right]; (split; [|reflexivity]); [apply on_iff; exact I|]. intros J. apply on_iff in J. congruence.
Qed.
Theorem gyp_means : forall f env es, means f env es (run_of env (complete f env (options_of es)) (left_over es)).
Proof.
  intros f env es. unfold means, run_of, complete, options_of; cbn [run_files run_formats run_config_dir run_output run_depth run_toplevel run_defines run_flags run_includes run_parallel run_circular_check run_check run_debug run_suffix run_roots run_configs configs check config_dir debug defines depth formats flags output use_environment includes circular_check parallel suffix toplevel_dir root_targets].
  rewrite !given_values, left_lefts. repeat match goal with |- _ /\ _ => split end; try reflexivity; try apply on_iff; try apply off_iff; try (intros d; apply chosen_iff).
  - eexists. split; [apply heeded_env|]. destruct (values Format es); [|reflexivity]. destruct (negb _); [|reflexivity]. destruct (env_generators env); reflexivity.
  - intros d. rewrite <- env_chosen. reflexivity.
  - intros d. rewrite <- env_chosen. destruct (truth (stored Output es)) eqn:T.
    + rewrite T. reflexivity.
    + destruct (negb _); [|rewrite T; reflexivity]. destruct (truth (env_output env)) as [g|] eqn:G; [|rewrite T; reflexivity]. rewrite <- G, truth_truth. reflexivity.
  - intros d. destruct (truth (stored Toplevel es)) as [t|] eqn:T.
    + rewrite T. split; [intros [= ->]; left; apply chosen_iff; exact T|]. intros [C|[N _]]; [apply chosen_iff in C; congruence|]. apply chosen_iff in T. destruct (N _ T).
    + pose proof (proj1 (none_chosen Toplevel es) T) as N. rewrite chosen_iff. split; [intros C; right; auto|]. intros [C|[_ C]]; [destruct (N _ C)|exact C].
  - eexists. split; [apply heeded_env|]. intros k v. apply name_value_iff.
  - eexists. split; [apply heeded_env|]. intros k v. apply name_value_iff.
Qed.
Theorem gyp_reads : forall f env args,
  (forall r, gyp f env args = Some r -> exists es, says args es /\ means f env es r) /\
  (forall es, says args es -> exists r, gyp f env args = Some r /\ means f env es r).
Proof.
  intros f env args. unfold gyp. split.
  - intros r H. destruct (parse args) as [es|] eqn:P; [|discriminate]. injection H as <-. exists es. split; [apply parse_iff; exact P|apply gyp_means].
  - intros es H. apply parse_iff in H. rewrite H. eexists. split; [reflexivity|apply gyp_means].
Qed.
