(** Proofs about the tools of the Makefiles. *)
From Coq Require Import ZArith Lia.
From Verif Require Import Lib Str Model_MacTool Spec_MacTool.
Local Open Scope string_scope.

Lemma strip_spec p s r : strip p s = Some r <-> s = p ++ r.
Proof.
  revert s. induction p as [|a p IH]; intros s; cbn [strip append].
  - split; [intros H; injection H as ->; reflexivity|intros ->; reflexivity].
  - destruct s as [|b s]; [split; discriminate|]. destruct (Ascii.eqb_spec a b) as [->|n].
    + rewrite IH. split; [intros ->; reflexivity|intros H; injection H as ->; reflexivity].
    + split; [discriminate|]. intros H. injection H as H _. elim n; symmetry; exact H.
Qed.
Lemma tails_spec s t : In t (tails s) <-> exists a, s = a ++ t.
Proof.
  induction s as [|c s IH]; cbn [tails In].
  - split; [intros [<-|[]]; exists ""; reflexivity|]. intros [[|a b] H]; cbn in H; [left; exact H|discriminate].
  - rewrite IH. split.
    + intros [<-|[a ->]]; [exists ""; reflexivity|exists (String c a); reflexivity].
    + intros [[|a b] H]; cbn in H; [left; exact H|]. injection H as -> ->. right. exists b; reflexivity.
Qed.
Lemma ends_spec u s : ends u s = true <-> exists a, s = a ++ u.
Proof.
  unfold ends. rewrite existsb_exists, <- tails_spec. split.
  - intros [t [H E]]. apply String.eqb_eq in E as ->. exact H.
  - intros H. exists u. split; [exact H|apply String.eqb_refl].
Qed.
Lemma blank_spec c : blank c = true <-> is_blank c.
Proof.
  unfold blank, is_blank. cbv zeta. rewrite orb_true_iff, !andb_true_iff, !Nat.leb_le. cbn [In]. lia.
Qed.
Lemma skip_spec s : exists w, s = w ++ skip_word s /\ word w.
Proof.
  induction s as [|c s [w [E W]]]; cbn [skip_word]; [exists ""; split; [reflexivity|intros ? []]|].
  destruct (blank c) eqn:B; [exists ""; split; [reflexivity|intros ? []]|].
  exists (String c w). split; [cbn; rewrite <- E; reflexivity|]. intros d [<-|D]; [|exact (W d D)].
  intros X. apply blank_spec in X. congruence.
Qed.
Lemma skip_word_app w q : word w -> skip_word (w ++ " " ++ q) = " " ++ q.
Proof.
  induction w as [|c w IH]; intros W; [reflexivity|]. cbn [append skip_word].
  destruct (blank c) eqn:B; [elim (W c (or_introl eq_refl)); apply blank_spec, B|].
  apply IH. intros d D. apply W. right; exact D.
Qed.
Lemma file_spec s : file_part s = true <-> exists f, s = "file: " ++ f ++ " has no symbols".
Proof.
  unfold file_part. destruct (strip "file: " s) as [r|] eqn:E.
  - apply strip_spec in E. rewrite ends_spec. split; intros [f F]; exists f; [rewrite E, F; reflexivity|].
    apply (f_equal (strip "file: ")) in F. rewrite (proj2 (strip_spec _ _ _) E), (proj2 (strip_spec "file: " _ (f ++ " has no symbols")) eq_refl) in F. injection F as ->. reflexivity.
  - split; [discriminate|]. intros [f F]. apply strip_spec in F. congruence.
Qed.
Lemma re_spec l : libtool_re l = true <->
  (exists t f, l = t ++ "libtool: file: " ++ f ++ " has no symbols") \/
  (exists t w f, word w /\ l = t ++ "libtool: for architecture: " ++ w ++ " file: " ++ f ++ " has no symbols").
Proof.
  unfold libtool_re. rewrite existsb_exists. split.
  - intros [t [T H]]. apply tails_spec in T as [a ->].
    destruct (strip "libtool: " t) as [r|] eqn:E; [|discriminate]. apply strip_spec in E as ->.
    apply orb_true_iff in H as [H|H].
    + destruct (strip "for architecture: " r) as [r'|] eqn:E; [|discriminate]. apply strip_spec in E as ->.
      destruct (strip " " (skip_word r')) as [q|] eqn:E; [|discriminate]. apply strip_spec in E.
      destruct (skip_spec r') as [w [R W]]. rewrite E in R. apply file_spec in H as [f ->].
      right. exists a, w, f. split; [exact W|]. rewrite R. reflexivity.
    + apply file_spec in H as [f ->]. left. exists a, f. reflexivity.
  - intros [[t [f ->]]|[t [w [f [W ->]]]]].
    + exists ("libtool: file: " ++ f ++ " has no symbols"). split; [apply tails_spec; exists t; reflexivity|].
      change ("libtool: file: " ++ f ++ " has no symbols") with ("libtool: " ++ ("file: " ++ f ++ " has no symbols")).
      rewrite (proj2 (strip_spec "libtool: " _ ("file: " ++ f ++ " has no symbols")) eq_refl).
      apply orb_true_iff. right. apply file_spec. exists f. reflexivity.
    + exists ("libtool: for architecture: " ++ w ++ " file: " ++ f ++ " has no symbols"). split; [apply tails_spec; exists t; reflexivity|].
      change ("libtool: for architecture: " ++ w ++ " file: " ++ f ++ " has no symbols") with ("libtool: " ++ ("for architecture: " ++ w ++ " file: " ++ f ++ " has no symbols")).
      rewrite (proj2 (strip_spec "libtool: " _ ("for architecture: " ++ w ++ " file: " ++ f ++ " has no symbols")) eq_refl).
      rewrite (proj2 (strip_spec "for architecture: " _ (w ++ " file: " ++ f ++ " has no symbols")) eq_refl).
      change (w ++ " file: " ++ f ++ " has no symbols") with (w ++ " " ++ ("file: " ++ f ++ " has no symbols")).
      rewrite (skip_word_app w _ W), (proj2 (strip_spec " " _ ("file: " ++ f ++ " has no symbols")) eq_refl).
      apply orb_true_iff. left. apply file_spec. exists f. reflexivity.
Qed.
Lemma re5_spec l : libtool_re5 l = true <-> exists t b, l = t ++ "libtool: warning for library: " ++ b ++ " the table of contents is empty (no object file members in the library define global symbols)".
Proof.
  unfold libtool_re5. rewrite existsb_exists. split.
  - intros [t [T H]]. apply tails_spec in T as [a ->].
    destruct (strip "libtool: warning for library: " t) as [r|] eqn:E; [|discriminate]. apply strip_spec in E as ->.
    apply ends_spec in H as [b ->]. exists a, b. reflexivity.
  - intros [t [b ->]]. eexists. split; [apply tails_spec; exists t; reflexivity|].
    rewrite (proj2 (strip_spec _ _ _) eq_refl). apply ends_spec. exists b. reflexivity.
Qed.
Lemma silenced_spec l : negb (libtool_re l) && negb (libtool_re5 l) = false <-> silenced l.
Proof.
  rewrite andb_false_iff, !negb_false_iff, re_spec, re5_spec. split.
  - intros [[[t [f ->]]|[t [w [f [W ->]]]]]|[t [b ->]]]; [apply no_symbols|apply no_symbols_arch; exact W|apply no_contents].
  - intros H. destruct H as [t f|t w f W|t b].
    + left; left. exists t, f. reflexivity.
    + left; right. exists t, w, f. split; [exact W|reflexivity].
    + right. exists t, b. reflexivity.
Qed.
Lemma shown ls : shows ls (filter (fun line => negb (libtool_re line) && negb (libtool_re5 line)) ls).
Proof.
  induction ls as [|l ls IH]; cbn [filter]; [constructor|].
  destruct (negb (libtool_re l) && negb (libtool_re5 l)) eqn:E.
  - apply shows_line; [|exact IH]. intros X. apply silenced_spec in X. congruence.
  - apply shows_not; [apply silenced_spec, E|exact IH].
Qed.
Lemma output_some cmd f : output_of cmd = Some f -> library cmd f.
Proof.
  induction cmd as [|a cmd IH]; cbn [output_of]; [discriminate|]. destruct cmd as [|b cmd]; [discriminate|].
  destruct (String.eqb a "-o" && ends ".a" b) eqn:E.
  - intros H; injection H as <-. apply andb_true_iff in E as [E1 E2]. apply String.eqb_eq in E1 as ->.
    split; [apply ends_spec, E2|]. exists [], cmd. split; [reflexivity|]. intros; cbn; lia.
  - intros H. destruct (IH H) as [F [x [y [E1 E2]]]]. split; [exact F|]. exists (a :: x), y. split; [rewrite E1; reflexivity|].
    intros [|c a'] s' b' X; cbn in X.
    + injection X as -> -> _. rewrite String.eqb_refl in E. cbn [andb] in E.
      assert (T : ends ".a" (s' ++ ".a") = true) by (apply ends_spec; exists s'; reflexivity). congruence.
    + injection X as _ X. cbn [length]. apply le_n_S. exact (E2 _ _ _ X).
Qed.
Lemma output_none cmd : output_of cmd = None -> forall f, ~ library cmd f.
Proof.
  induction cmd as [|a cmd IH]; cbn [output_of].
  - intros _ f [_ [[|x a] [b [X _]]]]; discriminate X.
  - destruct cmd as [|b cmd].
    + intros _ f [_ [[|x [|y a']] [b [X _]]]]; discriminate X.
    + destruct (String.eqb a "-o" && ends ".a" b) eqn:E; [discriminate|]. intros H f [[s ->] [[|x a'] [b' [X L]]]]; cbn in X.
      * injection X as -> -> _. rewrite String.eqb_refl in E. cbn [andb] in E.
        assert (T : ends ".a" (s ++ ".a") = true) by (apply ends_spec; exists s; reflexivity). congruence.
      * injection X as -> X. apply (IH H (s ++ ".a")). split; [exists s; reflexivity|]. exists a', b'. split; [exact X|].
        intros a2 s2 b2 Y. assert (Z : length (x :: a') <= length (x :: a2)) by (apply (L _ s2 b2); rewrite Y; reflexivity). cbn in Z. lia.
Qed.
Lemma status_zero c : code c -> (exit_status (Some c) = 0%Z <-> c = 0%Z).
Proof.
  unfold code, exit_status. intros H. split; [|intros ->; reflexivity]. intros M.
  apply Z.mod_divide in M as [k ->]; lia.
Qed.
Lemma libtool_step can_touch cmd err c out t st : code c -> mac_filter_libtool can_touch cmd err c = (out, t, st) ->
  shows err out /\
  (st = 0%Z <-> c = 0%Z /\ forall f, library cmd f -> can_touch f = true) /\
  (forall f, In f t <-> c = 0%Z /\ library cmd f /\ can_touch f = true).
Proof.
  intros C. unfold mac_filter_libtool, filter_libtool. destruct (Z.eqb_spec c 0) as [->|n].
  - destruct (output_of cmd) as [f|] eqn:O.
    + pose proof (output_some _ _ O) as L.
      assert (U : forall g, library cmd g -> g = f).
      { intros g [[s G] [a [b [E M]]]]. destruct L as [[s2 F] [a2 [b2 [E2 M2]]]].
        assert (Q : length a = length a2).
        { apply Nat.le_antisymm; [apply (M a2 s2 b2); rewrite <- F; exact E2|apply (M2 a s b); rewrite <- G; exact E]. }
        rewrite E in E2. clear -E2 Q. revert a2 E2 Q. induction a as [|x a IH]; intros [|y a2] E2 Q; try discriminate Q.
        - injection E2 as -> _. reflexivity.
        - injection E2 as _ E2. injection Q as Q. exact (IH a2 E2 Q). }
      destruct (can_touch f) eqn:T; cbn [printed touched value]; intros H; injection H as <- <- <-; (split; [apply shown|]).
      * split; [split; [intros _; split; [reflexivity|intros g G; rewrite (U g G); exact T]|reflexivity]|].
        intros g. split; [intros [<-|[]]; tauto|]. intros [_ [G _]]. left. symmetry. exact (U g G).
      * split; [split; [discriminate|intros [_ X]; specialize (X f L); congruence]|].
        intros g. split; [intros []|]. intros [_ [G X]]. rewrite (U g G) in X. congruence.
    + pose proof (output_none _ O) as N. cbn [printed touched value]. intros H; injection H as <- <- <-. split; [apply shown|].
      split; [split; [intros _; split; [reflexivity|intros f F; elim (N f F)]|reflexivity]|].
      intros f. split; [intros []|intros [_ [F _]]; elim (N f F)].
  - cbn [printed touched value]. intros H; injection H as <- <- <-. split; [apply shown|].
    split; [split; [intros X; apply (proj1 (status_zero c C)) in X; contradiction|intros [X _]; contradiction]|].
    intros f. split; [intros []|intros [X _]; contradiction].
Qed.
