(** Proofs about the arguments of the command to debug. *)
From Coq Require Import Lia.
From Verif Require Import Lib Str Model_UserFile Spec_UserFile.

Lemma chars_app a b : list_ascii_of_string (a ++ b)%string = list_ascii_of_string a ++ list_ascii_of_string b.
Proof. induction a as [|c a IH]; cbn; [reflexivity|rewrite IH; reflexivity]. Qed.
Fixpoint dbl (s : list ascii) : list ascii := match s with [] => [] | c :: s' => if Ascii.eqb c quote then c :: c :: dbl s' else c :: dbl s' end.
Lemma dbl_spec s : list_ascii_of_string (double s) = dbl (list_ascii_of_string s).
Proof. induction s as [|c s IH]; cbn; [reflexivity|]. unfold quote. destruct (Ascii.eqb c """"); cbn; rewrite IH; reflexivity. Qed.
Lemma has_in c s : has_char c s = true <-> In c (list_ascii_of_string s).
Proof.
  induction s as [|d s IH]; cbn [has_char list_ascii_of_string In]; [split; [discriminate|intros []]|].
  destruct (Ascii.eqb_spec d c) as [->|n].
  - split; [intros _; left; reflexivity|reflexivity].
  - rewrite IH. split; [auto|intros [X|X]; [elim (n X)|exact X]].
Qed.
Lemma repeat_snoc n (x : ascii) : repeat x (S n) = repeat x n ++ [x].
Proof. induction n as [|n IH]; [reflexivity|]. cbn [repeat] in *. cbn [app]. rewrite <- IH. reflexivity. Qed.

(** Nothing, or a blank, comes next. *)
Definition stops (r : list ascii) : Prop := r = [] \/ exists r', r = " "%char :: r'.
Lemma inside a : forall cur n r, stops r -> (forall x y, a <> x ++ backslash :: quote :: y) -> (forall x, a <> x ++ [backslash]) ->
  (n <> 0 -> a <> [] /\ forall y, a <> quote :: y) ->
  parse true true cur n (dbl a ++ quote :: r) = parse false true (cur ++ repeat backslash n ++ a) 0 r.
Proof.
  induction a as [|c a IH]; intros cur n r R H1 H2 H3.
  - assert (n = 0) as -> by (destruct n; [reflexivity|]; destruct (H3 ltac:(discriminate)) as [X _]; elim X; reflexivity).
    cbn [dbl app repeat]. rewrite app_nil_r. destruct R as [->|[r' ->]]; cbn; rewrite ?app_nil_r; reflexivity.
  - assert (H1' : forall x y, a <> x ++ backslash :: quote :: y) by (intros x y E; apply (H1 (c :: x) y); rewrite E; reflexivity).
    assert (H2' : forall x, a <> x ++ [backslash]) by (intros x E; apply (H2 (c :: x)); rewrite E; reflexivity).
    cbn [dbl]. destruct (Ascii.eqb_spec c quote) as [->|Q].
    + assert (n = 0) as -> by (destruct n; [reflexivity|]; destruct (H3 ltac:(discriminate)) as [_ X]; elim (X a); reflexivity).
      change (parse true true cur 0 ((quote :: quote :: dbl a) ++ quote :: r)) with (parse true true ((cur ++ []) ++ [quote]) 0 (dbl a ++ quote :: r)).
      rewrite (IH _ 0 r R H1' H2') by (intros X; elim X; reflexivity). cbn [repeat app]. rewrite app_nil_r, <- app_assoc. reflexivity.
    + cbn [app]. destruct (Ascii.eqb_spec c backslash) as [->|B].
      * change (parse true true cur n (backslash :: dbl a ++ quote :: r)) with (parse true true cur (S n) (dbl a ++ quote :: r)).
        rewrite (IH _ (S n) r R H1' H2').
        -- rewrite repeat_snoc, <- app_assoc. reflexivity.
        -- intros _. split; [intros ->; apply (H2 []); reflexivity|intros y ->; apply (H1 [] y); reflexivity].
      * cbn [parse]. rewrite (proj2 (Ascii.eqb_neq _ _) B), (proj2 (Ascii.eqb_neq _ _) Q). cbn [negb]. rewrite andb_false_r.
        rewrite (IH _ 0 r R H1' H2') by (intros X; elim X; reflexivity). cbn [repeat app]. rewrite <- !app_assoc. reflexivity.
Qed.
Lemma dbl_same a : ~ In quote a -> dbl a = a.
Proof.
  induction a as [|c a IH]; intros N; [reflexivity|]. cbn [dbl]. destruct (Ascii.eqb_spec c quote) as [->|_]; [elim N; left; reflexivity|].
  rewrite IH; [reflexivity|intros X; apply N; right; exact X].
Qed.
(** ... with backslashes still to come *)
Lemma outside a : forall st cur n r, stops r -> (a <> [] \/ st = true) -> (forall c, In c a -> c <> quote /\ c <> " "%char /\ c <> "009"%char) ->
  exists m k, parse false st cur n (a ++ r) = parse false true k m r /\ k ++ repeat backslash m = cur ++ repeat backslash n ++ a.
Proof.
  induction a as [|c a IH]; intros st cur n r R S' H.
  - destruct S' as [X| ->]; [elim X; reflexivity|]. exists n, cur. split; [reflexivity|rewrite app_nil_r; reflexivity].
  - destruct (H c (or_introl eq_refl)) as [Q [B1 B2]].
    assert (H' : forall c, In c a -> c <> quote /\ c <> " "%char /\ c <> "009"%char) by (intros d D; apply H; right; exact D).
    cbn [app parse]. destruct (Ascii.eqb_spec c backslash) as [->|B].
    + destruct (IH true cur (S n) r R (or_intror eq_refl) H') as [m [k [E K]]]. exists m, k. split; [exact E|].
      rewrite K, repeat_snoc, <- app_assoc. reflexivity.
    + rewrite (proj2 (Ascii.eqb_neq _ _) Q), (proj2 (Ascii.eqb_neq _ _) B1), (proj2 (Ascii.eqb_neq _ _) B2). cbn [orb andb].
      destruct (IH true (cur ++ repeat backslash n ++ [c]) 0 r R (or_intror eq_refl) H') as [m [k [E K]]]. exists m, k. split; [exact E|].
      rewrite K. cbn [repeat app]. rewrite <- !app_assoc. reflexivity.
Qed.
Lemma one_arg a r : plain a -> stops r -> exists m k,
  parse false false [] 0 (list_ascii_of_string (quote_arg a) ++ r) = parse false true k m r /\ k ++ repeat backslash m = list_ascii_of_string a.
Proof.
  intros [N [P1 P2]] R. unfold quote_arg.
  assert (QQ : forall b, (exists c, In c [" "%char; "009"%char; "010"%char; quote] /\ In c (list_ascii_of_string a)) -> dbl (list_ascii_of_string a) = b ->
    exists m k, parse false false [] 0 ((quote :: b ++ [quote]) ++ r) = parse false true k m r /\ k ++ repeat backslash m = list_ascii_of_string a).
  { intros b X <-. exists 0, (list_ascii_of_string a). split; [|apply app_nil_r].
    cbn [app]. rewrite <- app_assoc. cbn [app].
    transitivity (parse true true [] 0 (dbl (list_ascii_of_string a) ++ quote :: r)).
    - cbn [parse]. destruct (dbl (list_ascii_of_string a) ++ quote :: r) eqn:E; [destruct (dbl (list_ascii_of_string a)); discriminate E|reflexivity].
    - rewrite (inside _ [] 0 r R P1 (P2 X)) by (intros Y; elim Y; reflexivity). reflexivity. }
  destruct (has_char """" a) eqn:Q.
  - rewrite !chars_app, dbl_spec. apply QQ; [|reflexivity]. exists quote. split; [cbn; tauto|apply has_in, Q].
  - assert (NQ : ~ In quote (list_ascii_of_string a)) by (intros X; apply has_in in X; unfold quote in X; congruence).
    destruct (has_char " " a || has_char "009" a || has_char "010" a) eqn:B.
    + rewrite !chars_app. apply QQ; [|apply dbl_same, NQ].
      apply orb_true_iff in B as [B|B]; [apply orb_true_iff in B as [B|B]|]; apply has_in in B; eexists; (split; [|exact B]); cbn; tauto.
    + apply orb_false_iff in B as [B _]. apply orb_false_iff in B as [B1 B2].
      destruct (outside (list_ascii_of_string a) false [] 0 r R) as [m [k [E K]]].
      * left. destruct a; [elim N; reflexivity|discriminate].
      * intros c C. split; [intros ->; exact (NQ C)|]. split; intros ->; apply has_in in C; congruence.
      * exists m, k. split; [exact E|exact K].
Qed.
Lemma round_trip args : Forall plain args -> arguments (command_arguments args) = args.
Proof.
  unfold arguments, command_arguments. intros H. induction H as [|a args P H IH]; [reflexivity|].
  destruct args as [|b args].
  - cbn [map String.concat]. destruct (one_arg a [] P (or_introl eq_refl)) as [m [k [E K]]]. rewrite app_nil_r in E. rewrite E.
    cbn [parse map]. rewrite K, string_of_list_ascii_of_string. reflexivity.
  - assert (C : String.concat " " (map quote_arg (a :: b :: args)) = (quote_arg a ++ " " ++ String.concat " " (map quote_arg (b :: args)))%string) by reflexivity.
    rewrite C, chars_app, chars_app.
    destruct (one_arg a (list_ascii_of_string " " ++ list_ascii_of_string (String.concat " " (map quote_arg (b :: args)))) P) as [m [k [E K]]]; [right; eexists; reflexivity|].
    rewrite E. change (list_ascii_of_string " ") with [" "%char]. cbn [app parse].
    change (Ascii.eqb " " backslash) with false. change (Ascii.eqb " " quote) with false. cbn [Ascii.eqb Bool.eqb orb andb negb].
    cbn [map]. f_equal; [rewrite K; apply string_of_list_ascii_of_string|exact IH].
Qed.
