(** Proofs about Xcode project files: texts, blanks and comments. *)
From Verif Require Import Lib Str StrFacts LibFacts Model_Quote Model_Writer Model_Pbx Spec_Pbx.
From Verif Require Model_Text.
From Coq Require Import ZArith Permutation Lia.
Local Open Scope string_scope.

(** ** Characters *)
Lemma bare_naked : forall a, bare a = true -> naked a = true.
Proof. intros [b0 b1 b2 b3 b4 b5 b6 b7]. destruct b0, b1, b2, b3, b4, b5, b6, b7; vm_compute; auto. Qed.
Lemma bare_harmless : forall a, bare a = true -> harmless a.
Proof.
  intros a H. unfold bare in H. unfold harmless. cbn [In]. repeat (apply orb_true_iff in H; destruct H as [H|H]);
    try (apply andb_true_iff in H; destruct H as [H1 H2]; apply N.leb_le in H1, H2; left; lia); apply Ascii.eqb_eq in H; subst a; auto 8.
Qed.
Lemma naked_blank : forall a, naked a = true -> blank a = false.
Proof. intros [b0 b1 b2 b3 b4 b5 b6 b7]. destruct b0, b1, b2, b3, b4, b5, b6, b7; vm_compute; auto. Qed.

(** ** Blanks *)
Definition skippable (x : string) : Prop := forall s, skip (x ++ s) = skip s.
Lemma skippable_nil : skippable "". Proof. intros s. reflexivity. Qed.
Lemma skippable_app : forall x y, skippable x -> skippable y -> skippable (x ++ y).
Proof. intros x y X Y s. rewrite append_assoc, X. apply Y. Qed.
Lemma skippable_newline : skippable newline. Proof. intros s. reflexivity. Qed.
Lemma skippable_space : skippable " ". Proof. intros s. reflexivity. Qed.
Lemma skippable_indent : forall n, skippable (indent n).
Proof. induction n as [|n IH]; [apply skippable_nil|]. cbn [indent]. apply skippable_app; [intros s; reflexivity|exact IH]. Qed.
Lemma skippable_indented : forall single n, skippable (indented single n).
Proof. intros [|] n; [apply skippable_nil|apply skippable_indent]. Qed.
Lemma skippable_separator : forall single, skippable (separator single).
Proof. intros [|]; [apply skippable_space|apply skippable_newline]. Qed.

(** ** Comments *)
Fixpoint closes (s : string) : bool := match s with "" => false | String a r => (Ascii.eqb a "*" && String.prefix "/" r) || closes r end.
Lemma in_block : forall x s, closes x = false -> skip_from In_block (x ++ " */" ++ s) = skip s.
Proof.
  induction x as [|a x IH]; intros s H; [reflexivity|]. cbn [closes] in H. apply orb_false_iff in H. destruct H as [H1 H2]. cbn [append skip_from].
  destruct (Ascii.eqb a "*"); [|exact (IH s H2)]. cbn [andb] in H1. destruct x as [|b x]; [reflexivity|]. cbn [String.prefix] in H1. rewrite <- (IH s H2). cbn [append].
  destruct (Ascii.eqb_spec b "/") as [->|N]; [destruct x; discriminate H1|reflexivity].
Qed.
Definition slashed (s : string) : bool := String.prefix "/" s.
Lemma closes_app : forall a s, closes (String a s) = (Ascii.eqb a "*" && slashed s) || closes s. Proof. reflexivity. Qed.
Lemma replace_calm : forall s, (closes (replace_from "*/" "(*)/" 0 s) = false /\ (slashed s = false -> slashed (replace_from "*/" "(*)/" 0 s) = false)) /\ closes (replace_from "*/" "(*)/" 1 s) = false.
Proof.
  induction s as [|a s [[IH1 IH2] IH3]]; [repeat split|]. split; [|exact IH1]. cbn [replace_from].
  destruct (String.prefix "*/" (String a s)) eqn:P.
  - split; [|reflexivity]. cbn [String.length Nat.sub append]. rewrite !closes_app. cbn [Ascii.eqb Bool.eqb andb orb]. exact IH3.
  - split.
    + rewrite closes_app, IH1, orb_false_r. destruct (Ascii.eqb_spec a "*") as [->|]; [|reflexivity]. cbn [andb]. apply IH2. unfold slashed. cbn [String.prefix] in P. exact P.
    + intros H. unfold slashed in *. cbn [String.prefix] in *. destruct (ascii_dec "/" a); [|reflexivity]. destruct s; discriminate H.
Qed.
Lemma skippable_comment : forall c, skippable (encode_comment c).
Proof.
  intros c s. unfold encode_comment. rewrite !append_assoc. change (skip ("/* " ++ ?x)) with (skip_from In_block (" " ++ x)).
  change (" " ++ replace "*/" "(*)/" c ++ " */" ++ s) with ((" " ++ replace "*/" "(*)/" c) ++ " */" ++ s). apply in_block. cbn [append]. rewrite closes_app. cbn [Ascii.eqb Bool.eqb andb orb]. apply (replace_calm c).
Qed.
Lemma closes_letters : forall s, (forall a, In a (list_ascii_of_string s) -> a <> "*"%char) -> closes s = false.
Proof.
  induction s as [|a s IH]; intros H; [reflexivity|]. rewrite closes_app. rewrite IH; [|intros b I; apply H; right; exact I]. destruct (Ascii.eqb_spec a "*") as [->|]; [|reflexivity]. exfalso. exact (H "*"%char (or_introl eq_refl) eq_refl).
Qed.
Lemma skippable_mark : forall x, closes x = false -> skippable ("/* " ++ x ++ " */").
Proof.
  intros x C s. rewrite !append_assoc. change (skip ("/* " ++ ?y)) with (skip_from In_block (" " ++ y)). change (" " ++ x ++ " */" ++ s) with ((" " ++ x) ++ " */" ++ s). apply in_block. cbn [append]. rewrite closes_app, C. reflexivity.
Qed.

(** ** Texts *)
Definition stop (s : string) : Prop := match s with "" => True | String a _ => naked a = false /\ a <> "*"%char end.
Definition says_text (t s : string) : Prop := forall rest, stop rest -> exists r, reads_string (t ++ rest) s r /\ skip r = skip rest.
Fixpoint all_naked (s : string) : bool := match s with "" => true | String a r => naked a && all_naked r end.
Lemma token_all : forall t rest, all_naked t = true -> stop rest -> token (t ++ rest) = (t, rest).
Proof.
  induction t as [|a t IH]; intros rest H S.
  - cbn [append]. destruct rest as [|a r]; [reflexivity|]. cbn [token]. destruct S as [S _]. rewrite S. reflexivity.
  - cbn [all_naked] in H. apply andb_true_iff in H. destruct H as [H1 H2]. cbn [append token]. rewrite H1, (IH rest H2 S). reflexivity.
Qed.
Lemma skip_naked : forall a r, naked a = true -> (forall b r', a = "/"%char -> r = String b r' -> b <> "/"%char /\ b <> "*"%char) -> skip (String a r) = String a r.
Proof.
  intros a r N H. unfold skip. cbn [skip_from]. rewrite (naked_blank a N). destruct (Ascii.eqb_spec a "/") as [->|]; [|reflexivity]. destruct r as [|b r']; [reflexivity|].
  destruct (H b r' eq_refl eq_refl) as [N1 N2]. destruct (Ascii.eqb_spec b "/") as [|]; [contradiction|]. destruct (Ascii.eqb_spec b "*"); [contradiction|reflexivity].
Qed.
Lemma says_naked : forall a t, all_naked (String a t) = true -> (forall r, String a t <> "//" ++ r) -> says_text (String a t) (String a t) \/ (a = "/"%char /\ t = "").
Proof.
  intros a t H D. destruct (ascii_dec a "/") as [->|N].
  - destruct t as [|b t]; [right; auto|left]. intros rest S. exists rest. split; [|reflexivity]. cbn [append]. apply (string_naked _ "/" (String b (t ++ rest))).
    + apply skip_naked; [reflexivity|]. intros b' r' _ E. injection E as <- <-. split; [intros ->; exact (D t eq_refl)|]. intros ->. discriminate H.
    + reflexivity.
    + exact (token_all (String "/" (String b t)) rest H S).
  - left. intros rest S. exists rest. split; [|reflexivity]. cbn [append]. apply (string_naked _ a (t ++ rest)).
    + apply skip_naked; [cbn [all_naked] in H; apply andb_true_iff in H; apply H|]. intros b r' E. contradiction.
    + cbn [all_naked] in H. apply andb_true_iff in H. apply H.
    + exact (token_all (String a t) rest H S).
Qed.
Lemma quoted_step : forall alternate a r, a <> "013"%char -> quoted (escape1 alternate a ++ r) = cons_to a (quoted r).
Proof.
  intros alternate [b0 b1 b2 b3 b4 b5 b6 b7] r N. destruct alternate, b0, b1, b2, b3, b4, b5, b6, b7; try (exfalso; apply N; reflexivity); reflexivity.
Qed.
Lemma quoted_escapes : forall alternate s r, has_char "013" s = false -> quoted (escapes alternate s ++ String dquote r) = Some (s, r).
Proof.
  intros alternate. induction s as [|a s IH]; intros r H; [reflexivity|]. cbn [has_char] in H. apply orb_false_iff in H. destruct H as [E H].
  cbn [escapes]. rewrite append_assoc, quoted_step.
  - rewrite IH; [reflexivity|]. exact H.
  - intros ->. discriminate E.
Qed.
Lemma bare_end : forall s, bare_to_end s = true -> (all_naked s = true /\ forall a, In a (list_ascii_of_string s) -> harmless a) \/ exists b, s = b ++ newline /\ forall a, In a (list_ascii_of_string b) -> harmless a.
Proof.
  induction s as [|a s IH]; intros H; [left; split; [reflexivity|intros a []]|]. cbn [bare_to_end] in H. destruct (bare a) eqn:B.
  - destruct (IH H) as [[I1 I2]|(b & -> & I)].
    + left. split; [cbn [all_naked]; rewrite (bare_naked a B), I1; reflexivity|]. intros c [<-|I]; [apply bare_harmless; exact B|exact (I2 c I)].
    + right. exists (String a b). split; [reflexivity|]. intros c [<-|J]; [apply bare_harmless; exact B|exact (I c J)].
  - right. exists "". apply String.eqb_eq in H. split; [exact H|intros c []].
Qed.
Lemma encode_says : forall alternate s, tame s -> says_text (encode alternate s) s.
Proof.
  intros alternate s (C & T1 & T2) rest S. unfold encode. destruct (unquoted s && negb (contains "___" s)) eqn:U.
  - apply andb_true_iff in U. destruct U as [U _]. unfold unquoted in U. destruct s as [|a s]; [discriminate U|]. apply andb_true_iff in U. destruct U as [B E].
    destruct (bare_end s E) as [[N H]|(b & -> & H)]; [|exfalso; apply T1; exists (String a b); split; [discriminate|]; split; [reflexivity|]; intros c [<-|I]; [apply bare_harmless; exact B|exact (H c I)]].
    assert (AN : all_naked (String a s) = true) by (cbn [all_naked]; rewrite (bare_naked a B); exact N).
    destruct (says_naked a s AN) as [G|[-> ->]].
    + intros r X. apply T2. exists r. split; [exact X|]. intros c I. destruct (ascii_dec a "/") as [->|Na]; [|cbn in X; injection X as X; contradiction]. cbn in X. injection X as ->. apply H. right. exact I.
    + exact (G rest S).
    + exists rest. split; [|reflexivity]. cbn [append]. apply (string_naked _ "/" rest); [|reflexivity|exact (token_all "/" rest eq_refl S)].
      apply skip_naked; [reflexivity|]. intros b r' _ X. subst rest. destruct S as [S Q]. split; [intros ->; discriminate S|exact Q].
  - exists rest. split; [|reflexivity]. cbn [append]. apply (string_quoted _ (escapes alternate s ++ str1 dquote ++ rest)); [cbn [append]; rewrite append_assoc; reflexivity|]. exact (quoted_escapes alternate s rest C).
Qed.
