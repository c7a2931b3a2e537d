From Coq Require Import ZArith.
From Verif Require Import Lib LibFacts Str StrFacts Js Spec_Text Proof_Text Model_Release Spec_Release.
From Verif Require Proof_Install Proof_Vs.
Local Open Scope string_scope.

(** ** Splitting and joining *)
Lemma join_cons : forall sep x l, l <> [] -> join sep (x :: l) = x ++ sep ++ join sep l.
Proof. intros sep x [|y l] H; [congruence|reflexivity]. Qed.
Lemma join_dotted : forall l, join "." l = dotted l.
Proof. induction l as [|x [|y l] IH]; [reflexivity|reflexivity|]. rewrite join_cons by discriminate. rewrite IH. reflexivity. Qed.
Lemma split_on_nonnil : forall c s, split_on c s <> [].
Proof. intros c [|a s]; cbn [split_on]; [discriminate|]. destruct (Ascii.eqb a c); [discriminate|]. destruct (split_on c s); discriminate. Qed.
Lemma split_on_inv : forall c s, s = join (String c "") (split_on c s) /\ Forall (fun x => has_char c x = false) (split_on c s).
Proof.
  intros c. induction s as [|a s (E & F)]; cbn [split_on]; [split; [reflexivity|repeat constructor]|]. destruct (Ascii.eqb_spec a c) as [->|N].
  - rewrite join_cons by apply split_on_nonnil. split; [cbn; rewrite <- E; reflexivity|constructor; [reflexivity|exact F]].
  - pose proof (split_on_nonnil c s) as NN. destruct (split_on c s) as [|l ls]; [congruence|]. apply Forall_cons_iff in F. destruct F as [F1 F2]. split.
    + destruct ls as [|l2 ls]; [cbn in *; congruence|]. rewrite join_cons in E by discriminate. rewrite join_cons by discriminate. cbn [append] in *. rewrite <- E. reflexivity.
    + constructor; [|assumption]. cbn. destruct (Ascii.eqb_spec a c); [congruence|assumption].
Qed.
Lemma split_on_app : forall c x s, has_char c x = false -> split_on c (x ++ s) = match split_on c s with [] => [x] | l :: ls => (x ++ l) :: ls end.
Proof.
  intros c x s. induction x as [|a x IH]; intros H; [cbn; destruct (split_on c s) eqn:E; [destruct (split_on_nonnil c s E)|reflexivity]|].
  cbn in H. destruct (Ascii.eqb a c) eqn:E; [discriminate|]. cbn [append split_on]. rewrite E, IH by exact H. destruct (split_on c s); reflexivity.
Qed.
Lemma split_on_join : forall c l, l <> [] -> Forall (fun x => has_char c x = false) l -> split_on c (join (String c "") l) = l.
Proof.
  intros c l NN F. induction l as [|x l IH]; [congruence|]. inversion F; subst. destruct l as [|y l].
  - cbn. replace x with (x ++ "") at 1 by apply append_nil_r. rewrite split_on_app by assumption. cbn. rewrite append_nil_r. reflexivity.
  - rewrite join_cons by discriminate. rewrite split_on_app by assumption. cbn [append split_on]. rewrite Ascii.eqb_refl, append_nil_r, IH; [reflexivity|discriminate|assumption].
Qed.
Lemma split_first_None : forall c s x, split_first c s = (x, None) <-> s = x /\ has_char c s = false.
Proof.
  intros c. induction s as [|a s IH]; intros x; cbn.
  - split; [intros [= <-]; auto|intros [<- _]; reflexivity].
  - destruct (Ascii.eqb a c); [split; [discriminate|intros [_ H]; discriminate]|]. destruct (split_first c s) as [y [z|]].
    + split; [discriminate|]. intros [_ H]. destruct (proj2 (IH s) (conj eq_refl H)). destruct (IH s) as [_ I]. discriminate (I (conj eq_refl H)).
    + destruct (IH y) as [I _]. destruct (I eq_refl) as [-> H]. split; [intros [= <-]; auto|intros [<- _]; reflexivity].
Qed.
Lemma split_first_Some : forall c s x y, split_first c s = (x, Some y) <-> s = x ++ String c y /\ has_char c x = false.
Proof.
  intros c. induction s as [|a s IH]; intros x y; cbn.
  - split; [discriminate|intros [H _]; destruct x; discriminate].
  - destruct (Ascii.eqb_spec a c) as [->|N].
    + split; [intros [= <- <-]; auto|]. intros [E H]. destruct x as [|b x]; [injection E as ->; reflexivity|]. injection E as <- _. cbn in H. rewrite Ascii.eqb_refl in H. discriminate.
    + destruct (split_first c s) as [u [v|]] eqn:ES.
      * destruct (proj1 (IH u v) eq_refl) as [-> H]. split.
        -- intros [= <- <-]. split; [reflexivity|]. cbn. destruct (Ascii.eqb_spec a c); [congruence|exact H].
        -- intros [E H2]. destruct x as [|b x]; [injection E as -> _; congruence|]. injection E as <- E. cbn in H2. destruct (Ascii.eqb_spec a c); [discriminate|].
           assert (X : (u, Some v) = (x, Some y)) by (apply IH; split; [exact E|exact H2]). injection X as -> ->. reflexivity.
      * split; [discriminate|]. intros [E H2]. destruct x as [|b x]; [injection E as -> _; congruence|]. injection E as <- E. cbn in H2. destruct (Ascii.eqb_spec a c); [discriminate|].
        assert (X : (u, None) = (x, Some y)) by (apply IH; split; [exact E|exact H2]). discriminate.
Qed.

(** ** White space *)
Definition solid (s : string) : Prop := forall a, has_char a s = true -> js_space a = false.
Lemma solid_cons : forall a s, solid (String a s) <-> js_space a = false /\ solid s.
Proof.
  intros a s. unfold solid. split.
  - intros H. split; [apply H; cbn; rewrite Ascii.eqb_refl; reflexivity|]. intros b Hb. apply H. cbn. destruct (Ascii.eqb a b); auto.
  - intros [H1 H2] b. cbn. destruct (Ascii.eqb_spec a b) as [->|]; auto.
Qed.
Lemma solid_app : forall a b, solid (a ++ b) <-> solid a /\ solid b.
Proof. induction a as [|x a IH]; intros b; cbn [append]; [split; [intros H; split; [intros y Hy; discriminate|exact H]|tauto]|]. rewrite !solid_cons, IH. tauto. Qed.
Lemma blank_cons : forall a s, blank (String a s) <-> js_space a = true /\ blank s.
Proof. exact Proof_Install.white_cons. Qed.
Lemma trim_end_blank : forall w, blank w -> trim_end w = "".
Proof. induction w as [|a w IH]; intros H; [reflexivity|]. apply blank_cons in H. destruct H as [Ha H]. cbn [trim_end]. rewrite IH, Ha by exact H. reflexivity. Qed.
Lemma trim_end_solid : forall t w, blank w -> solid t -> trim_end (t ++ w) = t.
Proof.
  induction t as [|a t IH]; intros w HW HT; [apply trim_end_blank, HW|]. apply solid_cons in HT. destruct HT as [Ha HT]. cbn [append trim_end]. rewrite IH by assumption. rewrite Ha. destruct t; reflexivity.
Qed.
Lemma trim_start_solid : forall t w, solid t -> t <> "" -> trim_start (t ++ w) = t ++ w.
Proof. intros [|a t] w H N; [congruence|]. apply solid_cons in H. cbn. rewrite (proj1 H). reflexivity. Qed.
Lemma trim_start_blank : forall w s, blank w -> trim_start (w ++ s) = trim_start s.
Proof. induction w as [|a w IH]; intros s H; [reflexivity|]. apply blank_cons in H. cbn. rewrite (proj1 H). apply IH, H. Qed.
Lemma trim_solid : forall w1 t w2, blank w1 -> blank w2 -> solid t -> t <> "" -> js_trim (w1 ++ t ++ w2) = t.
Proof. intros w1 t w2 H1 H2 HT N. unfold js_trim. rewrite trim_start_blank by exact H1. rewrite trim_start_solid by assumption. apply trim_end_solid; assumption. Qed.

(** ** Numbers and words *)
Lemma int_of_rendering : forall z, Model_Expand.int_of (rendering z) = z.
Proof.
  intros z. pose proof (rendering_reads z) as H. unfold reads_as in H. unfold Model_Expand.int_of. destruct (DecimalString.NilZero.int_of_string (rendering z)); [|discriminate]. cbn in H. congruence.
Qed.
Lemma rendering_inj : forall a b, rendering a = rendering b -> a = b.
Proof. intros a b H. rewrite <- (int_of_rendering a), <- (int_of_rendering b), H. reflexivity. Qed.
Lemma digits_no : forall c s, digits s -> ~ digit c -> has_char c s = false.
Proof. intros c s H N. induction H as [|a s HD H IH]; [reflexivity|]. cbn. destruct (Ascii.eqb_spec a c) as [->|]; [contradiction|exact IH]. Qed.
Lemma numeral_digits : forall n, digits (numeral n) /\ numeral n <> "".
Proof.
  intros n. unfold numeral. pose proof (rendering_shape (Z.of_N n)) as S. destruct S as [E|(sign & a & rest & E & HS & HD & HN & HR)].
  - rewrite E. split; [repeat constructor; unfold digit; cbn; tauto|discriminate].
  - destruct HS as [<-|[<-|[]]].
    + rewrite E. split; [constructor; assumption|discriminate].
    + exfalso. pose proof (int_of_rendering (Z.of_N n)) as I. rewrite E in I. unfold Model_Expand.int_of in I. change ("-" ++ String a rest) with (String "-" (String a rest)) in I.
      destruct (digits_uint (String a rest)) as (u & E1 & E2); [constructor; assumption|].
      assert (X : exists z, (z <= 0)%Z /\ z = Z.of_N n).
      { unfold DecimalString.NilZero.int_of_string in I. cbn [Ascii.eqb Bool.eqb] in I. change (DecimalString.NilZero.uint_of_string (String a rest)) with (DecimalString.NilEmpty.uint_of_string (String a rest)) in I. rewrite E1 in I. cbn in I.
        eexists. split; [|exact I]. unfold Z.of_uint. lia. }
      destruct X as (z & L & ->). assert (Z.of_N n = 0%Z) as Z0 by lia. rewrite Z0 in E. discriminate.
Qed.
Lemma numeral_no_dash : forall n, has_char "-" (numeral n) = false.
Proof. intros n. apply digits_no; [apply numeral_digits|]. unfold digit. cbn. intuition discriminate. Qed.
Lemma numeric_spec : forall s, numeric s = true <-> exists n, s = numeral n.
Proof.
  intros s. unfold numeric. rewrite andb_true_iff, canonical_iff_rendering. split.
  - intros [(z & ->) H]. destruct (Z.leb_spec 0 z) as [L|L]; [exists (Z.to_N z); unfold numeral; rewrite Z2N.id by exact L; reflexivity|].
    exfalso. assert (X : rendering z = "-" ++ numeral (Z.to_N (- z))).
    { destruct z as [|p|p]; [lia|lia|]. reflexivity. }
    rewrite X in H. discriminate.
  - intros (n & ->). split; [exists (Z.of_N n); reflexivity|]. rewrite numeral_no_dash. reflexivity.
Qed.
Lemma int_of_numeral : forall n, Z.to_N (Model_Expand.int_of (numeral n)) = n.
Proof. intros n. unfold numeral. rewrite int_of_rendering. apply N2Z.id. Qed.
Lemma numeral_inj : forall m n, numeral m = numeral n -> m = n.
Proof. intros m n H. rewrite <- (int_of_numeral m), <- (int_of_numeral n), H. reflexivity. Qed.
Lemma number_spec : forall s n, number s = Some n <-> s = numeral n /\ (n <= 9007199254740991)%N.
Proof.
  intros s n. unfold number. destruct (numeric s) eqn:E.
  - apply numeric_spec in E. destruct E as (m & ->). rewrite int_of_numeral. destruct (N.leb_spec m max_safe) as [L|L]; unfold max_safe in L.
    + split; [intros [= <-]; auto|]. intros [H _]. apply numeral_inj in H. congruence.
    + split; [discriminate|]. intros [H L2]. apply numeral_inj in H. subst. lia.
  - split; [discriminate|]. intros [-> _]. rewrite (proj2 (numeric_spec _)) in E by (exists n; reflexivity). discriminate.
Qed.
Lemma is_digit_iff : forall a, is_digit a = true <-> digit a.
Proof.
  intros a. unfold digit. split.
  - destruct a as [[] [] [] [] [] [] [] []]; cbn; intros H; try discriminate; tauto.
  - cbn [In]. intros H. repeat destruct H as [<-|H]; try reflexivity. destruct H.
Qed.
Lemma all_chars_spec : forall f s, all_chars f s = true <-> forall a, has_char a s = true -> f a = true.
Proof.
  intros f. induction s as [|b s IH]; cbn [all_chars has_char]; [split; [intros _ a H; discriminate|reflexivity]|]. rewrite andb_true_iff, IH. split.
  - intros [H1 H2] a. destruct (Ascii.eqb_spec b a) as [->|]; auto.
  - intros H. split; [apply H; rewrite Ascii.eqb_refl; reflexivity|]. intros a Ha. apply H. destruct (Ascii.eqb b a); auto.
Qed.
Lemma id_char_spec : forall a, id_char a = true <-> word_char a.
Proof. intros a. unfold word_char. destruct a as [[] [] [] [] [] [] [] []]; cbn; split; intros H; solve [reflexivity|discriminate]. Qed.
Lemma word_spec : forall s, build_id s = true <-> word s.
Proof.
  intros s. unfold build_id, word. rewrite andb_true_iff, negb_true_iff, String.eqb_neq, all_chars_spec. split; intros [H1 H2]; (split; [exact H1|]); intros a Ha; apply id_char_spec, H2, Ha.
Qed.
Lemma all_digit_spec : forall s, all_chars is_digit s = true <-> digits s.
Proof.
  induction s as [|a s IH]; cbn; [split; [constructor|reflexivity]|]. rewrite andb_true_iff, IH, is_digit_iff. split; [intros [H1 H2]; constructor; assumption|intros H; inversion H; auto].
Qed.
Lemma pre_id_spec : forall s, pre_id s = true <-> pre_part s.
Proof.
  intros s. unfold pre_id, pre_part. rewrite orb_true_iff, numeric_spec. change (negb (String.eqb s "") && all_chars id_char s) with (build_id s). rewrite andb_true_iff, word_spec, negb_true_iff, <- not_true_iff_false, all_digit_spec. reflexivity.
Qed.
Lemma forallb_Forall : forall A (f : A -> bool) (P : A -> Prop) l, (forall x, f x = true <-> P x) -> (forallb f l = true <-> Forall P l).
Proof. intros A f P l H. rewrite forallb_forall, Forall_forall. split; intros G x Hx; apply H, G, Hx. Qed.
