From Verif Require Import Lib LibFacts Str.
Local Open Scope string_scope.

Lemma append_assoc : forall a b c, (a ++ b) ++ c = a ++ (b ++ c).
Proof. induction a as [|x a IH]; intros b c; cbn; [reflexivity|]. rewrite IH. reflexivity. Qed.
Lemma append_nil_r : forall a, a ++ "" = a.
Proof. induction a as [|x a IH]; cbn; [reflexivity|]. rewrite IH. reflexivity. Qed.

Lemma has_char_app : forall c a b, has_char c (a ++ b) = has_char c a || has_char c b.
Proof. intros c a b; induction a as [|x a IH]; cbn; [reflexivity|]. destruct (Ascii.eqb x c); [reflexivity|exact IH]. Qed.

Lemma rsplit1_None : forall c s, rsplit1 c s = None <-> has_char c s = false.
Proof.
  intros c s; induction s as [|a s IH]; cbn; [tauto|]. destruct (rsplit1 c s) as [[l r]|].
  - destruct (Ascii.eqb a c); [split; discriminate|]. rewrite <- IH. split; discriminate.
  - destruct (Ascii.eqb a c); [split; discriminate|]. rewrite <- IH. tauto.
Qed.

Lemma rsplit1_Some : forall c s l r, rsplit1 c s = Some (l, r) <-> s = l ++ String c r /\ has_char c r = false.
Proof.
  intros c s; induction s as [|a s IH]; intros l r; cbn.
  - split; [discriminate|]. intros [E _]. destruct l; discriminate.
  - destruct (rsplit1 c s) as [[l' r']|] eqn:E.
    + split.
      * intros H. inversion H; subst. destruct (proj1 (IH l' r) eq_refl) as [-> H2]. split; [reflexivity|exact H2].
      * intros [H1 H2]. destruct l as [|b l]; cbn in H1; inversion H1; subst.
        -- destruct (proj1 (IH l' r') eq_refl) as [H3 _]. rewrite H3, has_char_app in H2. cbn in H2.
           rewrite Ascii.eqb_refl, orb_true_r in H2. discriminate.
        -- f_equal. assert (H : Some (l', r') = Some (l, r)) by (apply IH; split; [reflexivity|exact H2]). congruence.
    + assert (Hn := proj1 (rsplit1_None c s) E). destruct (Ascii.eqb_spec a c) as [->|Hne].
      * split.
        -- intros H. inversion H; subst. split; [reflexivity|exact Hn].
        -- intros [H1 H2]. destruct l as [|b l]; cbn in H1; inversion H1; subst; [reflexivity|].
           rewrite has_char_app in Hn. cbn in Hn. rewrite Ascii.eqb_refl, orb_true_r in Hn. discriminate.
      * split; [discriminate|]. intros [H1 H2]. destruct l as [|b l]; cbn in H1; inversion H1; subst; [congruence|].
        rewrite has_char_app in Hn. cbn in Hn. rewrite Ascii.eqb_refl, orb_true_r in Hn. discriminate.
Qed.

Lemma append_inj_l : forall a b c, a ++ b = a ++ c -> b = c.
Proof. induction a as [|x a IH]; intros b c H; [exact H|]. cbn in H. inversion H. apply IH. assumption. Qed.
