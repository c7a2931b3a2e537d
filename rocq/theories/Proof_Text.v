(** Proofs about brackets, canonical integers and stringification. *)
From Coq Require Import Decimal DecimalString DecimalFacts DecimalZ DecimalPos.
From Verif Require Import LibFacts StrFacts Model_Value Model_Text Spec_Text Proof_Merge3.
Local Open Scope string_scope.

(** ** Brackets *)
Lemma is_open_spec : forall a, is_open a = true <-> In a ["{"; "["; "("]%char.
Proof.
  intros a. unfold is_open. rewrite existsb_exists. split.
  - intros (b & Hb & E). apply Ascii.eqb_eq in E. subst. exact Hb.
  - intros H. exists a. split; [exact H|apply Ascii.eqb_refl].
Qed.
Lemma opener_spec : forall a o, opener a = Some o <-> pair_of_brackets o a.
Proof.
  intros a o. unfold opener, pair_of_brackets. cbn [In]. split.
  - destruct (Ascii.eqb_spec a "}"); [intros H; inversion H; subst; tauto|]. destruct (Ascii.eqb_spec a "]"); [intros H; inversion H; subst; tauto|].
    destruct (Ascii.eqb_spec a ")"); [intros H; inversion H; subst; tauto|discriminate].
  - intros [E|[E|[E|[]]]]; inversion E; reflexivity.
Qed.
Lemma pair_open : forall o c, pair_of_brackets o c -> is_open o = true /\ is_open c = false /\ opener c = Some o.
Proof. intros o c H. split; [|split; [|apply opener_spec; exact H]]; unfold pair_of_brackets in H; cbn [In] in H; destruct H as [E|[E|[E|[]]]]; inversion E; reflexivity. Qed.
Lemma not_bracket : forall a, ~ bracket a <-> is_open a = false /\ opener a = None.
Proof.
  intros a. unfold bracket. cbn [In]. split.
  - intros H. split.
    + destruct (is_open a) eqn:E; [|reflexivity]. apply is_open_spec in E. cbn [In] in E. tauto.
    + destruct (opener a) eqn:E; [|reflexivity]. apply opener_spec in E. unfold pair_of_brackets in E. cbn [In] in E. exfalso. apply H.
      destruct E as [E|[E|[E|[]]]]; inversion E; tauto.
  - intros [H1 H2] [<-|[<-|[<-|[<-|[<-|[<-|[]]]]]]]; discriminate.
Qed.

Lemma scan_other : forall st start i a s, ~ bracket a -> scan st start i (String a s) = scan st start (i + 1) s.
Proof. intros st start i a s H. apply not_bracket in H. destruct H as [H1 H2]. cbn [scan]. rewrite H1, H2. reflexivity. Qed.
Lemma scan_open : forall st start i a s, is_open a = true -> scan st start i (String a s) = scan (a :: st) (if Z.eqb start (-1) then i else start) (i + 1) s.
Proof. intros. cbn [scan]. rewrite H. reflexivity. Qed.
Lemma len_app : forall a b, String.length (a ++ b) = (String.length a + String.length b)%nat.
Proof. induction a; intros; cbn; [reflexivity|]. rewrite IHa. reflexivity. Qed.

Lemma scan_balanced : forall b, balanced b -> forall st start i s, (0 <= start)%Z -> st <> [] ->
  scan st start i (b ++ s) = scan st start (i + Z.of_nat (String.length b)) s.
Proof.
  intros b H. induction H as [|a b HN H IH|o inner c b HP H1 IH1 H2 IH2]; intros st start i s HS HT.
  - cbn. rewrite Z.add_0_r. reflexivity.
  - cbn [append]. rewrite scan_other by exact HN. rewrite IH by assumption. f_equal. cbn [String.length]. lia.
  - destruct (pair_open _ _ HP) as (P1 & P2 & P3). cbn [append]. rewrite scan_open by exact P1.
    assert (E : Z.eqb start (-1) = false) by (apply Z.eqb_neq; lia). rewrite E. rewrite append_assoc. rewrite IH1; [|exact HS|discriminate].
    cbn [append scan]. rewrite P2, P3, Ascii.eqb_refl. cbn [negb]. destruct st as [|t st]; [contradiction|]. rewrite IH2 by assumption. f_equal.
    cbn [String.length]. rewrite len_app. cbn [String.length]. lia.
Qed.

(** [closes st p]: the text [p] closes the open brackets [st], innermost first. *)
Inductive closes : list ascii -> string -> Prop :=
| closes_nil : closes [] ""
| closes_cons o st b c p : balanced b -> pair_of_brackets o c -> closes st p -> closes (o :: st) (b ++ String c p).

Lemma closes_other : forall o st a p, ~ bracket a -> closes (o :: st) p -> closes (o :: st) (String a p).
Proof. intros o st a p H HC. inversion HC; subst. change (String a (b ++ String c p0)) with (String a b ++ String c p0). constructor; [constructor|..]; assumption. Qed.
Lemma closes_open : forall o st a p, closes (a :: o :: st) p -> closes (o :: st) (String a p).
Proof.
  intros o st a p HC. inversion HC as [|? ? b c q HB HP HQ]; subst. inversion HQ as [|? ? b' c' q' HB' HP' HQ']; subst.
  assert (E : String a (b ++ String c (b' ++ String c' q')) = String a (b ++ String c b') ++ String c' q').
  { cbn. f_equal. rewrite append_assoc. reflexivity. }
  rewrite E. constructor; [constructor|..]; assumption.
Qed.

Lemma scan_sound : forall s st start i x y, (0 <= start)%Z -> st <> [] -> scan st start i s = (x, y) -> (x, y) <> (-1, -1)%Z ->
  x = start /\ exists p post, s = p ++ post /\ closes st p /\ y = (i + Z.of_nat (String.length p))%Z.
Proof.
  induction s as [|a s IH]; intros st start i x y HS HT H NE; [cbn in H; congruence|]. cbn [scan] in H. destruct st as [|top st]; [contradiction|].
  destruct (is_open a) eqn:EO.
  - assert (E : Z.eqb start (-1) = false) by (apply Z.eqb_neq; lia). rewrite E in H. apply IH in H; [|exact HS|discriminate|exact NE].
    destruct H as (-> & p & post & -> & HC & ->). split; [reflexivity|]. exists (String a p), post. split; [reflexivity|]. split; [apply closes_open; exact HC|].
    cbn [String.length]. lia.
  - destruct (opener a) as [o|] eqn:EC.
    + destruct (Ascii.eqb_spec top o) as [->|n]; cbn [negb] in H; [|congruence]. apply opener_spec in EC. destruct st as [|t st].
      * inversion H; subst. split; [reflexivity|]. exists (String a ""), s. split; [reflexivity|].
        split; [change (String a "") with ("" ++ String a ""); constructor; [constructor|exact EC|constructor]|]. cbn. reflexivity.
      * apply IH in H; [|exact HS|discriminate|exact NE]. destruct H as (-> & p & post & -> & HC & ->). split; [reflexivity|].
        exists (String a p), post. split; [reflexivity|]. split; [|cbn [String.length]; lia].
        change (String a p) with ("" ++ String a p). constructor; [constructor|exact EC|exact HC].
    + apply IH in H; [|exact HS|discriminate|exact NE]. destruct H as (-> & p & post & -> & HC & ->). split; [reflexivity|].
      exists (String a p), post. split; [reflexivity|]. split; [|cbn [String.length]; lia]. apply closes_other; [|exact HC]. apply not_bracket. auto.
Qed.

Lemma find_sound : forall s i x y, (0 <= i)%Z -> scan [] (-1)%Z i s = (x, y) -> (x, y) <> (-1, -1)%Z ->
  exists b o inner c after, s = b ++ String o (inner ++ String c after) /\ no_brackets b /\ pair_of_brackets o c /\ balanced inner /\
    x = (i + Z.of_nat (String.length b))%Z /\ y = (x + Z.of_nat (String.length inner) + 2)%Z.
Proof.
  induction s as [|a s IH]; intros i x y HI H NE; [cbn in H; congruence|]. cbn [scan] in H. destruct (is_open a) eqn:EO.
  - change (Z.eqb (-1) (-1)) with true in H. cbn match in H. apply scan_sound in H; [|exact HI|discriminate|exact NE].
    destruct H as (-> & p & post & -> & HC & ->). inversion HC as [|? ? b c q HB HP HQ]; subst. inversion HQ; subst.
    exists "", a, b, c, post. split; [cbn; rewrite append_assoc; reflexivity|]. split; [constructor|]. split; [exact HP|]. split; [exact HB|].
    split; [cbn; lia|]. rewrite len_app. cbn [String.length]. lia.
  - destruct (opener a) as [o|] eqn:EC; [congruence|]. apply IH in H; [|lia|exact NE].
    destruct H as (b & o & inner & c & after & -> & HN & HP & HB & -> & ->). exists (String a b), o, inner, c, after.
    split; [reflexivity|]. split; [constructor; [apply not_bracket; auto|exact HN]|]. split; [exact HP|]. split; [exact HB|]. cbn [String.length]. split; lia.
Qed.

Lemma scan_no_brackets : forall b, no_brackets b -> forall st start i s, scan st start i (b ++ s) = scan st start (i + Z.of_nat (String.length b)) s.
Proof.
  intros b H. induction H as [|a b HN H IH]; intros st start i s; [cbn; rewrite Z.add_0_r; reflexivity|].
  cbn [append]. rewrite scan_other by exact HN. rewrite IH. f_equal. cbn [String.length]. lia.
Qed.

Theorem bracket_group : forall s i j, (find_enclosing_bracket_group s = (i, j) /\ (i, j) <> (-1, -1)%Z) <-> first_group s i j.
Proof.
  intros s i j. unfold find_enclosing_bracket_group. split.
  - intros [H NE]. apply find_sound in H; [|lia|exact NE]. destruct H as (b & o & inner & c & after & -> & HN & HP & HB & -> & ->).
    exists b, o, inner, c, after. repeat split; auto. 
  - intros (b & o & inner & c & after & -> & HN & HP & HB & -> & ->). destruct (pair_open _ _ HP) as (P1 & P2 & P3). split.
    + rewrite scan_no_brackets by exact HN. rewrite scan_open by exact P1. change (Z.eqb (-1) (-1)) with true. cbn match.
      rewrite scan_balanced; [|exact HB|lia|discriminate]. cbn [scan]. rewrite P2, P3, Ascii.eqb_refl. cbn [negb]. f_equal; lia.
    + intros E. inversion E. lia.
Qed.
Theorem bracket_none : forall s, find_enclosing_bracket_group s = (-1, -1)%Z <-> (forall i j, ~ first_group s i j).
Proof.
  intros s. split.
  - intros H i j G. apply bracket_group in G. destruct G as [E NE]. congruence.
  - intros H. destruct (find_enclosing_bracket_group s) as [i j] eqn:E. destruct (Z.eq_dec i (-1)) as [->|n1]; [destruct (Z.eq_dec j (-1)) as [->|n2]; [reflexivity|]|];
      exfalso; eapply H; apply bracket_group; (split; [exact E|congruence]).
Qed.

(** ** Canonical integers *)
Lemma is_digit_spec : forall a, is_digit a = true <-> digit a.
Proof.
  intros a. unfold digit. split.
  - destruct a as [[] [] [] [] [] [] [] []]; cbn; intros H; try discriminate; tauto.
  - cbn [In]. intros H. repeat (destruct H as [<-|H]; [reflexivity|]). destruct H.
Qed.
Lemma all_digits_spec : forall s, all_digits s = true <-> digits s.
Proof.
  induction s as [|a s IH]; cbn [all_digits]; split; intros H; try constructor; try reflexivity.
  - apply andb_prop in H. apply is_digit_spec. tauto.
  - apply andb_prop in H. apply IH. tauto.
  - inversion H; subst. apply andb_true_intro. split; [apply is_digit_spec|apply IH]; assumption.
Qed.
Lemma nonzero_digit : forall b, (N.leb 49 (N_of_ascii b) && N.leb (N_of_ascii b) 57)%bool = true <-> digit b /\ b <> "0"%char.
Proof.
  intros b. split.
  - destruct b as [[] [] [] [] [] [] [] []]; cbn; intros H; try discriminate; (split; [unfold digit; cbn [In]; tauto|discriminate]).
  - unfold digit. cbn [In]. intros [H N]. destruct H as [<-|H]; [congruence|]. repeat (destruct H as [<-|H]; [reflexivity|]). destruct H.
Qed.
Theorem canonical_iff_shape : forall s, is_str_canonical_int s = true <-> canonical_shape s.
Proof.
  intros s. unfold is_str_canonical_int, canonical_shape. destruct s as [|a s].
  - split; [discriminate|]. intros [H|(sign & b & rest & H & _)]; [discriminate|]. destruct sign; discriminate.
  - destruct (String.eqb_spec (String a s) "0") as [->|n0]; [split; auto|]. cbv zeta.
    set (t := if Ascii.eqb a "-" then s else String a s). split.
    + intros H. right. exists (if Ascii.eqb a "-" then "-" else ""). destruct t as [|b rest] eqn:ET; [discriminate|].
      destruct (_ && _)%bool eqn:EB; [|discriminate]. apply nonzero_digit in EB. unfold isdigit in H. apply andb_prop in H. destruct H as [_ H].
      apply all_digits_spec in H. inversion H; subst. exists b, rest. subst t. destruct (Ascii.eqb_spec a "-") as [->|n].
      * rewrite ET. repeat split; try tauto. cbn; tauto.
      * inversion ET; subst. repeat split; try tauto. cbn; tauto.
    + intros [H|(sign & b & rest & E & HS & HD & HN & HR)]; [contradiction|].
      assert (ET : t = String b rest).
      { subst t. destruct HS as [<-|[<-|[]]]; cbn in E; inversion E; subst.
        - destruct (Ascii.eqb_spec b "-") as [->|n]; [|reflexivity]. exfalso. apply is_digit_spec in HD. discriminate.
        - reflexivity. }
      rewrite ET. assert (EB := proj2 (nonzero_digit b) (conj HD HN)). rewrite EB. unfold isdigit. cbn [all_digits].
      apply andb_true_intro. split; [reflexivity|]. apply andb_true_intro. split; [apply is_digit_spec; exact HD|apply all_digits_spec; exact HR].
Qed.

(** Numerals of the standard library. *)
Lemma digits_uint : forall s, digits s -> exists u, NilEmpty.uint_of_string s = Some u /\ NilEmpty.string_of_uint u = s.
Proof.
  intros s H. induction H as [|a s HD H (u & E1 & E2)]; [exists Nil; split; reflexivity|].
  unfold digit in HD. cbn [In] in HD.
  repeat (destruct HD as [<-|HD]; [eexists; split; [cbn; rewrite E1; reflexivity|cbn; rewrite E2; reflexivity]|]). destruct HD.
Qed.
Lemma uint_digits : forall u, digits (NilEmpty.string_of_uint u).
Proof. induction u; cbn; constructor; try assumption; unfold digit; cbn [In]; tauto. Qed.
Lemma nonzero_shape : forall u, u <> Nil -> (forall u', u <> D0 u') ->
  exists a rest, NilZero.string_of_uint u = String a rest /\ digit a /\ a <> "0"%char /\ digits rest.
Proof.
  intros u H1 H2. destruct u; try congruence; try (exfalso; eapply H2; reflexivity);
    (eexists; eexists; split; [reflexivity|]; split; [unfold digit; cbn [In]; tauto|]; split; [discriminate|apply uint_digits]).
Qed.
Lemma to_int_norm : forall z, Z.to_int z = norm (Z.to_int z).
Proof. intros z. rewrite <- DecimalZ.to_of, DecimalZ.of_to. reflexivity. Qed.
Lemma rendering_shape : forall z, canonical_shape (rendering z).
Proof.
  intros z. unfold rendering. rewrite to_int_norm. destruct (Z.to_int z) as [u|u]; cbn [norm].
  - unfold unorm. destruct (nzhead u) eqn:E; [left; reflexivity|exfalso; eapply nzhead_nonzero; exact E|..];
      (right; exists ""; rewrite <- E; destruct (nonzero_shape (nzhead u)) as (a & rest & E1 & E2 & E3 & E4); [congruence|intros u'; apply nzhead_nonzero|];
       exists a, rest; split; [exact E1|]; split; [cbn; tauto|auto]).
  - destruct (nzhead u) eqn:E; [left; reflexivity|exfalso; eapply nzhead_nonzero; exact E|..];
      (right; exists "-"; rewrite <- E; destruct (nonzero_shape (nzhead u)) as (a & rest & E1 & E2 & E3 & E4); [congruence|intros u'; apply nzhead_nonzero|];
       exists a, rest; split; [cbn; rewrite E1; reflexivity|]; split; [cbn; tauto|auto]).
Qed.
Lemma shape_rendering : forall s, canonical_shape s -> exists z, s = rendering z.
Proof.
  intros s [->|(sign & a & rest & -> & HS & HD & HN & HR)]; [exists 0%Z; reflexivity|].
  destruct (digits_uint (String a rest)) as (u & E1 & E2); [constructor; assumption|].
  assert (NZ : nzhead u = u /\ NilZero.string_of_uint u = String a rest).
  { destruct u; cbn in E2; inversion E2; subst; try (split; reflexivity). congruence. }
  destruct NZ as [NZ NS]. assert (NN : u <> Nil) by (intros ->; discriminate).
  destruct HS as [<-|[<-|[]]].
  - exists (Z.of_int (Pos u)). unfold rendering. rewrite DecimalZ.to_of. cbn [norm]. unfold unorm. rewrite NZ. destruct u; try congruence; symmetry; exact NS.
  - exists (Z.of_int (Neg u)). unfold rendering. rewrite DecimalZ.to_of. cbn [norm]. rewrite NZ. destruct u; try congruence; cbn [append NilZero.string_of_int]; rewrite NS; reflexivity.
Qed.
Theorem canonical_iff_rendering : forall s, is_str_canonical_int s = true <-> exists z, s = rendering z.
Proof.
  intros s. rewrite canonical_iff_shape. split; [apply shape_rendering|]. intros (z & ->). apply rendering_shape.
Qed.
Lemma to_int_nonnil : forall z, Z.to_int z <> Pos Nil /\ Z.to_int z <> Neg Nil.
Proof.
  intros z. rewrite to_int_norm. destruct (Z.to_int z) as [u|u]; cbn [norm].
  - unfold unorm. destruct (nzhead u); split; discriminate.
  - destruct (nzhead u); split; discriminate.
Qed.
Theorem rendering_reads : forall z, reads_as (rendering z) z.
Proof.
  intros z. unfold reads_as, rendering. destruct (to_int_nonnil z) as [H1 H2]. rewrite NilZero.isi by assumption. cbn. rewrite DecimalZ.of_to. reflexivity.
Qed.
(** Conversion and rendering are mutually inverse on canonical strings. *)
Theorem canonical_round_trip : forall s, is_str_canonical_int s = true <-> exists z, reads_as s z /\ rendering z = s.
Proof.
  intros s. rewrite canonical_iff_rendering. split.
  - intros (z & ->). exists z. split; [apply rendering_reads|reflexivity].
  - intros (z & _ & E). exists z. auto.
Qed.

(** ** Stringification *)
Theorem turn_int_stringified : forall v, stringified v (turn_int v).
Proof.
  apply value_nested_ind.
  - intros s. constructor.
  - intros z. constructor; [apply rendering_reads|apply rendering_shape].
  - intros l F. cbn [turn_int]. constructor. induction F as [|v l Hv F IH]; constructor; assumption.
  - intros d F. cbn [turn_int]. constructor. induction F as [|[k v] d Hv F IH]; constructor; [split; [reflexivity|exact Hv]|exact IH].
  - intros c. cbn [turn_int]. destruct (String.eqb_spec c "true") as [->|n1]; [constructor|]. destruct (String.eqb_spec c "false") as [->|n2]; [constructor|]. constructor; assumption.
Qed.
Theorem turn_int_free : forall v, int_free (turn_int v).
Proof.
  apply value_nested_ind.
  - intros s. constructor.
  - intros z. constructor.
  - intros l F. cbn [turn_int]. constructor. induction F; constructor; assumption.
  - intros d F. cbn [turn_int]. constructor. induction F; constructor; assumption.
  - intros c. cbn [turn_int]. destruct (String.eqb_spec c "true") as [->|n1]; [constructor|]. destruct (String.eqb_spec c "false") as [->|n2]; [constructor|]. constructor; assumption.
Qed.
Theorem turn_int_id : forall v, int_free v -> turn_int v = v.
Proof.
  apply (value_nested_ind (fun v => int_free v -> turn_int v = v)).
  - reflexivity.
  - intros z H. inversion H.
  - intros l F H. inversion H as [|? HF| |]; subst. cbn [turn_int]. f_equal. clear H. induction F as [|v l Hv F IH]; [reflexivity|]. inversion HF; subst. cbn. rewrite Hv, IH; auto.
  - intros d F H. inversion H as [| |? HF|]; subst. cbn [turn_int]. f_equal. clear H. induction F as [|[k v] d Hv F IH]; [reflexivity|]. inversion HF; subst. cbn in *. rewrite Hv, IH; auto.
  - intros c H. inversion H; subst. cbn. apply String.eqb_neq in H1, H2. rewrite H1, H2. reflexivity.
Qed.
