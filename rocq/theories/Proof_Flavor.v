(** The words of command lines (Model_Flavor against Spec_Flavor). *)
From Coq Require Import Lia.
From Verif Require Proof_Expand.
From Verif Require Import Lib Str StrFacts LibFacts Model_Value Model_Path Model_Flavor Spec_Flavor.
Local Open Scope string_scope.

Lemma blank_iff : forall c, white c = true <-> blank c.
Proof.
  intros c. unfold white, blank. rewrite !orb_true_iff, !Ascii.eqb_eq. unfold cr, lf. cbn [In]. intuition auto.
Qed.
Lemma not_blank : forall c, ~ blank c -> white c = false.
Proof. intros c H. destruct (white c) eqn:E; [|reflexivity]. apply blank_iff in E. contradiction. Qed.
Lemma eqb_no : forall a b : ascii, a <> b -> Ascii.eqb a b = false.
Proof. intros a b H. apply Ascii.eqb_neq. exact H. Qed.
Lemma snoc_assoc : forall a c b, (a ++ String c "") ++ b = a ++ String c b.
Proof. intros. rewrite append_assoc. reflexivity. Qed.
(** A word has begun. *)
Definition good (quoted : bool) (token : string) : Prop := (quoted || negb (String.eqb token "")) = true.
Lemma good_snoc : forall q t c, good q (t ++ String c "").
Proof. intros q t c. unfold good. destruct t; cbn; apply orb_true_r. Qed.
Lemma good_app : forall q t v, good q t -> good q (t ++ v).
Proof. intros q t v. unfold good. destruct q; [reflexivity|]. cbn. destruct t; [discriminate|]. reflexivity. Qed.

(** ** from the meaning to the words *)
Lemma single_run : forall x r q t, has_char "'" x = false -> read_tokens (x ++ String "'" r) (Quote false) q t = read_tokens r Word true (t ++ x).
Proof.
  induction x as [|c x IH]; intros r q t H.
  - cbn [append]. cbn [read_tokens]. replace (Ascii.eqb "'" quote1) with true by reflexivity. rewrite append_nil_r. reflexivity.
  - cbn [has_char] in H. apply orb_false_iff in H. destruct H as [A H]. cbn [append read_tokens]. rewrite Ascii.eqb_sym in A. unfold quote1. rewrite Ascii.eqb_sym in A.
    assert (Ascii.eqb c "'" = false) as -> by (rewrite Ascii.eqb_sym in A |- *; first [exact A | rewrite Ascii.eqb_sym; exact A]). cbn [andb]. rewrite IH by exact H. rewrite snoc_assoc. reflexivity.
Qed.
Lemma double_run : forall x y, inside x y -> forall r q t, read_tokens (x ++ String quote2 r) (Quote true) q t = read_tokens r Word true (t ++ y).
Proof.
  intros x y I. induction I as [|c x y A B I IH|x y I IH|x y I IH|c x y A B I IH]; intros r q t.
  - cbn [append read_tokens]. rewrite Ascii.eqb_refl, append_nil_r. reflexivity.
  - cbn [append read_tokens]. rewrite (eqb_no c quote2 B), (eqb_no c backslash A). cbn [andb]. rewrite IH, snoc_assoc. reflexivity.
  - cbn [append read_tokens]. replace (Ascii.eqb "\" quote2) with false by reflexivity. replace (Ascii.eqb "\" backslash) with true by reflexivity. cbn [andb].
    replace (Ascii.eqb "034" quote2) with true by reflexivity. rewrite andb_false_r. rewrite IH, snoc_assoc. reflexivity.
  - cbn [append read_tokens]. replace (Ascii.eqb "\" quote2) with false by reflexivity. replace (Ascii.eqb "\" backslash) with true by reflexivity. cbn [andb negb]. rewrite IH, snoc_assoc. reflexivity.
  - cbn [append read_tokens]. replace (Ascii.eqb "\" quote2) with false by reflexivity. replace (Ascii.eqb "\" backslash) with true by reflexivity. cbn [andb].
    rewrite (eqb_no c quote2 B), (eqb_no c backslash A). cbn [andb negb]. rewrite IH, !snoc_assoc. reflexivity.
Qed.
Lemma part_run : forall p v, part p v -> forall r q t, exists q', read_tokens (p ++ r) Word q t = read_tokens r Word q' (t ++ v) /\ good q' (t ++ v).
Proof.
  intros p v P r q t. destruct P as [c A B C D|c|x H|x y I].
  - exists q. split; [|apply good_snoc]. cbn [append read_tokens]. rewrite (not_blank c A), (eqb_no c backslash B), (eqb_no c quote1 C), (eqb_no c quote2 D). reflexivity.
  - exists q. split; [|apply good_snoc]. cbn [append read_tokens]. replace (white "\") with false by reflexivity. replace (Ascii.eqb "\" backslash) with true by reflexivity. reflexivity.
  - exists true. split; [|reflexivity]. rewrite !append_assoc. cbn [append read_tokens]. replace (white "'") with false by reflexivity. replace (Ascii.eqb "'" backslash) with false by reflexivity.
    replace (Ascii.eqb "'" quote1) with true by reflexivity. apply single_run. exact H.
  - exists true. split; [|reflexivity]. cbn [append]. rewrite append_assoc. cbn [append read_tokens]. replace (white "034") with false by reflexivity. replace (Ascii.eqb "034" backslash) with false by reflexivity.
    replace (Ascii.eqb "034" quote1) with false by reflexivity. replace (Ascii.eqb "034" quote2) with true by reflexivity. apply (double_run x y I).
Qed.
Lemma parts_run : forall p v, parts p v -> forall r q t, good q t -> exists q', read_tokens (p ++ r) Word q t = read_tokens r Word q' (t ++ v) /\ good q' (t ++ v).
Proof.
  intros p v P. induction P as [|p v p' w A P IH]; intros r q t G.
  - exists q. rewrite append_nil_r. split; [reflexivity|exact G].
  - rewrite append_assoc. destruct (part_run p v A (p' ++ r) q t) as (q1 & E1 & G1). destruct (IH r q1 (t ++ v) G1) as (q2 & E2 & G2).
    exists q2. rewrite E1, E2, <- append_assoc. split; [reflexivity|]. rewrite append_assoc in G2 |- *. exact G2.
Qed.
(** The first part is read as if the word had begun. *)
Lemma first_run : forall p v, part p v -> forall r, read_tokens (p ++ r) Blank false "" = read_tokens (p ++ r) Word false "".
Proof.
  intros p v P r. destruct P as [c A B C D|c|x H|x y I]; cbn [append read_tokens]; try reflexivity.
Qed.
Lemma word_run : forall w v, word w v -> forall r, exists q, read_tokens (w ++ r) Blank false "" = read_tokens r Word q v /\ good q v.
Proof.
  intros w v (p & x & q & y & P & Q & -> & ->) r. rewrite append_assoc, (first_run p x P).
  destruct (part_run p x P (q ++ r) false "") as (q1 & E1 & G1). destruct (parts_run q y Q r q1 ("" ++ x) G1) as (q2 & E2 & G2).
  exists q2. cbn [append] in *. split; [rewrite E1; exact E2|exact G2].
Qed.
Theorem spells_split : forall s ws, spells s ws -> shlex_split s = Some ws.
Proof.
  intros s ws S. unfold shlex_split. induction S as [|c s ws B S IH|w v W|w v c s ws W B S IH].
  - reflexivity.
  - cbn [read_tokens]. apply blank_iff in B. rewrite B. exact IH.
  - destruct (word_run w v W "") as (q & E & G). rewrite append_nil_r in E. rewrite E. cbn [read_tokens]. rewrite G. reflexivity.
  - destruct (word_run w v W (String c s)) as (q & E & G). rewrite E. cbn [read_tokens]. apply blank_iff in B. rewrite B, G, IH. reflexivity.
Qed.

(** ** from the words to the meaning *)
Lemma single_back : forall s q t ws, read_tokens s (Quote false) q t = Some ws -> exists x r, s = x ++ String "'" r /\ has_char "'" x = false /\ read_tokens r Word true (t ++ x) = Some ws.
Proof.
  induction s as [|c s IH]; intros q t ws E; [discriminate E|]. cbn [read_tokens] in E. destruct (Ascii.eqb c quote1) eqn:A.
  - apply Ascii.eqb_eq in A. subst c. exists "", s. rewrite append_nil_r. auto.
  - cbn [andb] in E. apply IH in E. destruct E as (x & r & -> & H & E). exists (String c x), r. rewrite snoc_assoc in E. split; [reflexivity|]. split; [|exact E].
    cbn [has_char]. unfold quote1 in A. rewrite A, H. reflexivity.
Qed.
Lemma double_back : forall n s, String.length s <= n -> forall q t ws, read_tokens s (Quote true) q t = Some ws -> exists x y r, s = x ++ String quote2 r /\ inside x y /\ read_tokens r Word true (t ++ y) = Some ws.
Proof.
  induction n as [|n IH]; intros [|c s] L q t ws E; try discriminate E; cbn [String.length] in L; [lia|]. cbn [read_tokens] in E. destruct (Ascii.eqb c quote2) eqn:A.
  - apply Ascii.eqb_eq in A. subst c. exists "", "", s. rewrite append_nil_r. split; [reflexivity|]. split; [constructor|exact E].
  - apply Ascii.eqb_neq in A. destruct (Ascii.eqb c backslash) eqn:B; cbn [andb] in E.
    + apply Ascii.eqb_eq in B. subst c. destruct s as [|d s]; [discriminate E|]. cbn [read_tokens] in E. cbn [String.length] in L.
      destruct (Ascii.eqb d backslash) eqn:D1; [|destruct (Ascii.eqb d quote2) eqn:D2]; cbn [andb negb] in E; apply IH in E; try lia; destruct E as (x & y & r & -> & I & E); rewrite ?snoc_assoc in E.
      * apply Ascii.eqb_eq in D1. subst d. exists ("\\" ++ x), ("\" ++ y), r. split; [reflexivity|]. split; [apply inside_backslash; exact I|exact E].
      * apply Ascii.eqb_eq in D2. subst d. exists ("\" ++ String "034" x), (String "034" y), r. split; [reflexivity|]. split; [apply inside_quote; exact I|exact E].
      * apply Ascii.eqb_neq in D1, D2. exists ("\" ++ String d x), ("\" ++ String d y), r. split; [reflexivity|]. split; [apply inside_other; assumption|exact E].
    + apply Ascii.eqb_neq in B. apply IH in E; [|lia]. destruct E as (x & y & r & -> & I & E). rewrite snoc_assoc in E. exists (String c x), (String c y), r. split; [reflexivity|]. split; [apply inside_char; assumption|exact E].
Qed.
(** One part of what is left of a word, or its end *)
Lemma part_back : forall s q t ws, read_tokens s Word q t = Some ws ->
  (s = "" /\ (good q t -> ws = [t])) \/
  (exists c s', s = String c s' /\ blank c /\ (good q t -> exists ws', read_tokens s' Blank false "" = Some ws' /\ ws = t :: ws')) \/
  (exists p v r q', s = p ++ r /\ part p v /\ String.length r < String.length s /\ read_tokens r Word q' (t ++ v) = Some ws /\ good q' (t ++ v)).
Proof.
  intros [|c s] q t ws E.
  - left. split; [reflexivity|]. intros G. cbn [read_tokens] in E. rewrite G in E. congruence.
  - right. cbn [read_tokens] in E. destruct (white c) eqn:W.
    { left. exists c, s. split; [reflexivity|]. split; [apply blank_iff; exact W|]. intros G. rewrite G in E. destruct (read_tokens s Blank false "") as [ws'|]; [|discriminate E]. exists ws'. split; [reflexivity|]. cbn in E. congruence. }
    assert (W' : ~ blank c) by (intros X; apply blank_iff in X; congruence).
    right. destruct (Ascii.eqb c backslash) eqn:B; [|destruct (Ascii.eqb c quote1) eqn:Q1; [|destruct (Ascii.eqb c quote2) eqn:Q2]].
    + apply Ascii.eqb_eq in B. subst c. destruct s as [|d s]; [discriminate E|]. cbn [read_tokens] in E. exists ("\" ++ String d ""), (String d ""), s, q. split; [reflexivity|].
      split; [apply part_escape|]. split; [cbn [String.length]; lia|]. split; [exact E|apply good_snoc].
    + apply Ascii.eqb_eq in Q1. subst c. apply single_back in E. destruct E as (x & r & -> & H & E). exists ("'" ++ x ++ "'"), x, r, true. split; [cbn [append]; rewrite append_assoc; reflexivity|].
      split; [apply part_single; exact H|]. split; [cbn [String.length]; rewrite Proof_Expand.length_app; cbn [String.length]; lia|]. split; [exact E|reflexivity].
    + apply Ascii.eqb_eq in Q2. subst c. apply (double_back (String.length s)) in E; [|lia]. destruct E as (x & y & r & -> & I & E). exists (String quote2 (x ++ String quote2 "")), y, r, true.
      split; [cbn [append]; rewrite append_assoc; reflexivity|]. split; [apply part_double; exact I|]. split; [cbn [String.length]; rewrite Proof_Expand.length_app; cbn [String.length]; lia|]. split; [exact E|reflexivity].
    + apply Ascii.eqb_neq in B, Q1, Q2. exists (String c ""), (String c ""), s, q. split; [reflexivity|]. split; [apply part_char; assumption|]. split; [cbn [String.length]; lia|]. split; [exact E|apply good_snoc].
Qed.
Lemma back : forall n s, String.length s <= n ->
  (forall ws, read_tokens s Blank false "" = Some ws -> spells s ws) /\
  (forall q t ws, read_tokens s Word q t = Some ws -> good q t -> exists p v, parts p v /\ ((s = p /\ ws = [t ++ v]) \/ exists c s' ws', s = p ++ String c s' /\ blank c /\ spells s' ws' /\ ws = (t ++ v) :: ws')).
Proof.
  induction n as [|n IH]; intros s L.
  - destruct s; [|cbn [String.length] in L; lia]. split.
    + intros ws E. cbn in E. injection E as <-. constructor.
    + intros q t ws E G. exists "", "". split; [constructor|]. left. split; [reflexivity|]. cbn [read_tokens] in E. rewrite G in E. rewrite append_nil_r. congruence.
  - split.
    + intros ws E. destruct s as [|c s]; [cbn in E; injection E as <-; constructor|]. destruct (white c) eqn:W.
      * cbn [read_tokens] in E. rewrite W in E. apply spells_blank; [apply blank_iff; exact W|]. apply (IH s); [cbn [String.length] in L; lia|exact E].
      * assert (E' : read_tokens (String c s) Word false "" = Some ws) by (cbn [read_tokens] in E |- *; rewrite W in E |- *; exact E).
        destruct (part_back (String c s) false "" ws E') as [[X _]|[(d & s' & X & B & _)|(p & v & r & q' & X & P & Lr & E2 & G')]]; [discriminate X|injection X as -> ->; apply blank_iff in B; congruence|].
        destruct (IH r) as [_ IHr]; [cbn [String.length] in L, Lr; lia|]. rewrite X. destruct (IHr q' ("" ++ v) ws E2 G') as (p' & v' & P' & D). cbn [append] in D.
        assert (Wo : word (p ++ p') (v ++ v')) by (exists p, v, p', v'; auto).
        destruct D as [[-> ->]|(e & s' & ws' & -> & B & Sp & ->)]; [apply spells_last; exact Wo|]. rewrite <- append_assoc. apply spells_more; assumption.
    + intros q t ws E G. destruct (part_back s q t ws E) as [[-> X]|[(c & s' & -> & B & X)|(p & v & r & q' & -> & P & Lr & E' & G')]].
      * exists "", "". split; [constructor|]. left. rewrite append_nil_r. auto.
      * destruct (X G) as (ws' & E' & ->). exists "", "". split; [constructor|]. right. exists c, s', ws'. rewrite append_nil_r. split; [reflexivity|]. split; [exact B|]. split; [|reflexivity].
        apply (IH s'); [cbn [String.length] in L; lia|exact E'].
      * destruct (IH r) as [_ IHr]; [lia|]. destruct (IHr q' (t ++ v) ws E' G') as (p' & v' & P' & D). exists (p ++ p'), (v ++ v'). split; [constructor; assumption|].
        destruct D as [[-> ->]|(c & s' & ws' & -> & B & Sp & ->)].
        -- left. rewrite append_assoc. auto.
        -- right. exists c, s', ws'. rewrite !append_assoc. auto.
Qed.
Theorem shlex_iff : forall s ws, shlex_split s = Some ws <-> spells s ws.
Proof. intros s ws. split; [apply (back (String.length s) s (le_n _))|apply spells_split]. Qed.
