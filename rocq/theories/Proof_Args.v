(** gyp's reading of a command line, and of definitions. *)
From Coq Require Import ZArith Lia.
From Verif Require Import Lib LibFacts StrFacts Str Model_Path Spec_Path Model_Args Spec_Args.
Local Open Scope string_scope.

Lemma split1_Some : forall c s x y, split1 c s = Some (x, y) <-> s = x ++ String c y /\ has_char c x = false.
Proof.
  induction s as [|a s IH]; intros x y; cbn [split1]; [split; [discriminate|intros [E _]; destruct x; discriminate]|].
  destruct (Ascii.eqb_spec a c) as [->|N].
  - split; [intros E; injection E as <- <-; auto|]. intros [E H]. destruct x as [|b x]; cbn [append] in E; [congruence|]. injection E as <- _. cbn [has_char] in H. rewrite Ascii.eqb_refl in H. discriminate.
  - destruct (split1 c s) as [[x' y']|] eqn:Q.
    + destruct (proj1 (IH x' y') eq_refl) as [E H]. split.
      * intros X. injection X as <- <-. cbn [append has_char]. rewrite E, H. apply Ascii.eqb_neq in N. rewrite N. auto.
      * intros [X Y]. destruct x as [|b x]; cbn [append] in X; [congruence|]. injection X as <- X. cbn [has_char] in Y. apply orb_false_iff in Y. pose proof (proj2 (IH x y) (conj X (proj2 Y))) as Z. injection Z as -> ->. reflexivity.
    + split; [discriminate|]. intros [X Y]. destruct x as [|b x]; cbn [append] in X; [congruence|]. injection X as <- X. cbn [has_char] in Y. apply orb_false_iff in Y. pose proof (proj2 (IH x y) (conj X (proj2 Y))) as Z. congruence.
Qed.
Lemma split1_None : forall c s, split1 c s = None <-> has_char c s = false.
Proof.
  induction s as [|a s IH]; cbn [split1 has_char]; [tauto|]. destruct (Ascii.eqb a c); [split; discriminate|]. cbn [orb]. destruct (split1 c s) as [[]|]; [|exact IH]. split; [discriminate|]. intros H. apply IH in H. discriminate.
Qed.

Ltac each H := repeat (destruct H as [H|H]; [injection H as <- <-|]); [..|destruct H].
Lemma short_attached : forall c o a v, In (c, o) short_options -> a <> "="%char -> classify (String "-" (String c (String a v))) = Known o (Some (String a v)).
Proof.
  intros c o a v H N. apply Ascii.eqb_neq in N. cbn [short_options In] in H.
  each H; unfold classify; cbn [assoc option_strings String.eqb Ascii.eqb Bool.eqb split1]; rewrite N; (destruct (split1 "=" v) as [[x y]|]; reflexivity).
Qed.
Lemma short_equals : forall c o v, In (c, o) short_options -> classify (String "-" (String c (String "=" v))) = Known o (Some v).
Proof. intros c o v H. cbn [short_options In] in H. each H; reflexivity. Qed.
Lemma short_alone : forall c o, In (c, o) short_options -> classify (String "-" (String c "")) = Known o None.
Proof. intros c o H. cbn [short_options In] in H. each H; reflexivity. Qed.
Lemma prefix_iff : forall p s, prefix_of p s = true <-> starts_with p s.
Proof.
  induction p as [|a p IH]; intros s; cbn [prefix_of]; [split; [intros _; exists s; reflexivity|reflexivity]|]. destruct s as [|b s]; [split; [discriminate|intros (t & E); discriminate]|].
  rewrite andb_true_iff, Ascii.eqb_eq, IH. split; [intros [-> (t & ->)]; exists t; reflexivity|]. intros (t & E). injection E as -> ->. split; [reflexivity|exists t; reflexivity].
Qed.
(** The long names among all. *)
Lemma filter_and : forall {A} (f g : A -> bool) l, filter (fun x => f x && g x) l = filter g (filter f l).
Proof. intros A f g l. induction l as [|x l IH]; [reflexivity|]. cbn [filter]. destruct (f x); cbn [andb filter]; [destruct (g x); congruence|exact IH]. Qed.
Lemma filter_map : forall {A B} (h : A -> B) (f : B -> bool) l, filter f (map h l) = map h (filter (fun x => f (h x)) l).
Proof. intros A B h f l. induction l as [|x l IH]; [reflexivity|]. cbn [map filter]. destruct (f (h x)); cbn [map]; congruence. Qed.
Definition long_of (e : string * opt) : string * opt := ("--" ++ fst e, snd e).
Lemma long_only : forall p, filter (fun e => prefix_of ("--" ++ p) (fst e)) option_strings = map long_of (filter (fun e => prefix_of p (fst e)) long_options).
Proof.
  intros p. rewrite (filter_ext _ (fun e : string * opt => prefix_of "--" (fst e) && prefix_of ("--" ++ p) (fst e))).
  - rewrite filter_and. assert (E : filter (fun x : string * opt => prefix_of "--" (fst x)) option_strings = map long_of long_options) by reflexivity. rewrite E, filter_map. apply (f_equal (map long_of)). apply filter_ext. intros [n o]. reflexivity.
  - intros [n o]. cbn [fst append]. destruct n as [|a [|b n]]; cbn [prefix_of]; [reflexivity|rewrite andb_false_r; reflexivity|]. destruct (Ascii.eqb "-" a), (Ascii.eqb "-" b); reflexivity.
Qed.
Lemma assoc_filter : forall k (f : string * opt -> bool) l, (forall o, f (k, o) = true) -> assoc k l = assoc k (filter f l).
Proof. intros k f l H. induction l as [|[k1 o] l IH]; [reflexivity|]. cbn [assoc filter]. destruct (String.eqb_spec k k1) as [<-|N]; [rewrite H; cbn [assoc]; rewrite String.eqb_refl; reflexivity|]. destruct (f (k1, o)); [cbn [assoc]; apply String.eqb_neq in N; rewrite N|]; exact IH. Qed.
Lemma assoc_map_long : forall p l, assoc ("--" ++ p) (map long_of l) = assoc p l.
Proof. intros p l. induction l as [|[n o] l IH]; [reflexivity|]. cbn [map long_of fst snd assoc]. rewrite IH. destruct (String.eqb_spec p n) as [->|N]; [rewrite String.eqb_refl; reflexivity|]. destruct (String.eqb_spec ("--" ++ p) ("--" ++ n)) as [E|_]; [cbn [append] in E; congruence|reflexivity]. Qed.
Lemma assoc_long : forall p, assoc ("--" ++ p) option_strings = assoc p long_options.
Proof.
  intros p. rewrite (assoc_filter _ (fun x => prefix_of "--" (fst x))); [|reflexivity]. assert (E : filter (fun x : string * opt => prefix_of "--" (fst x)) option_strings = map long_of long_options) by reflexivity. rewrite E. apply assoc_map_long.
Qed.
Lemma long_assoc : forall p o, In (p, o) long_options <-> assoc p long_options = Some o.
Proof. intros p o. split; [intros H; cbn [long_options In] in H; each H; reflexivity|]. intros H. apply assoc_In in H. exact H. Qed.
Lemma long_no_equals : forall n o, In (n, o) long_options -> has_char "=" n = false /\ n <> "".
Proof. intros n o H. cbn [long_options In] in H. each H; (split; [reflexivity|discriminate]). Qed.
Lemma long_NoDup : NoDup (map fst long_options).
Proof. cbn. repeat (constructor; [cbn; intuition discriminate|]). constructor. Qed.
Lemma long_starts : forall p, (forall e, In e (filter (fun e => prefix_of p (fst e)) long_options) <-> In e long_options /\ starts_with p (fst e)).
Proof. intros p e. rewrite filter_In, prefix_iff. tauto. Qed.
Lemma filter_NoDup_fst : forall (f : string * opt -> bool) l, NoDup (map fst l) -> NoDup (map fst (filter f l)).
Proof.
  intros f l. induction l as [|x l IH]; intros H; [constructor|]. cbn [map filter] in *. inversion H as [|? ? N H']; subst. destruct (f x); [|auto]. cbn [map]. constructor; [|auto].
  intros I. apply N. apply in_map_iff in I. destruct I as (y & E & I). apply filter_In in I. rewrite <- E. apply in_map. tauto.
Qed.
(** The long names that begin with [p]: one, or none, or several. *)
Lemma matches_one : forall p o, (forall o', ~ In (p, o') long_options) -> (abbreviates p o <-> exists n, filter (fun e => prefix_of p (fst e)) long_options = [(n, o)]).
Proof.
  intros p o NE. split.
  - intros [H|(_ & n & H & S & U)]; [destruct (NE o H)|]. exists n. pose proof (long_starts p) as L. pose proof (filter_NoDup_fst (fun e => prefix_of p (fst e)) _ long_NoDup) as ND.
    assert (I : In (n, o) (filter (fun e => prefix_of p (fst e)) long_options)) by (apply L; auto).
    destruct (filter (fun e => prefix_of p (fst e)) long_options) as [|e [|e' l]]; [destruct I|destruct I as [->|[]]; reflexivity|].
    assert (F : forall x, In x (e :: e' :: l) -> fst x = n) by (intros [n' o'] X; apply L in X; cbn [fst] in *; exact (U n' o' (proj1 X) (proj2 X))).
    inversion ND as [|? ? N _]; subst. destruct N. left. rewrite (F e) by (left; reflexivity). apply F. right. left. reflexivity.
  - intros (n & E). right. split; [exact NE|]. exists n. pose proof (long_starts p) as L. rewrite E in L. destruct (proj1 (L (n, o)) (or_introl eq_refl)) as [I S]. split; [exact I|]. split; [exact S|].
    intros n' o' I' S'. destruct (proj2 (L (n', o')) (conj I' S')) as [X|[]]. congruence.
Qed.
Lemma matches_many : forall p, (forall o', ~ In (p, o') long_options) -> (ambiguous_name p <-> exists e e' l, filter (fun e => prefix_of p (fst e)) long_options = e :: e' :: l).
Proof.
  intros p NE. split.
  - intros (_ & n & o & n' & o' & I & I' & S & S' & N). pose proof (long_starts p) as L. destruct (filter (fun e => prefix_of p (fst e)) long_options) as [|e [|e' l]]; [|..|eauto].
    + destruct (proj2 (L (n, o)) (conj I S)).
    + destruct (proj2 (L (n, o)) (conj I S)) as [X|[]]. destruct (proj2 (L (n', o')) (conj I' S')) as [Y|[]]. congruence.
  - intros ([n o] & [n' o'] & l & E). split; [exact NE|]. pose proof (long_starts p) as L. pose proof (filter_NoDup_fst (fun e => prefix_of p (fst e)) _ long_NoDup) as ND. rewrite E in L, ND.
    destruct (proj1 (L (n, o)) (or_introl eq_refl)) as [I S]. destruct (proj1 (L (n', o')) (or_intror (or_introl eq_refl))) as [I' S']. exists n, o, n', o'. repeat (split; [assumption|]). inversion ND as [|? ? N _]; subst. intros ->. apply N. left. reflexivity.
Qed.
Lemma dec_long : forall p, (exists o, In (p, o) long_options) \/ forall o, ~ In (p, o) long_options.
Proof. intros p. destruct (assoc p long_options) as [o|] eqn:A; [left; exists o; apply long_assoc; exact A|right; intros o H; apply long_assoc in H; congruence]. Qed.
Definition residual (s : string) : kind := if negative_number s then Word else if has_char " " s then Word else Unknown.
(** What a long name, with or without a value, is. *)
Lemma classify_name : forall p v, (v = None -> p <> "") -> has_char "=" p = false ->
  let s := "--" ++ p ++ match v with Some x => "=" ++ x | None => "" end in
  (forall o, abbreviates p o -> classify s = Known o v) /\ (ambiguous_name p -> classify s = Ambiguous) /\
  ((forall o, ~ abbreviates p o) -> ~ ambiguous_name p -> classify s = residual s).
Proof.
  intros p v NV NQ s.
  assert (SP : split1 "=" s = match v with Some x => Some ("--" ++ p, x) | None => None end).
  { unfold s. destruct v as [x|]; [apply split1_Some; split; [cbn [append]; reflexivity|exact NQ]|]. apply split1_None. rewrite append_nil_r. exact NQ. }
  assert (D : exists a t, s = String "-" (String a t)) by (eexists _, _; reflexivity).
  assert (C : classify s = match assoc p long_options with
                           | Some o => Known o v
                           | None => match map (fun e => (snd e, v)) (filter (fun e => prefix_of p (fst e)) long_options) with [(o, w)] => Known o w | _ :: _ => Ambiguous | [] => residual s end end).
  { unfold classify. change s with (String "-" (String "-" (p ++ match v with Some x => "=" ++ x | None => "" end))) at 1. rewrite SP.
    assert (AS : v <> None -> assoc s option_strings = None).
    { intros NN. unfold s. rewrite assoc_long. destruct v as [x|]; [|congruence]. destruct (assoc (p ++ "=" ++ x) long_options) as [o|] eqn:A; [|reflexivity]. apply long_assoc in A. destruct (long_no_equals _ _ A) as [Q _]. rewrite has_char_app in Q. cbn in Q. rewrite orb_true_r in Q. discriminate. }
    assert (OT : option_tuples s = map (fun e => (snd e, v)) (filter (fun e => prefix_of p (fst e)) long_options)).
    { unfold option_tuples. change s with (String "-" (String "-" (p ++ match v with Some x => "=" ++ x | None => "" end))) at 1. rewrite SP. unfold abbreviated.
      destruct v as [x|]; [|unfold s; rewrite append_nil_r]; rewrite long_only, map_map; reflexivity. }
    rewrite OT. destruct v as [x|].
    - rewrite AS by discriminate. rewrite assoc_long. destruct (assoc p long_options); reflexivity.
    - assert (ES : s = "--" ++ p) by (unfold s; rewrite append_nil_r; reflexivity). rewrite ES at 1. rewrite assoc_long. destruct (assoc p long_options); reflexivity. }
  rewrite C. destruct (dec_long p) as [(o & I)|NE].
  - rewrite (proj1 (long_assoc p o) I). split; [|split].
    + intros o' [I'|(NE & _)]; [|destruct (NE o I)]. apply long_assoc in I, I'. congruence.
    + intros (NE & _). destruct (NE o I).
    + intros NA _. destruct (NA o). left. exact I.
  - assert (A : assoc p long_options = None) by (destruct (assoc p long_options) as [o|] eqn:A; [apply long_assoc in A; destruct (NE o A)|reflexivity]). rewrite A. split; [|split].
    + intros o H. apply (matches_one p o NE) in H. destruct H as (n & ->). reflexivity.
    + intros H. apply (matches_many p NE) in H. destruct H as ([n o] & [n' o'] & l & ->). reflexivity.
    + intros NA NM. destruct (filter (fun e => prefix_of p (fst e)) long_options) as [|[n o] [|e l]] eqn:F; [reflexivity|exfalso; apply (NA o); apply (matches_one p o NE); eauto|exfalso; apply NM; apply (matches_many p NE); eauto].
Qed.
Lemma dec_abbreviates : forall p, (exists o, abbreviates p o) \/ ambiguous_name p \/ ((forall o, ~ abbreviates p o) /\ ~ ambiguous_name p).
Proof.
  intros p. destruct (dec_long p) as [(o & I)|NE]; [left; exists o; left; exact I|]. destruct (filter (fun e => prefix_of p (fst e)) long_options) as [|[n o] [|e l]] eqn:F.
  - right. right. split; [intros o H; apply (matches_one p o NE) in H; destruct H as (n & H); congruence|]. intros H. apply (matches_many p NE) in H. destruct H as (e & e' & l & H). congruence.
  - left. exists o. apply (matches_one p o NE). eauto.
  - right. left. apply (matches_many p NE). eauto.
Qed.
(** What a short name is. *)
Lemma short_other : forall c t, c <> "-"%char -> (forall o, ~ In (c, o) short_options) -> classify (String "-" (String c t)) = residual (String "-" (String c t)).
Proof.
  intros c t NC NS. unfold classify.
  assert (A : forall x, assoc (String "-" (String c x)) option_strings = None).
  { intros x. destruct (assoc (String "-" (String c x)) option_strings) as [o|] eqn:A; [|reflexivity]. exfalso. apply assoc_In in A. cbn [option_strings In] in A.
    repeat (destruct A as [A|A]; [injection A as A1 A2 A3; subst; first [destruct NC; reflexivity|eapply NS; cbn [short_options In]; repeat ((left; reflexivity) || right)]|]). destruct A. }
  rewrite A. assert (SP : match split1 "=" (String "-" (String c t)) with Some (p, v) => option_map (fun o => (o, v)) (assoc p option_strings) | None => None end = None).
  { destruct (split1 "=" (String "-" (String c t))) as [[p v]|] eqn:S; [|reflexivity]. apply split1_Some in S. destruct S as [S H]. destruct p as [|a [|b p]]; cbn [append] in S.
    - discriminate.
    - injection S as S1 S2 S3. subst. reflexivity.
    - injection S as S1 S2 S3. subst. rewrite A. reflexivity. }
  rewrite SP. assert (OT : option_tuples (String "-" (String c t)) = []).
  { unfold option_tuples. destruct c as [[] [] [] [] [] [] [] []]; try (destruct NC; reflexivity); unfold attached; rewrite A; reflexivity. }
  rewrite OT. reflexivity.
Qed.
Lemma dec_short : forall c, (exists o, In (c, o) short_options) \/ forall o, ~ In (c, o) short_options.
Proof.
  intros c. destruct (find (fun e => Ascii.eqb c (fst e)) short_options) as [[c' o]|] eqn:F.
  - apply find_some in F. destruct F as [F E]. apply Ascii.eqb_eq in E. cbn [fst] in E. subst c'. eauto.
  - right. intros o I. apply (find_none _ _ F) in I. cbn [fst] in I. rewrite Ascii.eqb_refl in I. discriminate.
Qed.
Lemma short_not_dash : forall o, ~ In ("-"%char, o) short_options.
Proof. intros o H. cbn [short_options In] in H. intuition discriminate. Qed.
Lemma cut_equals : forall s, (has_char "=" s = false) \/ exists p v, s = p ++ "=" ++ v /\ has_char "=" p = false.
Proof. intros s. destruct (split1 "=" s) as [[p v]|] eqn:S; [right; apply split1_Some in S; exists p, v; exact S|left; apply split1_None; exact S]. Qed.
(** Every word is one of these. *)
Inductive sort_of : string -> kind -> Prop :=
| so_option s o v : option_word s o v -> sort_of s (Known o v)
| so_ambiguous s : ambiguous_word s -> sort_of s Ambiguous
| so_dashed s : dashed s -> sort_of s (residual s)
| so_plain s : ~ dashed s -> sort_of s Word.
Theorem classify_sort : forall s, s <> "--" -> (forall o v, option_word s o v -> classify s = Known o v) /\ (ambiguous_word s -> classify s = Ambiguous) /\
  (other_word s -> dashed s -> classify s = residual s) /\ (~ dashed s -> classify s = Word) /\ ((exists o v, option_word s o v) \/ ambiguous_word s \/ other_word s).
Proof.
  intros s NS.
  assert (O : forall o v, option_word s o v -> classify s = Known o v).
  { intros o v H. destruct H as [c o I|c o a v I N|c o v I|p o NQ NP A|p o v NQ A].
    - apply short_alone, I. - apply short_attached; assumption. - apply short_equals, I.
    - destruct (classify_name p None (fun _ => NP) NQ) as (X & _). rewrite append_nil_r in X. exact (X o A).
    - destruct (classify_name p (Some v) ltac:(discriminate) NQ) as (X & _). exact (X o A). }
  assert (M : ambiguous_word s -> classify s = Ambiguous).
  { intros H. destruct H as [p NQ NP A|p v NQ A].
    - destruct (classify_name p None (fun _ => NP) NQ) as (_ & X & _). rewrite append_nil_r in X. exact (X A).
    - destruct (classify_name p (Some v) ltac:(discriminate) NQ) as (_ & X & _). exact (X A). }
  split; [exact O|]. split; [exact M|].
  assert (P : ~ dashed s -> classify s = Word).
  { intros ND. unfold classify. destruct s as [|[[] [] [] [] [] [] [] []] [|b s]]; try reflexivity. destruct ND. eexists _, _. reflexivity. }
  assert (T : (exists o v, option_word s o v) \/ ambiguous_word s \/ (other_word s /\ (dashed s -> classify s = residual s))).
  { destruct s as [|a s]; [right; right; split; [split; [exact NS|split; [intros o v H; inversion H|intros H; inversion H]]|intros (b & t & E); discriminate]|].
    destruct (Ascii.eqb_spec a "-") as [->|NA]; [|right; right; split; [split; [exact NS|split; [intros o v H; inversion H; congruence|intros H; inversion H; congruence]]|intros (b & t & E); congruence]].
    destruct s as [|c t]; [right; right; split; [split; [exact NS|split; [intros o v H; inversion H|intros H; inversion H]]|intros (b & t & E); discriminate]|].
    destruct (Ascii.eqb_spec c "-") as [->|NC].
    - destruct (cut_equals t) as [NQ|(p & v & -> & NQ)].
      + assert (NT : t <> "") by (intros ->; apply NS; reflexivity). destruct (dec_abbreviates t) as [(o & A)|[A|[NA NM]]].
        * left. exists o, None. exact (ow_long t o NQ NT A).
        * right. left. exact (aw_long t NQ NT A).
        * right. right. split.
          -- split; [exact NS|]. split.
             ++ intros o v H. remember (String "-" (String "-" t)) as s eqn:E. destruct H as [c o I|c o a v I N|c o v I|p o NQ' NP A|p o v NQ' A]; injection E as E; subst; try (eapply short_not_dash; eassumption); [exact (NA o A)|]. rewrite has_char_app in NQ. cbn in NQ. rewrite orb_true_r in NQ. discriminate.
             ++ intros H. remember (String "-" (String "-" t)) as s eqn:E. destruct H as [p NQ' NP A|p v NQ' A]; injection E as E; subst; [exact (NM A)|]. rewrite has_char_app in NQ. cbn in NQ. rewrite orb_true_r in NQ. discriminate.
          -- intros _. destruct (classify_name t None (fun _ => NT) NQ) as (_ & _ & X). rewrite append_nil_r in X. exact (X NA NM).
      + destruct (dec_abbreviates p) as [(o & A)|[A|[NA NM]]].
        * left. exists o, (Some v). exact (ow_long_equals p o v NQ A).
        * right. left. exact (aw_long_equals p v NQ A).
        * assert (U : forall p' v', p ++ "=" ++ v = p' ++ "=" ++ v' -> has_char "=" p' = false -> p' = p).
          { intros p' v' E NQ'. assert (X : split1 "=" (p ++ "=" ++ v) = Some (p, v)) by (apply split1_Some; auto). assert (Y : split1 "=" (p ++ "=" ++ v) = Some (p', v')) by (apply split1_Some; auto). congruence. }
          right. right. split.
          -- split; [exact NS|]. split.
             ++ intros o w H. remember (String "-" (String "-" (p ++ "=" ++ v))) as s eqn:E. destruct H as [c o I|c o a x I N|c o x I|q o NQ' NP A|q o x NQ' A]; injection E as E; try (subst; eapply short_not_dash; eassumption).
                ** rewrite E, has_char_app in NQ'. cbn in NQ'. rewrite orb_true_r in NQ'. discriminate.
                ** symmetry in E. rewrite (U q x E NQ') in A. exact (NA o A).
             ++ intros H. remember (String "-" (String "-" (p ++ "=" ++ v))) as s eqn:E. destruct H as [q NQ' NP A|q x NQ' A]; injection E as E.
                ** rewrite E, has_char_app in NQ'. cbn in NQ'. rewrite orb_true_r in NQ'. discriminate.
                ** symmetry in E. rewrite (U q x E NQ') in A. exact (NM A).
          -- intros _. destruct (classify_name p (Some v) ltac:(discriminate) NQ) as (_ & _ & X). exact (X NA NM).
    - destruct (dec_short c) as [(o & I)|NI].
      + left. exists o. destruct t as [|a t]; [exists None; apply ow_short; exact I|]. destruct (Ascii.eqb_spec a "=") as [->|N]; [exists (Some t); apply ow_short_equals; exact I|exists (Some (String a t)); apply ow_attached; assumption].
      + right. right. split; [|intros _; apply short_other; assumption]. split; [exact NS|]. split.
        * intros o v H. remember (String "-" (String c t)) as s eqn:E. destruct H; injection E as E1 E2; subst; try (eapply NI; eassumption); congruence.
        * intros H. remember (String "-" (String c t)) as s eqn:E. destruct H; injection E as E1 E2; congruence. }
  split.
  - intros (_ & NO & NM) D. destruct T as [(o & v & H)|[H|[_ H]]]; [destruct (NO o v H)|destruct (NM H)|exact (H D)].
  - split; [exact P|]. destruct T as [H|[H|[H _]]]; auto.
Qed.

(** What stands behind is read on its own. *)
Lemma also_Some : forall e r es, also e r = Some es -> exists es', r = Some es' /\ es = e :: es'.
Proof. intros e [l|] es H; cbn in H; [injection H as <-; eauto|discriminate]. Qed.
Lemma also_app : forall e es r, also e (option_map (app es) r) = option_map (app (e :: es)) r.
Proof. intros e es [l|]; reflexivity. Qed.
Theorem parse_app : forall n u es w, List.length u <= n -> parse u = Some es -> ~ In "--" u -> parse (u ++ w) = option_map (app es) (parse w).
Proof.
  induction n as [|n IH]; intros u es w L P N; (destruct u as [|a u]; [injection P as <-; cbn [app]; destruct (parse w); reflexivity|]); [cbn in L; lia|].
  cbn [List.length] in L. cbn [parse app] in *. assert (NA : a <> "--") by (intros ->; apply N; left; reflexivity). apply String.eqb_neq in NA. rewrite NA in *.
  assert (NU : ~ In "--" u) by (intros X; apply N; right; exact X).
  destruct (classify a) as [|o [v|]| |]; [| | | |discriminate].
  - apply also_Some in P. destruct P as (es' & P & ->). rewrite (IH u es' w); [apply also_app|lia|exact P|exact NU].
  - destruct (takes_value o); [|discriminate]. apply also_Some in P. destruct P as (es' & P & ->). rewrite (IH u es' w); [apply also_app|lia|exact P|exact NU].
  - destruct (takes_value o).
    + destruct u as [|v u]; [discriminate|]. cbn [app]. destruct (String.eqb v "--"); [discriminate|]. destruct (classify v); try discriminate. apply also_Some in P. destruct P as (es' & P & ->). rewrite (IH u es' w); [apply also_app|cbn in L; lia|exact P|intros X; apply NU; right; exact X].
    + destruct o; try discriminate; (apply also_Some in P; destruct P as (es' & P & ->); rewrite (IH u es' w); [apply also_app|lia|exact P|exact NU]).
  - apply also_Some in P. destruct P as (es' & P & ->). rewrite (IH u es' w); [apply also_app|lia|exact P|exact NU].
Qed.
Lemma given_app : forall o a b, given o (a ++ b)%list = (given o a ++ given o b)%list.
Proof. intros o a b. induction a as [|e a IH]; [reflexivity|]. cbn [app given]. destruct e as [o' v| |]; [destruct (opt_beq o o')|..]; cbn [app]; congruence. Qed.
Lemma left_app : forall a b, left_over (a ++ b)%list = (left_over a ++ left_over b)%list.
Proof. intros a b. induction a as [|e a IH]; [reflexivity|]. cbn [app left_over]. destruct e; cbn [app]; congruence. Qed.
Lemma on_app : forall o a b, is_on o (a ++ b)%list = is_on o a || is_on o b.
Proof. intros. apply existsb_app. Qed.
Lemma stored_app : forall o a b, stored o (a ++ b)%list = match stored o b with Some v => Some v | None => stored o a end.
Proof. intros o a b. unfold stored. rewrite given_app, rev_app_distr. destruct (rev (given o b)); reflexivity. Qed.

(** Numbers. *)
Lemma blank_iff : forall a, is_space a = true <-> blank a.
Proof.
  intros a. unfold is_space, blank. rewrite orb_true_iff, !andb_true_iff, !N.leb_le. tauto.
Qed.
Lemma digit_iff : forall a, is_digit a = true <-> (48 <= N_of_ascii a <= 57)%N.
Proof. intros a. unfold is_digit. rewrite andb_true_iff, !N.leb_le. tauto. Qed.
Lemma lstrip_parts : forall s, exists b, s = b ++ lstrip_ws s /\ every blank b /\ match lstrip_ws s with EmptyString => True | String a _ => ~ blank a end.
Proof.
  induction s as [|a s (b & E & B & H)]; [exists ""; repeat split|]. cbn [lstrip_ws]. destruct (is_space a) eqn:Q.
  - exists (String a b). cbn [append every]. rewrite <- E. apply blank_iff in Q. auto.
  - exists "". repeat split. intros X. apply blank_iff in X. congruence.
Qed.
Lemma rstrip_parts : forall s, exists e, s = rstrip_ws s ++ e /\ every blank e.
Proof.
  induction s as [|a s (e & E & B)]; [exists ""; repeat split|]. cbn [rstrip_ws]. destruct (rstrip_ws s) as [|c r] eqn:Q.
  - destruct (is_space a) eqn:S; [exists (String a e)|exists e]; cbn [append every] in *; subst e; [apply blank_iff in S|]; auto.
  - exists e. cbn [append] in *. rewrite <- E. auto.
Qed.
Lemma rstrip_blank : forall e, every blank e -> rstrip_ws e = "".
Proof. induction e as [|a e IH]; [reflexivity|]. intros [A E]. cbn [rstrip_ws]. rewrite (IH E). apply blank_iff in A. rewrite A. reflexivity. Qed.
Lemma lstrip_blank : forall b s, every blank b -> lstrip_ws (b ++ s) = lstrip_ws s.
Proof. induction b as [|a b IH]; intros s H; [reflexivity|]. destruct H as [A B]. cbn [append lstrip_ws]. apply blank_iff in A. rewrite A. auto. Qed.
Lemma lstrip_stop : forall a s, ~ blank a -> lstrip_ws (String a s) = String a s.
Proof. intros a s H. cbn [lstrip_ws]. destruct (is_space a) eqn:Q; [apply blank_iff in Q; contradiction|reflexivity]. Qed.
Lemma rstrip_end : forall s a e, ~ blank a -> every blank e -> rstrip_ws (s ++ String a e) = s ++ String a "".
Proof.
  induction s as [|c s IH]; intros a e H E; cbn [append rstrip_ws].
  - rewrite (rstrip_blank e E). destruct (is_space a) eqn:Q; [apply blank_iff in Q; contradiction|reflexivity].
  - rewrite (IH a e H E). destruct s; reflexivity.
Qed.
Lemma py_digits_read : forall s seen n m, py_digits seen n s = Some m <-> (seen = true /\ s = "" /\ m = n) \/ digits_read n s m \/ (seen = true /\ exists s', s = String "_" s' /\ digits_read n s' m).
Proof.
  induction s as [|a s IH]; intros seen n m; cbn [py_digits].
  - destruct seen; split; try discriminate.
    + intros E. injection E as <-. auto.
    + intros [(_ & _ & ->)|[H|(_ & s' & E & _)]]; [reflexivity|inversion H|discriminate].
    + intros [(E & _)|[H|(E & _)]]; [discriminate|inversion H|discriminate].
  - destruct (is_digit a) eqn:D.
    + pose proof (proj1 (digit_iff a) D) as D'. rewrite IH. split.
      * intros [(_ & -> & ->)|[H|(_ & s' & -> & H)]]; right; left; constructor; assumption.
      * intros [(_ & E & _)|[H|(_ & s' & E & _)]]; [discriminate| |injection E as -> _; discriminate].
        inversion H; subst; [left; auto|right; left; assumption|right; right; split; [reflexivity|eexists; split; [reflexivity|assumption]]].
    + assert (ND : ~ (48 <= N_of_ascii a <= 57)%N) by (rewrite <- digit_iff; congruence).
      destruct (Ascii.eqb_spec a "_") as [->|NU]; cbn [andb].
      * destruct seen; cbn [andb].
        -- rewrite IH. split.
           ++ intros [(E & _)|[H|(E & _)]]; [discriminate| |discriminate]. right. right. split; [reflexivity|]. eauto.
           ++ intros [(_ & E & _)|[H|(_ & s' & E & H)]]; [discriminate|inversion H; subst; contradiction|]. injection E as <-. auto.
        -- split; [discriminate|]. intros [(E & _)|[H|(E & _)]]; [discriminate|inversion H; subst; contradiction|discriminate].
      * split; [discriminate|]. intros [(_ & E & _)|[H|(_ & s' & E & _)]]; [discriminate|inversion H; subst; contradiction|]. injection E as E _. congruence.
Qed.
Lemma py_digits_start : forall s m, py_digits false 0 s = Some m <-> digits_read 0 s m.
Proof. intros s m. rewrite py_digits_read. split; [intros [(E & _)|[H|(E & _)]]; [discriminate|exact H|discriminate]|auto]. Qed.
Lemma digits_shape : forall n s m, digits_read n s m -> (exists a t, s = String a t /\ (48 <= N_of_ascii a <= 57)%N) /\ exists t a, s = t ++ String a "" /\ (48 <= N_of_ascii a <= 57)%N.
Proof.
  induction 1 as [a n D|a n s m D H [_ (t & b & E & B)]|a n s m D H [_ (t & b & E & B)]].
  - split; [exists a, ""|exists "", a]; auto.
  - split; [exists a, s; auto|]. exists (String a t), b. rewrite E. auto.
  - split; [eexists _, _; split; [reflexivity|exact D]|]. exists (String a (String "_" t)), b. rewrite E. auto.
Qed.
Lemma digit_not_blank : forall a, (48 <= N_of_ascii a <= 57)%N -> ~ blank a.
Proof. unfold blank. intros a H. lia. Qed.
Lemma strip_core : forall b s e c t d u, every blank b -> every blank e -> s = String c t -> ~ blank c -> s = u ++ String d "" -> ~ blank d -> strip (b ++ s ++ e) = s.
Proof.
  intros b s e c t d u B E H NC H' ND. unfold strip. rewrite (lstrip_blank b _ B). rewrite H at 1. cbn [append]. rewrite (lstrip_stop c _ NC).
  change (String c (t ++ e)) with (String c t ++ e). rewrite <- H. rewrite H', append_assoc. cbn [append]. apply rstrip_end; assumption.
Qed.
Theorem py_int_iff : forall s n, py_int s = Some n <-> whole_number s n.
Proof.
  intros s n. split.
  - intros H. unfold py_int in H. destruct (lstrip_parts s) as (b & E & B & _). destruct (rstrip_parts (lstrip_ws s)) as (e & E' & BE). unfold strip in H. rewrite E, E'. set (core := rstrip_ws (lstrip_ws s)) in *.
    assert (D : forall r, py_digits false 0 r = Some n -> r = core -> whole_number (b ++ core ++ e) n) by (intros r H' <-; apply wn_plain; [assumption..|]; apply py_digits_start; exact H').
    destruct core as [|a r] eqn:Q; [exact (D _ H eq_refl)|].
    destruct (Ascii.eqb_spec a "-") as [->|N1]; [|destruct (Ascii.eqb_spec a "+") as [->|N2]].
    + destruct (py_digits false 0 r) as [m|] eqn:X; [|discriminate]. injection H as <-. change (String "-" r ++ e) with ("-" ++ r ++ e). apply wn_minus; [assumption..|]. apply py_digits_start. exact X.
    + change (String "+" r ++ e) with ("+" ++ r ++ e). apply wn_plus; [assumption..|]. apply py_digits_start. exact H.
    + apply (D (String a r)); [|reflexivity]. destruct a as [[] [] [] [] [] [] [] []]; try exact H; congruence.
  - intros H. destruct H as [b s e n B E D|b s e n B E D|b s e n B E D]; destruct (digits_shape _ _ _ D) as [(a & t & EA & DA) (u & d & ED & DD)]; apply py_digits_start in D; unfold py_int.
    + rewrite (strip_core b s e a t d u B E EA (digit_not_blank a DA) ED (digit_not_blank d DD)). subst s.
      destruct a as [[] [] [] [] [] [] [] []]; try exact D; exfalso; revert DA; vm_compute; intuition discriminate.
    + change (b ++ "+" ++ s ++ e) with (b ++ ("+" ++ s) ++ e). rewrite (strip_core b ("+" ++ s) e "+" s d ("+" ++ u) B E eq_refl); [exact D| |rewrite ED; reflexivity|exact (digit_not_blank d DD)]. vm_compute. intuition discriminate.
    + change (b ++ "-" ++ s ++ e) with (b ++ ("-" ++ s) ++ e). rewrite (strip_core b ("-" ++ s) e "-" s d ("-" ++ u) B E eq_refl); [cbn [append]; rewrite D; reflexivity| |rewrite ED; reflexivity|exact (digit_not_blank d DD)]. vm_compute. intuition discriminate.
Qed.

(** Definitions. *)
Lemma assoc_setting : forall k k' v d, assoc k (set_setting k' v d) = if String.eqb k k' then Some v else assoc k d.
Proof.
  intros k k' v d. unfold set_setting. destruct (existsb (fun e => String.eqb (fst e) k') d) eqn:X.
  - induction d as [|[k1 v1] d IH]; [discriminate|]. cbn [existsb fst map assoc] in *. destruct (String.eqb_spec k1 k') as [->|N].
    + destruct (String.eqb_spec k k') as [->|NK]; [reflexivity|]. destruct (existsb (fun e => String.eqb (fst e) k') d) eqn:Y; [apply IH; reflexivity|].
      clear IH X. induction d as [|[k2 v2] d IH]; [reflexivity|]. cbn [existsb fst map assoc] in *. apply orb_false_iff in Y. destruct Y as [Y1 Y2]. rewrite Y1. destruct (String.eqb k k2); auto.
    + cbn [orb] in X. destruct (String.eqb_spec k k1) as [->|NK]; [apply String.eqb_neq in N; rewrite N; reflexivity|]. exact (IH X).
  - induction d as [|[k1 v1] d IH]; [reflexivity|]. cbn [existsb fst app assoc] in *. apply orb_false_iff in X. destruct X as [X1 X2]. destruct (String.eqb_spec k k1) as [->|NK]; [rewrite X1; reflexivity|exact (IH X2)].
Qed.
Definition item_means (item : string) : string * setting :=
  match split1 "=" item with Some (k, v) => (k, match py_int v with Some n => Number n | None => Text v end) | None => (item, Yes) end.
Lemma name_value_means : forall d item, name_value d item = set_setting (fst (item_means item)) (snd (item_means item)) d.
Proof. intros d item. unfold name_value, item_means. destruct (split1 "=" item) as [[k v]|]; reflexivity. Qed.
Lemma defines_means : forall item k v, defines_as item k v <-> item_means item = (k, v).
Proof.
  intros item k v. unfold item_means. split.
  - intros [k' t n H W|k' t H W|k' H].
    + rewrite (proj2 (split1_Some "=" (k' ++ "=" ++ t) k' t)) by auto. apply py_int_iff in W. rewrite W. reflexivity.
    + rewrite (proj2 (split1_Some "=" (k' ++ "=" ++ t) k' t)) by auto. destruct (py_int t) as [n|] eqn:P; [|reflexivity]. apply py_int_iff in P. destruct (W n P).
    + rewrite (proj2 (split1_None "=" k')) by assumption. reflexivity.
  - destruct (split1 "=" item) as [[k' t]|] eqn:S.
    + apply split1_Some in S. destruct S as [-> H]. intros E. injection E as <- <-. destruct (py_int t) as [n|] eqn:P; [apply py_int_iff in P; exact (da_number k' t n H P)|]. apply (da_text k' t H). intros n W. apply py_int_iff in W. congruence.
    + apply split1_None in S. intros E. injection E as <- <-. apply da_yes. exact S.
Qed.
Lemma name_value_snoc : forall l x, name_value_dict (l ++ [x])%list = name_value (name_value_dict l) x.
Proof. intros. unfold name_value_dict. rewrite fold_left_app. reflexivity. Qed.
Theorem name_value_iff : forall l k v, assoc k (name_value_dict l) = Some v <-> last_says l k v.
Proof.
  induction l as [|x l IH] using rev_ind; intros k v.
  - split; [discriminate|]. intros (a & i & b & E & _). destruct a; discriminate.
  - rewrite name_value_snoc, name_value_means, assoc_setting. destruct (item_means x) as [kx vx] eqn:M. cbn [fst snd]. destruct (String.eqb_spec k kx) as [->|N].
    + split.
      * intros E. injection E as <-. exists l, x, []. split; [reflexivity|]. split; [apply defines_means; exact M|intros i w []].
      * intros (a & i & b & E & D & L). destruct b as [|y b _] using rev_ind; [|rewrite app_comm_cons, app_assoc in E]; apply app_inj_tail in E; destruct E as [_ E].
        -- subst i. apply defines_means in D. congruence.
        -- subst y. destruct (L x vx); [apply in_app_iff; right; left; reflexivity|apply defines_means; exact M].
    + rewrite IH. split.
      * intros (a & i & b & -> & D & L). exists a, i, (b ++ [x])%list. split; [rewrite <- app_assoc; reflexivity|]. split; [exact D|]. intros j w J DJ. apply in_app_iff in J. destruct J as [J|[<-|[]]]; [exact (L j w J DJ)|]. apply defines_means in DJ. congruence.
      * intros (a & i & b & E & D & L). destruct b as [|y b _] using rev_ind; [|rewrite app_comm_cons, app_assoc in E]; apply app_inj_tail in E; destruct E as [E1 E2].
        -- subst i. apply defines_means in D. congruence.
        -- exists a, i, b. split; [exact E1|]. split; [exact D|]. intros j w J. apply L. apply in_app_iff. auto.
Qed.
Lemma last_says_unique : forall l k v w, last_says l k v -> last_says l k w -> v = w.
Proof. intros l k v w A B. apply name_value_iff in A, B. congruence. Qed.
Lemma last_app : forall a b k v, last_says (a ++ b)%list k v <-> last_says b k v \/ (last_says a k v /\ forall i w, In i b -> ~ defines_as i k w).
Proof.
  intros a b k v. revert b. induction b as [|x b IH] using rev_ind.
  - rewrite app_nil_r. split; [intros H; right; split; [exact H|intros i w []]|]. intros [H|[H _]]; [destruct H as (p & i & q & E & _); destruct p; discriminate|exact H].
  - rewrite app_assoc, <- !name_value_iff, !name_value_snoc, !name_value_means, !assoc_setting. destruct (item_means x) as [kx vx] eqn:M. cbn [fst snd]. destruct (String.eqb_spec k kx) as [->|N].
    + split; [auto|]. intros [H|[_ H]]; [exact H|]. destruct (H x vx); [apply in_app_iff; right; left; reflexivity|apply defines_means; exact M].
    + rewrite !name_value_iff, IH. split; (intros [H|[H K]]; [left; exact H|right; split; [exact H|]]).
      * intros i w I D. apply in_app_iff in I. destruct I as [I|[<-|[]]]; [exact (K i w I D)|]. apply defines_means in D. congruence.
      * intros i w I. apply K. apply in_app_iff. auto.
Qed.

Lemma all_digits_iff : forall s, all_digits s = true <-> digit_text s.
Proof.
  unfold digit_text. induction s as [|a s IH]; cbn [all_digits has_char]; [split; [discriminate|reflexivity]|]. rewrite andb_true_iff, digit_iff, IH. split.
  - intros [A S] b H. apply orb_true_iff in H. destruct H as [H|H]; [apply Ascii.eqb_eq in H; subst; exact A|exact (S b H)].
  - intros H. split; [apply H; rewrite Ascii.eqb_refl; reflexivity|]. intros b B. apply H. rewrite B. destruct (Ascii.eqb a b); reflexivity.
Qed.
Lemma digit_no_dot : forall s, digit_text s -> has_char "." s = false.
Proof. intros s H. destruct (has_char "." s) eqn:Q; [|reflexivity]. apply H in Q. vm_compute in Q. intuition congruence. Qed.
Lemma negative_iff : forall s, negative_number s = true <-> negative s.
Proof.
  intros s. unfold negative. split.
  - intros H. destruct s as [|a r]; [discriminate|]. assert (a = "-"%char) as -> by (destruct a as [[] [] [] [] [] [] [] []]; try discriminate H; reflexivity). cbn [negative_number] in H.
    destruct (split1 "." r) as [[x y]|] eqn:S.
    + apply andb_true_iff in H. destruct H as [H D]. apply andb_true_iff in H. destruct H as [H N]. apply split1_Some in S. destruct S as [-> _]. right. exists x, y. split; [reflexivity|]. apply all_digits_iff in H, D. destruct (String.eqb_spec y ""); [discriminate|auto].
    + apply andb_true_iff in H. destruct H as [N D]. left. exists r. split; [reflexivity|]. apply all_digits_iff in D. destruct (String.eqb_spec r ""); [discriminate|auto].
  - intros [(d & -> & N & D)|(d & e & -> & D & N & E)]; cbn [append negative_number].
    + rewrite (proj2 (split1_None "." d) (digit_no_dot d D)). apply all_digits_iff in D. rewrite D. apply String.eqb_neq in N. rewrite N. reflexivity.
    + rewrite (proj2 (split1_Some "." (d ++ String "." e) d e)) by (split; [reflexivity|apply digit_no_dot, D]). apply all_digits_iff in D, E. rewrite D, E. apply String.eqb_neq in N. rewrite N. reflexivity.
Qed.
Lemma value_iff : forall o, takes_value o = true <-> ~ In o switches /\ ~ In o enders.
Proof. intros []; cbn; intuition discriminate. Qed.
Lemma switch_iff : forall o, takes_value o = false -> (In o switches /\ o <> Help /\ o <> Version) \/ o = Help \/ o = Version.
Proof. intros []; cbn; intuition discriminate. Qed.
Lemma other_class : forall w, other_word w <-> w <> "--" /\ (classify w = Word \/ classify w = Unknown).
Proof.
  intros w. split.
  - intros H. pose proof H as (N & _). split; [exact N|]. destruct (classify_sort w N) as (_ & _ & R & P & _). destruct w as [|a [|b w]]; [left; apply P; intros (c & t & E); discriminate|left; apply P; intros (c & t & E); discriminate|].
    destruct (Ascii.eqb_spec a "-") as [->|NA]; [|left; apply P; intros (c & t & E); congruence]. rewrite R; [|exact H|eexists _, _; reflexivity]. unfold residual. destruct (negative_number _); [auto|]. destruct (has_char " " _); auto.
  - intros [N C]. destruct (classify_sort w N) as (O & M & _ & _ & [(o & v & H)|[H|H]]); [rewrite (O o v H) in C; destruct C; discriminate|rewrite (M H) in C; destruct C; discriminate|exact H].
Qed.
Lemma value_class : forall w, value_word w <-> w <> "--" /\ classify w = Word.
Proof.
  intros w. split.
  - intros (H & V). pose proof H as (N & _). split; [exact N|]. destruct (classify_sort w N) as (_ & _ & R & P & _). destruct w as [|a [|b w]]; [apply P; intros (c & t & E); discriminate|apply P; intros (c & t & E); discriminate|].
    destruct (Ascii.eqb_spec a "-") as [->|NA]; [|apply P; intros (c & t & E); congruence]. rewrite R; [|exact H|eexists _, _; reflexivity]. unfold residual. destruct V as [V|[V|V]]; [destruct V; eexists _, _; reflexivity|apply negative_iff in V; rewrite V; reflexivity|]. destruct (negative_number _); [reflexivity|]. rewrite V. reflexivity.
  - intros [N C]. assert (H : other_word w) by (apply other_class; auto). split; [exact H|]. destruct (classify_sort w N) as (_ & _ & R & _). destruct w as [|a [|b w]]; [left; intros (c & t & E); discriminate|left; intros (c & t & E); discriminate|].
    destruct (Ascii.eqb_spec a "-") as [->|NA]; [|left; intros (c & t & E); congruence]. right. rewrite R in C; [|exact H|eexists _, _; reflexivity]. unfold residual in C. destruct (negative_number _) eqn:Q; [left; apply negative_iff; exact Q|]. destruct (has_char " " _) eqn:Q'; [right; reflexivity|discriminate].
Qed.
Lemma option_class : forall w o v, w <> "--" -> (option_word w o v <-> classify w = Known o v).
Proof.
  intros w o v N. destruct (classify_sort w N) as (O & M & R & P & T). split; [apply O|]. intros C. destruct T as [(o' & v' & H)|[H|H]].
  - rewrite (O o' v' H) in C. injection C as <- <-. exact H.
  - rewrite (M H) in C. discriminate.
  - apply other_class in H. destruct H as [_ [H|H]]; congruence.
Qed.
Lemma option_not_dashes : forall w o v, option_word w o v -> w <> "--".
Proof.
  intros w o v H E. destruct H as [c o I|c o a v I NE|c o v I|p o NQ NP A|p o v NQ A]; try discriminate.
  - injection E as ->. exact (short_not_dash _ I).
  - destruct p; [congruence|discriminate].
  - destruct p; discriminate.
Qed.
Theorem parse_iff : forall ws es, parse ws = Some es <-> says ws es.
Proof.
  intros ws es. split.
  - revert ws es. assert (G : forall n ws es, List.length ws <= n -> parse ws = Some es -> says ws es); [|intros ws es; exact (G _ ws es (le_n _))].
    induction n as [|n IH]; intros [|w ws] es L H; try (injection H as <-; constructor); [cbn in L; lia|]. cbn [List.length] in L. cbn [parse] in H.
    destruct (String.eqb_spec w "--") as [->|N]; [injection H as <-; apply sa_rest|]. destruct (classify w) as [|o [v|]| |] eqn:C.
    + apply also_Some in H. destruct H as (es' & H & ->). apply sa_other; [apply other_class; auto|apply IH; [lia|exact H]].
    + destruct (takes_value o) eqn:T; [|discriminate]. apply also_Some in H. destruct H as (es' & H & ->). apply value_iff in T. apply sa_value; [apply option_class; assumption|tauto|tauto|apply IH; [lia|exact H]].
    + destruct (takes_value o) eqn:T.
      * destruct ws as [|v ws]; [discriminate|]. destruct (String.eqb_spec v "--") as [->|NV]; [discriminate|]. destruct (classify v) eqn:CV; try discriminate. apply also_Some in H. destruct H as (es' & H & ->). apply value_iff in T. apply sa_next; [apply option_class; assumption|tauto|tauto|apply value_class; auto|apply IH; [cbn in L; lia|exact H]].
      * destruct (switch_iff o T) as [(S & N1 & N2)|[->| ->]]; try discriminate. assert (H' : also (On o) (parse ws) = Some es) by (destruct o; congruence). apply also_Some in H'. destruct H' as (es' & H' & ->). apply sa_switch; [apply option_class; assumption|exact S|apply IH; [lia|exact H']].
    + apply also_Some in H. destruct H as (es' & H & ->). apply sa_other; [apply other_class; auto|apply IH; [lia|exact H]].
    + discriminate.
  - induction 1 as [|ws|w ws es O H IH|w o v ws es O N1 N2 H IH|w o v ws es O N1 N2 V H IH|w o ws es O S H IH].
    + reflexivity.
    + reflexivity.
    + apply other_class in O. destruct O as [N C]. cbn [parse]. apply String.eqb_neq in N. rewrite N, IH. destruct C as [-> | ->]; reflexivity.
    + pose proof (option_not_dashes _ _ _ O) as N. apply (option_class w o (Some v) N) in O. cbn [parse]. apply String.eqb_neq in N. rewrite N, O, (proj2 (value_iff o) (conj N1 N2)), IH. reflexivity.
    + pose proof (option_not_dashes _ _ _ O) as N. apply (option_class w o None N) in O. apply value_class in V. destruct V as [NV CV]. cbn [parse]. apply String.eqb_neq in N, NV. rewrite N, O, (proj2 (value_iff o) (conj N1 N2)), NV, CV, IH. reflexivity.
    + pose proof (option_not_dashes _ _ _ O) as N. apply (option_class w o None N) in O. cbn [parse]. apply String.eqb_neq in N. rewrite N, O, IH. cbn [switches In] in S. destruct S as [<-|[<-|[<-|[<-|[]]]]]; reflexivity.
Qed.
