(** Expansion of references. *)
From Coq Require Import ZArith DecimalString.
From Verif Require Import Lib LibFacts Str StrFacts Model_Value Model_Text Spec_Text Proof_Text Model_Quote Model_Cond Model_Expand Spec_Expand Proof_Expand.
Local Open Scope string_scope.

Scheme evals_ind2 := Induction for evals Sort Prop with names_ind2 := Induction for names Sort Prop with items_ind2 := Induction for items Sort Prop.
Combined Scheme evals_names_items_ind from evals_ind2, names_ind2, items_ind2.

(** ** Strings with no reference in them *)
Lemma balanced_app : forall a b, balanced a -> balanced b -> balanced (a ++ b).
Proof. intros a b H HB. induction H as [|x s HX H IH|o i c s HP Hi IHi Hs IH]; cbn [append]; [exact HB|constructor; assumption|]. rewrite append_assoc. cbn [append]. constructor; assumption. Qed.
Lemma bracket_pair : forall o c, pair_of_brackets o c -> bracket o /\ bracket c.
Proof. intros o c H. unfold pair_of_brackets in H. cbn in H. destruct H as [E|[E|[E|[]]]]; injection E as <- <-; unfold bracket; cbn; auto 10. Qed.
Lemma map_chars_app : forall f a b, map_chars f (a ++ b) = map_chars f a ++ map_chars f b.
Proof. intros f a b. induction a as [|x a IH]; [reflexivity|]. cbn [append map_chars]. rewrite IH. apps. reflexivity. Qed.
Lemma escape_bracket : forall a, bracket a -> escape_char a = String a "".
Proof. intros a H. unfold bracket in H. cbn in H. repeat (destruct H as [<-|H]; [reflexivity|]). destruct H. Qed.
Lemma balanced_escape : forall s, balanced s -> balanced (map_chars escape_char s).
Proof.
  intros s H. induction H as [|x s HX H IH|o i c s HP Hi IHi Hs IH]; cbn [map_chars]; [constructor| |].
  - apply balanced_app; [|exact IH]. unfold escape_char. destruct (_ || _)%bool; unfold str1; repeat constructor; try exact HX. unfold bracket, backslash. cbn. intuition discriminate.
  - rewrite map_chars_app. cbn [map_chars]. destruct (bracket_pair o c HP) as [B1 B2]. rewrite (escape_bracket o B1), (escape_bracket c B2). cbn [append]. constructor; assumption.
Qed.
Lemma escape_chars : forall s a, has_char a (map_chars escape_char s) = true -> has_char a s = true \/ a = backslash.
Proof.
  induction s as [|b s IH]; intros a H; cbn [map_chars] in H; [discriminate|]. rewrite has_char_app in H. apply orb_prop in H. cbn [has_char]. destruct H as [H|H].
  - unfold escape_char, str1 in H. destruct (_ || _)%bool; cbn [has_char] in H.
    + destruct (Ascii.eqb_spec backslash a) as [E|]; [right; symmetry; exact E|]. destruct (Ascii.eqb b a); [auto|discriminate].
    + destruct (Ascii.eqb b a); [auto|discriminate].
  - destruct (Ascii.eqb b a); [auto|]. apply IH, H.
Qed.

Section WithSymbol.
Variable symbol : ascii.
Hypothesis Hsym : phase_symbol symbol.
Notation render := (render symbol).

Definition quiet (i : bool) (s : string) : Prop := has_char symbol s = false /\ (i = true -> balanced s /\ has_char newline_char s = false).
Lemma quiet_app : forall i a b, quiet i a -> quiet i b -> quiet i (a ++ b).
Proof.
  intros i a b [A1 A2] [B1 B2]. split; [rewrite has_char_app, A1, B1; reflexivity|]. intros E. destruct (A2 E) as [A3 A4]. destruct (B2 E) as [B3 B4]. split; [apply balanced_app; assumption|]. rewrite has_char_app, A4, B4. reflexivity.
Qed.
Lemma quiet_nil : forall i, quiet i "".
Proof. intros i. split; [reflexivity|]. intros _. split; [constructor|reflexivity]. Qed.
Lemma quiet_char : forall i a, plain symbol i a -> quiet i (String a "").
Proof.
  intros i a [HS HI]. split; cbn [has_char]; [destruct (Ascii.eqb_spec a symbol); [contradiction|reflexivity]|]. intros E. destruct (HI E) as [HB HN]. split; [repeat constructor; assumption|]. destruct (Ascii.eqb_spec a newline_char); [contradiction|reflexivity].
Qed.
Lemma quiet_group : forall i o c s1, pair_of_brackets o c -> quiet i s1 -> quiet i (String o (s1 ++ String c "")).
Proof.
  intros i o c s1 HP [A1 A2]. destruct (pair_facts symbol Hsym o c HP) as (_ & _ & _ & So & Sc & _ & N1 & N2 & _). split.
  - cbn [has_char]. destruct (Ascii.eqb_spec o symbol); [contradiction|]. rewrite has_char_app, A1. cbn [has_char orb]. destruct (Ascii.eqb_spec c symbol); [contradiction|reflexivity].
  - intros E. destruct (A2 E) as [A3 A4]. split; [constructor; [exact HP|exact A3|constructor]|]. cbn [has_char]. destruct (Ascii.eqb_spec o newline_char); [contradiction|]. rewrite has_char_app, A4. cbn [has_char orb]. destruct (Ascii.eqb_spec c newline_char); [contradiction|reflexivity].
Qed.
Lemma plain_misc : forall i, plain symbol i dquote /\ plain symbol i backslash /\ plain symbol i " ".
Proof. intros i. unfold plain, bracket. cbn. destruct Hsym as [->|[->| ->]]; (repeat split; try discriminate; intuition discriminate). Qed.
Lemma quiet_argument : forall i s, quiet i s -> quiet i (encode_posix_shell_argument s).
Proof.
  intros i s [A1 A2]. destruct (plain_misc i) as (Q & B & _). unfold encode_posix_shell_argument.
  assert (M : quiet i (map_chars escape_char s)).
  { split; [destruct (has_char symbol (map_chars escape_char s)) eqn:E; [|reflexivity]; apply escape_chars in E; destruct E as [E|E]; [congruence|]; exfalso; destruct B as [B _]; congruence|]. intros E. destruct (A2 E) as [A3 A4]. split; [apply balanced_escape, A3|].
    destruct (has_char newline_char (map_chars escape_char s)) eqn:E2; [|reflexivity]. apply escape_chars in E2. destruct E2 as [E2|E2]; [congruence|discriminate]. }
  destruct (needs_quote s); cbn [append]; [|rewrite append_nil_r; exact M]. apply (quiet_app i (str1 dquote)); [apply quiet_char, Q|]. apply quiet_app; [exact M|apply quiet_char, Q].
Qed.
Lemma quiet_encode : forall i l, Forall (quiet i) l -> quiet i (encode_posix_shell_list l).
Proof.
  intros i l H. unfold encode_posix_shell_list. induction H as [|s l HS H IH]; cbn [map]; [apply quiet_nil|]. unfold join_with in *. destruct l as [|s2 l]; cbn [map String.concat] in *; [apply quiet_argument, HS|].
  apply quiet_app; [apply quiet_argument, HS|]. apply quiet_app; [apply quiet_char, plain_misc|exact IH].
Qed.

Section Meaning.
Variable vars : dict.
Variable command : option string -> bool -> string -> result string.
Notation evals := (evals symbol vars command).
Notation items := (items symbol vars command).
Notation names := (names symbol vars command).

Lemma evals_quiet : (forall i t s n, evals i t s n -> quiet i s) /\ (forall nm name key k, names nm name key k -> True) /\ (forall i l ss n, items i l ss n -> Forall (quiet i) ss).
Proof.
  apply evals_names_items_ind; intros; auto.
  - apply quiet_nil.
  - apply (quiet_app i (String a "") s); [apply quiet_char; assumption|assumption].
  - change (String o (s1 ++ String c s2)) with (String o "" ++ s1 ++ String c "" ++ s2). replace (String o "" ++ s1 ++ String c "" ++ s2) with (String o (s1 ++ String c "") ++ s2) by (cbn [append]; rewrite append_assoc; reflexivity). apply quiet_app; [apply quiet_group; assumption|assumption].
  - apply quiet_app; assumption.
  - apply quiet_app; [apply quiet_encode; assumption|assumption].
  - apply quiet_app; assumption.
Qed.
Lemma quiet_evals : forall i s, quiet i s -> exists t, render t = s /\ evals i t s 0.
Proof.
  intros i s [A1 A2]. destruct i.
  - destruct (A2 eq_refl) as [B N]. clear A2. induction B as [|x s HX B IH|o u c s HP Hu IHu Hs IH].
    + exists Stop. split; [reflexivity|constructor].
    + cbn [has_char] in A1, N. destruct (Ascii.eqb_spec x symbol); [discriminate|]. destruct (Ascii.eqb_spec x newline_char); [discriminate|]. destruct (IH A1 N) as (t & R & E). exists (Lit x t). split; [cbn; rewrite R; reflexivity|]. constructor; [split; auto|exact E].
    + cbn [has_char] in A1, N. destruct (Ascii.eqb o symbol); [discriminate|]. destruct (Ascii.eqb o newline_char); [discriminate|]. rewrite has_char_app in A1, N. apply orb_false_iff in A1, N. destruct A1 as [A1 A1'], N as [N N']. cbn [has_char] in A1', N'. destruct (Ascii.eqb c symbol); [discriminate|]. destruct (Ascii.eqb c newline_char); [discriminate|].
      destruct (IHu A1 N) as (t1 & R1 & E1). destruct (IH A1' N') as (t2 & R2 & E2). exists (Group o c t1 t2). split; [cbn; rewrite R1, R2; reflexivity|]. apply (e_group _ _ _ true o c t1 t2 u s 0 0); assumption.
  - clear A2. exists (lits s). split; [apply render_lits|]. induction s as [|a s IH]; [constructor|]. cbn [has_char] in A1. destruct (Ascii.eqb_spec a symbol); [discriminate|]. cbn [lits]. constructor; [split; [assumption|discriminate]|apply IH, A1].
Qed.
Lemma evals_wf : forall i t s n, evals i t s n -> well_formed symbol i t.
Proof.
  apply (evals_ind2 symbol vars command (fun i t s n _ => well_formed symbol i t) (fun nm name key k _ => well_formed symbol true nm) (fun i l ss n _ => True)); intros; try constructor; assumption.
Qed.
Lemma evals_lits : forall i x s n, evals i (lits x) s n -> s = x.
Proof. intros i x. induction x as [|a x IH]; intros s n H; inversion H; subst; [reflexivity|]. f_equal. eapply IH. eassumption. Qed.
Lemma evals_app : forall i t u s1 s2 m n, evals i t s1 m -> evals i u s2 n -> evals i (tapp t u) (s1 ++ s2) (m + n).
Proof.
  intros i t u s1 s2 m n H HU. revert s1 m H. induction t as [|a r IH|o c t IHt r IH|run nm IHn r IH]; intros s1 m H; inversion H; subst; cbn [tapp append].
  - exact HU.
  - constructor; auto.
  - rewrite append_assoc. cbn [append]. rewrite <- Nat.add_assoc. constructor; auto.
  - rewrite append_assoc. cbn [Nat.add]. rewrite <- Nat.add_assoc. eapply e_ref; eauto.
  - rewrite append_assoc. cbn [Nat.add]. rewrite <- Nat.add_assoc. eapply e_ref_list; eauto.
  - cbn [Nat.add]. rewrite <- Nat.add_assoc. eapply e_missing; eauto.
  - rewrite append_assoc. cbn [Nat.add]. rewrite <- Nat.add_assoc. eapply e_run; eauto.
Qed.
Lemma evals_no_symbol : forall i t s n, evals i t s n -> has_char symbol (render t) = false -> s = render t.
Proof.
  intros i t. induction t as [|a r IH|o c t IHt r IH|run nm IHn r IH]; intros s n H E; cbn [Spec_Expand.render has_char] in *.
  - inversion H; reflexivity.
  - inversion H; subst. destruct (Ascii.eqb a symbol); [discriminate|]. f_equal. eapply IH; eassumption.
  - inversion H; subst. destruct (Ascii.eqb o symbol); [discriminate|]. rewrite has_char_app in E. apply orb_false_iff in E. destruct E as [E1 E2]. cbn [has_char] in E2. destruct (Ascii.eqb c symbol); [discriminate|]. erewrite (IHt s1), (IH s2) by eassumption. reflexivity.
  - rewrite Ascii.eqb_refl in E. discriminate.
Qed.

(** ** One round *)
Section Round.
Variable list_file : list string -> result string.
Variable filters : dict -> result dict.
Variable repr : value -> string.
Variable shlex : string -> result (list string).
Variable rec : dict -> value -> result value.
Variable recl : list value -> result (list value).
Variable N : nat.
Hypothesis rec_ok : forall i t s n, evals i t s n -> n < N -> rec vars (VStr (render t)) = Val (as_value s).
Hypothesis recl_ok : forall i l ss n, items i l ss n -> n < N -> recl l = Val (map as_value ss).
Notation RA := (replace_all command list_file filters repr shlex rec recl vars).
Notation RO := (replacement_of command list_file filters rec recl vars).

Lemma items_scalar : forall i l ss n, items i l ss n -> forallb is_scalar l = true.
Proof.
  intros i l. induction l as [|v l IH]; intros ss n H; [reflexivity|]. inversion H; subst. cbn [forallb]. erewrite IH by eassumption. match goal with HX : text_of _ v _ |- _ => inversion HX; reflexivity end.
Qed.
Lemma name_strip : forall nm name key k, evals true nm name k -> ~ canonical_shape name -> trimmed name key -> k < N -> rec vars (VStr (render nm)) = Val (VStr name) /\ strip name = key.
Proof.
  intros nm name key k H HC HT HK. split; [|apply trimmed_strip; assumption]. erewrite rec_ok by eassumption. unfold as_value. destruct (is_str_canonical_int name) eqn:E; [apply canonical_iff_shape in E; contradiction|reflexivity].
Qed.
Lemma last_char_app : forall u a, last_char (u ++ String a "") = Some a.
Proof. induction u as [|x u IH]; intros a; [reflexivity|]. cbn [append]. specialize (IH a). destruct (u ++ String a "") eqn:E; [destruct u; discriminate|]. exact IH. Qed.
(** what replaces a reference: the text of a template that stands for the same *)
Definition text_for (v : value) : string := match v with VList l => encode_posix_shell_list (map (py_str repr) l) | _ => py_str repr v end.
Lemma replacement : forall i run nm r s n arr pos, evals i (Ref run nm r) s n -> n <= N -> (arr = true <-> list_command (render nm)) ->
  exists name k v tv val m s2 n2, evals true nm name k /\ k < n /\ (forall nm' k', evals true nm' name k' -> k' < N -> RO (reference run arr pos) (render nm') = Val v) /\ text_for v = render tv /\ evals i tv val m /\ evals i r s2 n2 /\ s = val ++ s2 /\ m + n2 < n.
Proof.
  intros i run nm r s n arr pos H HN HA. inversion H; subst.
  - match goal with HX : names _ _ _ _ |- _ => inversion HX; subst end. exists name, k, v, tv, val, m, s0, n0. split; [assumption|]. split; [lia|]. split; [|repeat split; [|assumption|assumption|lia]].
    + intros nm' k' HX1 HX2. destruct (name_strip nm' name key k' HX1 ltac:(assumption) ltac:(assumption) HX2) as [A B]. unfold replacement_of, reference. cbn [bar bang star Model_Expand.cmd array]. rewrite A. cbn [rbind]. rewrite B. match goal with HX : assoc key vars = Some _ |- _ => rewrite HX end. cbn [rbind]. match goal with HX : text_of _ v _ |- _ => inversion HX; reflexivity end.
    + match goal with HX : text_of _ v _ |- _ => inversion HX; subst; cbn; [reflexivity|] end. rewrite render_lits. reflexivity.
  - assert (HL : items i l vals m) by assumption. pose proof (proj2 (proj2 evals_quiet) _ _ _ _ HL) as HQ. destruct (quiet_evals i _ (quiet_encode i vals HQ)) as (tv & R & E).
    match goal with HX : names _ _ _ _ |- _ => inversion HX; subst end. exists name, k, (VList (map as_value vals)), tv, (encode_posix_shell_list vals), 0, s0, n0. split; [assumption|]. split; [lia|]. split; [|repeat split; [|assumption|assumption|lia]].
    + intros nm' k' HX1 HX2. destruct (name_strip nm' name key k' HX1 ltac:(assumption) ltac:(assumption) HX2) as [A B]. unfold replacement_of, reference. cbn [bar bang star Model_Expand.cmd array]. rewrite A. cbn [rbind]. rewrite B. match goal with HX : assoc key vars = Some _ |- _ => rewrite HX end. cbn [rbind].
      assert (C : check_items key l = Val tt). { unfold check_items. rewrite (items_scalar _ _ _ _ HL). destruct l; [reflexivity|]. destruct key as [|b key]; [congruence|]. destruct (last_char (String b key)) eqn:EL; [rewrite orb_true_r; reflexivity|]. exfalso. clear - EL. revert b EL. induction key as [|x key IH]; intros b EL; [discriminate|]. apply (IH x). exact EL. }
      rewrite C. cbn [rbind]. rewrite (recl_ok _ _ _ _ HL) by lia. reflexivity.
    + cbn [text_for]. rewrite R, map_map. f_equal. rewrite (map_ext _ (fun x => x)) by (intros x; apply py_str_as_value). apply map_id.
  - match goal with HX : names _ _ _ _ |- _ => inversion HX; subst end. exists name, k, (VList []), Stop, "", 0. eexists _, _. split; [eassumption|]. split; [lia|]. split; [|repeat split; [constructor|eassumption|lia]].
    intros nm' k' HX1 HX2. destruct (name_strip nm' name key k' HX1 ltac:(assumption) ltac:(assumption) HX2) as [A B]. unfold replacement_of, reference. cbn [bar bang star Model_Expand.cmd array]. rewrite A. cbn [rbind]. rewrite B. match goal with HX : assoc key vars = None |- _ => rewrite HX end.
    match goal with HX : exists u, _ |- _ => destruct HX as [u HU] end. destruct HU as [-> | ->]; rewrite last_char_app; cbn; (rewrite (recl_ok i [] [] 0 (i_nil _ _ _ i)) by lia); reflexivity.
  - match goal with HX : names _ _ _ _ |- _ => inversion HX; subst end. exists name, k, (VStr (render tv)), tv, val, m, s0, n0. split; [assumption|]. split; [lia|]. split; [|repeat split; [assumption|assumption|lia]].
    intros nm' k' HX1 HX2. destruct (name_strip nm' name key k' HX1 ltac:(assumption) ltac:(assumption) HX2) as [A B]. unfold replacement_of, reference. cbn [bar bang star Model_Expand.cmd array]. rewrite A. cbn [rbind]. rewrite B.
    assert (Eb : arr = b) by (destruct arr, b; intuition congruence). rewrite Eb. match goal with HX : command None b key = _ |- _ => rewrite HX end. reflexivity.
Qed.

Lemma ra_ref : forall run arr nm P T rest v, well_formed symbol true nm -> RO (reference run arr (String.length P)) (render nm) = Val v ->
  RA (reference run arr (String.length P) :: rest) (P ++ String symbol (mark run ++ render nm ++ String ")" T)) = RA rest (P ++ text_for v ++ T).
Proof.
  intros run arr nm P T rest v HW HR. cbn [replace_all]. change (at_ (reference run arr (String.length P))) with (String.length P). rewrite slice_from by reflexivity. rewrite group_ref by assumption.
  assert (E1 : P ++ String symbol (mark run ++ render nm ++ String ")" T) = (P ++ String symbol (mark run)) ++ render nm ++ String ")" T) by (apps; reflexivity).
  assert (E2 : P ++ String symbol (mark run ++ render nm ++ String ")" T) = (P ++ String symbol (mark run ++ render nm ++ ")")) ++ T) by (apps; reflexivity).
  rewrite E1 at 1. rewrite slice_mid; [|rewrite length_app; cbn [String.length]; lia|rewrite length_app; cbn [String.length]; unfold len; lia]. rewrite HR. cbn [rbind star reference andb].
  rewrite E2 at 2. rewrite slice_from; [|rewrite !length_app; cbn [String.length]; rewrite !length_app; cbn [String.length]; unfold len; lia].
  pose proof (slice_mid "" P (String symbol (mark run ++ render nm ++ String ")" T)) 0%Z (Z.of_nat (String.length P)) eq_refl eq_refl) as E3. cbn [append] in E3. rewrite E3. reflexivity.
Qed.

Definition same_head (s s' : string) : Prop := match s, s' with String a _, String b _ => a = b | EmptyString, EmptyString => True | _, _ => False end.
Lemma same_head_list : forall s s', same_head s s' -> (list_command s <-> list_command s').
Proof. intros [|a s] [|b s'] H; cbn in H; try tauto. subst b. unfold list_command. split; intros (x & r & E & W); injection E as <- <-; eauto. Qed.

Lemma round : forall t b pos ms, marks symbol b pos t ms -> forall i s n, evals i t s n -> n <= N -> exists t' n', evals i t' s n' /\ n' <= n /\ (ms <> [] -> n' < n) /\ (ms = [] -> b = true -> s = render t) /\ (b = false -> same_head (render t) (render t')) /\
  (forall P T rest, String.length P = pos -> RA (rev ms ++ rest) (P ++ render t ++ T) = RA rest (P ++ render t' ++ T)).
Proof.
  induction 1 as [b pos|b pos a r ms M IH|b pos o c t r ms1 ms2 M1 IH1 M2 IH2|pos run nm r arr ms1 ms2 HA M1 IH1 M2 IH2|pos run nm r ms1 ms2 M1 IH1 M2 IH2]; intros i s n H HN.
  - inversion H; subst. exists Stop, 0. repeat split; auto; congruence.
  - inversion H; subst. destruct (IH _ _ _ H6 HN) as (t' & n' & E & L & S & Q & _ & C). exists (Lit a t'), n'. split; [constructor; assumption|]. split; [exact L|]. split; [exact S|]. split; [intros X Y; cbn; rewrite (Q X Y); reflexivity|]. split; [intros _; reflexivity|].
    intros P T rest HP. cbn [Spec_Expand.render append]. replace (P ++ String a (render r ++ T)) with ((P ++ String a "") ++ render r ++ T) by (apps; reflexivity). rewrite C by (rewrite length_app; cbn [String.length]; lia). apps. reflexivity.
  - inversion H; subst. destruct (IH1 _ _ _ H8 ltac:(lia)) as (t1 & n1 & E1 & L1 & S1 & Q1 & _ & C1). destruct (IH2 _ _ _ H9 ltac:(lia)) as (t2 & n2 & E2 & L2 & S2 & Q2 & _ & C2).
    exists (Group o c t1 t2), (n1 + n2). split; [constructor; assumption|]. split; [lia|]. split.
    { intros X. destruct ms1; [destruct ms2; [contradiction|]; specialize (S2 ltac:(discriminate)); lia|]. specialize (S1 ltac:(discriminate)). lia. }
    split. { intros X Y. apply app_eq_nil in X. destruct X as [X1 X2]. subst b. cbn. rewrite (Q1 X1 eq_refl), (Q2 X2 eq_refl). reflexivity. }
    split; [intros _; reflexivity|]. intros P T rest HP. rewrite rev_app_distr, <- app_assoc. cbn [Spec_Expand.render append].
    replace (P ++ String o ((render t ++ String c (render r)) ++ T)) with ((P ++ String o (render t ++ String c "")) ++ render r ++ T) by (apps; reflexivity).
    rewrite C2 by (rewrite !length_app; cbn [String.length]; rewrite !length_app; cbn [String.length]; unfold len; lia).
    replace ((P ++ String o (render t ++ String c "")) ++ render t2 ++ T) with ((P ++ String o "") ++ render t ++ (String c (render t2 ++ T))) by (apps; reflexivity).
    rewrite C1 by (rewrite length_app; cbn [String.length]; lia). apps. reflexivity.
  - destruct (replacement i run nm r s n arr pos H HN HA) as (name & k & v & tv & val & m & s2 & n2 & HE & HK & HRO & HT & ET & ER & -> & HM).
    destruct (IH2 _ _ _ ER ltac:(lia)) as (r' & n2' & E2 & L2 & _ & _ & _ & C2).
    destruct (IH1 _ _ _ HE ltac:(lia)) as (nm' & k' & E1 & L1 & _ & _ & _ & C1).
    exists (tapp tv r'), (m + n2'). split; [apply evals_app; assumption|]. split; [lia|]. split; [intros _; lia|]. split; [discriminate|]. split; [discriminate|].
    intros P T rest HP. cbn [rev]. rewrite rev_app_distr, <- !app_assoc. cbn [Spec_Expand.render append].
    replace (P ++ String symbol ((mark run ++ render nm ++ String ")" (render r)) ++ T)) with ((P ++ String symbol (mark run ++ render nm ++ ")")) ++ render r ++ T) by (apps; reflexivity).
    rewrite C2 by (rewrite !length_app; cbn [String.length]; rewrite !length_app; cbn [String.length]; unfold len; lia).
    replace ((P ++ String symbol (mark run ++ render nm ++ ")")) ++ render r' ++ T) with ((P ++ String symbol (mark run)) ++ render nm ++ String ")" (render r' ++ T)) by (apps; reflexivity).
    rewrite C1 by (rewrite length_app; cbn [String.length]; lia). cbn [app].
    replace ((P ++ String symbol (mark run)) ++ render nm' ++ String ")" (render r' ++ T)) with (P ++ String symbol (mark run ++ render nm' ++ String ")" (render r' ++ T))) by (apps; reflexivity).
    subst pos. rewrite (ra_ref run arr nm' P (render r' ++ T) rest v).
    + rewrite HT, render_app. apps. reflexivity.
    + eapply evals_wf. exact E1.
    + apply (HRO nm' k'); [exact E1|lia].
  - assert (Main : exists name k s2 n2, evals true nm name k /\ k < n /\ evals i r s2 n2 /\ n2 < n /\ forall nm' k' r' n', evals true nm' name k' -> k' <= k -> same_head (render nm) (render nm') -> evals i r' s2 n' -> n' <= n2 -> exists n3, n3 <= n /\ evals i (Ref run nm' r') s n3 /\ (k' < k \/ n' < n2 -> n3 < n)).
    { inversion H; subst; match goal with HX : names _ _ _ _ |- _ => inversion HX; subst end; exists name, k; eexists _, _; (split; [assumption|]); (split; [lia|]); (split; [eassumption|]); (split; [lia|]); intros nm' k' r' n' X1 X2 X3 X4 X5; first [exists (S (k' + m + n')) | exists (S (k' + n'))]; (split; [lia|]); (split; [|lia]).
      - eapply e_ref; [constructor; eassumption|eassumption..].
      - eapply e_ref_list; [constructor; eassumption|eassumption..].
      - eapply e_missing; [constructor; eassumption|eassumption..].
      - eapply e_run; [constructor; eassumption| |eassumption..]. rewrite <- (same_head_list _ _ X3). assumption. }
    destruct Main as (name & k & s2 & n2 & HE & HK & ER & HN2 & HM). destruct (IH1 _ _ _ HE ltac:(lia)) as (nm' & k' & E1 & L1 & S1 & _ & HH & C1). destruct (IH2 _ _ _ ER ltac:(lia)) as (r' & n' & E2 & L2 & S2 & _ & _ & C2).
    destruct (HM nm' k' r' n' E1 L1 (HH eq_refl) E2 L2) as (n3 & L3 & E3 & S3). exists (Ref run nm' r'), n3. split; [exact E3|]. split; [exact L3|]. split.
    { intros X. apply S3. destruct ms1; [right; apply S2; intros Y; apply X; rewrite Y; reflexivity|left; apply S1; discriminate]. }
    split; [discriminate|]. split; [intros _; reflexivity|]. intros P T rest HP. rewrite rev_app_distr, <- app_assoc. cbn [Spec_Expand.render append].
    replace (P ++ String symbol ((mark run ++ render nm ++ String ")" (render r)) ++ T)) with ((P ++ String symbol (mark run ++ render nm ++ ")")) ++ render r ++ T) by (apps; reflexivity).
    rewrite C2 by (rewrite !length_app; cbn [String.length]; rewrite !length_app; cbn [String.length]; unfold len; lia).
    replace ((P ++ String symbol (mark run ++ render nm ++ ")")) ++ render r' ++ T) with ((P ++ String symbol (mark run)) ++ render nm ++ String ")" (render r' ++ T)) by (apps; reflexivity).
    rewrite C1 by (rewrite length_app; cbn [String.length]; lia). apps. reflexivity.
Qed.
End Round.
End Meaning.
End WithSymbol.
