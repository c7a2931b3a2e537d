(** Proofs about variable expansion. *)
From Coq Require Import ZArith DecimalString.
From Verif Require Import Lib LibFacts Str StrFacts Model_Value Model_Text Spec_Text Proof_Text Model_Quote Model_Cond Model_Expand Spec_Expand.
Local Open Scope string_scope.

(** ** Strings *)
Lemma length_app : forall a b, String.length (a ++ b) = String.length a + String.length b.
Proof. induction a as [|x a IH]; intros b; cbn; [reflexivity|]. rewrite IH. reflexivity. Qed.
Lemma substring_all : forall s, substring 0 (String.length s) s = s.
Proof. induction s as [|a s IH]; [reflexivity|]. cbn. rewrite IH. reflexivity. Qed.
Lemma substring_skip : forall p s n, substring (String.length p) n (p ++ s) = substring 0 n s.
Proof. induction p as [|a p IH]; intros s n; [reflexivity|]. cbn. apply IH. Qed.
Lemma substring_take : forall s t, substring 0 (String.length s) (s ++ t) = s.
Proof. induction s as [|a s IH]; intros t; cbn; [destruct t; reflexivity|]. rewrite IH. reflexivity. Qed.
Lemma slice_mid : forall p s t i j, i = Z.of_nat (String.length p) -> j = Z.of_nat (String.length p + String.length s) -> py_slice (p ++ s ++ t) i j = s.
Proof.
  intros p s t i j -> ->. unfold py_slice, clamp. rewrite !length_app.
  destruct (Z.ltb_spec (Z.of_nat (String.length p)) 0); [lia|]. destruct (Z.ltb_spec (Z.of_nat (String.length p + String.length s)) 0); [lia|].
  rewrite !Z.min_l by lia. rewrite Nat2Z.id. replace (Z.to_nat _) with (String.length s) by lia. rewrite substring_skip. apply substring_take.
Qed.
Lemma slice_from : forall p s i, i = Z.of_nat (String.length p) -> py_from (p ++ s) i = s.
Proof. intros p s i ->. unfold py_from. pose proof (slice_mid p s "" (Z.of_nat (String.length p)) (Z.of_nat (String.length (p ++ s))) eq_refl) as H. rewrite append_nil_r in H. apply H. rewrite length_app. reflexivity. Qed.

(** ** Integers *)
Lemma as_value_spec : forall s, value_of s (as_value s).
Proof.
  intros s. unfold as_value, value_of. destruct (is_str_canonical_int s) eqn:E.
  - left. split; [apply canonical_iff_shape, E|]. apply canonical_round_trip in E. destruct E as (z & HR & _). exists z. split; [exact HR|]. unfold reads_as, int_of in *. destruct (NilZero.int_of_string s); cbn in HR; [injection HR as <-; reflexivity|discriminate].
  - right. split; [|reflexivity]. intros X. apply canonical_iff_shape in X. congruence.
Qed.
Lemma value_of_unique : forall s v, value_of s v -> v = as_value s.
Proof.
  intros s v H. pose proof (as_value_spec s) as H'. destruct H as [(C & z & R & ->)|(C & ->)]; destruct H' as [(C' & z' & R' & E)|(C' & E)]; try contradiction; rewrite E; [|reflexivity]. unfold reads_as in *. congruence.
Qed.
Lemma py_str_as_value : forall repr s, py_str repr (as_value s) = s.
Proof.
  intros repr s. unfold as_value. destruct (is_str_canonical_int s) eqn:E; [|reflexivity]. apply canonical_round_trip in E. destruct E as (z & HR & <-). cbn [py_str]. unfold int_of, reads_as in *. destruct (NilZero.int_of_string (rendering z)); [cbn in HR; injection HR as <-; reflexivity|discriminate].
Qed.
Lemma canonical_as_value : forall s, canonical (as_value s) = as_value s.
Proof. intros s. unfold as_value. destruct (is_str_canonical_int s) eqn:E; [reflexivity|]. cbn [canonical]. unfold as_value. rewrite E. reflexivity. Qed.
Lemma shape_chars : forall s a, canonical_shape s -> has_char a s = true -> a = "-"%char \/ digit a.
Proof.
  intros s a [->|(sign & b & rest & -> & HS & Hb & _ & HD)] H.
  - cbn [has_char] in H. destruct (Ascii.eqb_spec "0" a) as [E|]; [subst a; right; left; reflexivity|discriminate].
  - rewrite has_char_app in H. apply orb_prop in H. destruct H as [H|H].
    + destruct HS as [<-|[<-|[]]]; cbn [has_char] in H; [discriminate|]. destruct (Ascii.eqb_spec "-" a) as [E|]; [auto|discriminate].
    + cbn [has_char] in H. destruct (Ascii.eqb_spec b a) as [<-|]; [auto|]. right. clear - HD H. induction HD as [|x s HX HD IH]; cbn in H; [discriminate|]. destruct (Ascii.eqb_spec x a) as [<-|]; auto.
Qed.

(** ** Trimming *)
Lemma is_space_iff : forall a, is_space a = true <-> white_char a.
Proof. intros a. unfold is_space, white_char. rewrite orb_true_iff, !andb_true_iff, !N.leb_le. tauto. Qed.
Lemma lstrip_white : forall w s, (forall a, has_char a w = true -> white_char a) -> lstrip_ws (w ++ s) = lstrip_ws s.
Proof.
  induction w as [|a w IH]; intros s H; [reflexivity|]. cbn [append lstrip_ws]. assert (X : is_space a = true) by (apply is_space_iff, H; cbn; rewrite Ascii.eqb_refl; reflexivity). rewrite X. apply IH. intros b Hb. apply H. cbn. rewrite Hb. destruct (Ascii.eqb a b); reflexivity.
Qed.
Lemma rstrip_white : forall w, (forall a, has_char a w = true -> white_char a) -> rstrip_ws w = "".
Proof.
  induction w as [|a w IH]; intros H; [reflexivity|]. cbn [rstrip_ws]. rewrite IH by (intros b Hb; apply H; cbn; rewrite Hb; destruct (Ascii.eqb a b); reflexivity). assert (X : is_space a = true) by (apply is_space_iff, H; cbn; rewrite Ascii.eqb_refl; reflexivity). rewrite X. reflexivity.
Qed.
Lemma rstrip_stop : forall s a w, ~ white_char a -> (forall b, has_char b w = true -> white_char b) -> rstrip_ws (s ++ String a w) = s ++ String a "".
Proof.
  intros s a w Ha W. induction s as [|b s IH]; cbn [append rstrip_ws].
  - rewrite rstrip_white by exact W. destruct (is_space a) eqn:E; [apply is_space_iff in E; contradiction|reflexivity].
  - rewrite IH. destruct (s ++ String a "") eqn:E; [destruct s; discriminate|reflexivity].
Qed.
Lemma snoc_case : forall s, s = "" \/ exists u a, s = u ++ String a "".
Proof. induction s as [|b s [->|(u & a & ->)]]; [left; reflexivity|right; exists "", b; reflexivity|right; exists (String b u), a; reflexivity]. Qed.
Lemma trimmed_strip : forall s t, trimmed s t -> strip s = t.
Proof.
  intros s t (w1 & w2 & -> & HW & HF & HL). unfold strip. rewrite lstrip_white by (intros a H; apply HW; left; exact H). destruct t as [|a t].
  - cbn [append]. assert (X : forall w, (forall a, has_char a w = true -> white_char a) -> lstrip_ws w = "") by (intros w H; rewrite <- (append_nil_r w), lstrip_white by exact H; reflexivity). rewrite X by (intros a H; apply HW; right; exact H). reflexivity.
  - cbn [append lstrip_ws]. destruct (is_space a) eqn:E; [apply is_space_iff in E; exfalso; apply (HF a t eq_refl E)|]. destruct (snoc_case (String a t)) as [X|(u & b & X)]; [discriminate|].
    change (String a (t ++ w2)) with (String a t ++ w2). rewrite X, append_assoc. cbn [append]. apply rstrip_stop; [apply (HL b u X)|]. intros c H. apply HW. right. exact H.
Qed.

(** ** The phases' symbols *)
Definition phase_symbol (a : ascii) : Prop := a = "<"%char \/ a = ">"%char \/ a = "^"%char.
Ltac apps := repeat first [rewrite append_assoc | progress cbn [append]].
Section WithSymbol.
Variable symbol : ascii.
Hypothesis Hsym : phase_symbol symbol.
Notation render := (render symbol).

Lemma symbol_not_bracket : ~ bracket symbol /\ symbol <> newline_char /\ is_space symbol = false.
Proof. unfold bracket. cbn. destruct Hsym as [->|[->| ->]]; (split; [intuition discriminate|split; [discriminate|reflexivity]]). Qed.
Lemma canonical_no_symbol : forall s, is_str_canonical_int s = true -> has_char symbol s = false.
Proof.
  intros s H. apply canonical_iff_shape in H. destruct (has_char symbol s) eqn:E; [|reflexivity]. exfalso. apply (shape_chars _ _ H) in E. unfold digit in E. cbn in E. destruct Hsym as [->|[->| ->]]; intuition discriminate.
Qed.

Definition len (t : template) : nat := String.length (render t).
Lemma pair_facts : forall o c, pair_of_brackets o c -> is_open o = true /\ is_open c = false /\ opener c = Some o /\ o <> symbol /\ c <> symbol /\ o <> ")"%char /\ o <> newline_char /\ c <> newline_char /\ is_space o = false.
Proof.
  intros o c H. unfold pair_of_brackets in H. cbn in H.
  destruct H as [E|[E|[E|[]]]]; injection E as <- <-; (repeat split; try reflexivity; try discriminate; destruct Hsym as [->|[->| ->]]; discriminate).
Qed.
Lemma symbol_scan : is_open symbol = false /\ opener symbol = None.
Proof. destruct Hsym as [->|[->| ->]]; split; reflexivity. Qed.
Lemma plain_scan : forall a, plain symbol true a -> is_open a = false /\ opener a = None /\ a <> ")"%char /\ a <> newline_char /\ a <> "["%char.
Proof.
  intros a [HS HI]. destruct (HI eq_refl) as [HB HN]. unfold bracket in HB. cbn in HB. unfold is_open, opener. cbn.
  destruct (Ascii.eqb_spec a "{"); [exfalso; auto|]. destruct (Ascii.eqb_spec a "["); [exfalso; auto|]. destruct (Ascii.eqb_spec a "("); [exfalso; auto|].
  destruct (Ascii.eqb_spec a "}"); [exfalso; auto 8|]. destruct (Ascii.eqb_spec a "]"); [exfalso; auto 8|]. destruct (Ascii.eqb_spec a ")"); [exfalso; auto 8|]. auto.
Qed.

Ltac lenlia := first [solve [unfold len; cbn [Spec_Expand.render String.length]; rewrite ?length_app; cbn [String.length]; lia] | progress f_equal; lenlia].
Ltac appeq := apps; reflexivity.

(** ** to_close *)
Lemma to_close_none : forall s R, has_char ")" s = false -> has_char newline_char s = false -> to_close (s ++ R) = option_map (fun k => String.length s + k) (to_close R).
Proof.
  induction s as [|a s IH]; intros R H1 H2; cbn [append to_close String.length]; [destruct (to_close R); reflexivity|]. cbn [has_char] in H1, H2. destruct (Ascii.eqb a ")"); [discriminate|]. change newline_char with "010"%char in H2 at 1. destruct (Ascii.eqb a "010"); [discriminate|].
  rewrite IH by assumption. destruct (to_close R); reflexivity.
Qed.
Lemma to_close_inv : forall s R k, to_close (s ++ R) = Some k -> has_char ")" s = false -> exists k', to_close R = Some k' /\ k = String.length s + k'.
Proof.
  induction s as [|a s IH]; intros R k H H1; cbn [append to_close String.length] in *; [exists k; auto|]. cbn [has_char] in H1. destruct (Ascii.eqb a ")"); [discriminate|]. destruct (Ascii.eqb a "010"); [discriminate|].
  destruct (to_close (s ++ R)) as [k1|] eqn:E; [|discriminate]. injection H as <-. destruct (IH R k1 E H1) as (k' & A & ->). exists k'. split; [exact A|reflexivity].
Qed.
Lemma to_close_pos : forall s k, to_close s = Some k -> exists k', k = S k'.
Proof. intros [|a s] k H; cbn in H; [discriminate|]. destruct (Ascii.eqb a ")"); [injection H as <-; eauto|]. destruct (Ascii.eqb a "010"); [discriminate|]. destruct (to_close s); [injection H as <-; eauto|discriminate]. Qed.

(** ** Searching *)
Lemma find_skip : forall p s k i, find_from symbol (String.length p + k) i (p ++ s) = find_from symbol k (i + String.length p) s.
Proof. induction p as [|a p IH]; intros s k i; cbn [append String.length Nat.add]; [rewrite Nat.add_0_r; reflexivity|]. cbn [find_from]. rewrite IH. f_equal. lia. Qed.
Lemma find_skip1 : forall a s k i, find_from symbol (S k) i (String a s) = find_from symbol k (S i) s.
Proof. reflexivity. Qed.
Lemma find_plain : forall a s i, a <> symbol -> find_from symbol 0 i (String a s) = find_from symbol 0 (S i) s.
Proof. intros a s i H. cbn [find_from]. unfold match_here. destruct (Ascii.eqb_spec a symbol); [congruence|reflexivity]. Qed.

Lemma span_app : forall f s x y, span f s = (x, y) -> s = x ++ y.
Proof. intros f s. induction s as [|a s IH]; intros x y H; cbn in H; [injection H as <- <-; reflexivity|]. destruct (f a); [|injection H as <- <-; reflexivity]. destruct (span f s) as [x' y']. injection H as <- <-. cbn. rewrite (IH x' y' eq_refl) at 1. reflexivity. Qed.
Lemma span_all : forall f s x y a, span f s = (x, y) -> has_char a x = true -> f a = true.
Proof.
  intros f s. induction s as [|b s IH]; intros x y a H HA; cbn in H; [injection H as <- <-; discriminate|]. destruct (f b) eqn:E; [|injection H as <- <-; discriminate]. destruct (span f s) as [x' y'] eqn:E2. injection H as <- <-. cbn in HA. destruct (Ascii.eqb_spec b a) as [<-|]; [exact E|]. eapply IH; eauto.
Qed.
Definition reference (run : bool) (arr : bool) (i : nat) : found := {| at_ := i; bang := run; star := false; bar := false; cmd := None; array := arr |}.
Lemma match_here_gen : forall p bg st s i k, type_of (p ++ String "(" s) = (bg, st, false, String "(" s) -> to_close s = Some k -> exists arr, (arr = true <-> list_command s) /\
  match_here symbol i (String symbol (p ++ String "(" s)) = Some ({| at_ := i; bang := bg; star := st; bar := false; cmd := None; array := arr |}, S (S (String.length p)) + k).
Proof.
  intros pr bg st s i k T H. unfold match_here. rewrite Ascii.eqb_refl, T. cbn [span]. change (cmd_char "(") with false. cbn iota. change (Ascii.eqb "(" "(") with true. cbn iota.
  destruct (span is_space s) as [w s5] eqn:E. pose proof (span_all _ _ _ _ ")" E) as W. pose proof (span_app _ _ _ _ E) as EA.
  assert (W2 : has_char ")" w = false). { destruct (has_char ")" w); [discriminate (W eq_refl)|reflexivity]. }
  rewrite EA in H. destruct (to_close_inv _ _ _ H W2) as (k5 & A & ->).
  assert (X : exists br s6 p, match s5 with String "[" s6 => (true, s6) | _ => (false, s5) end = (br, s6) /\ s5 = p ++ s6 /\ has_char ")" p = false /\ (br = true <-> exists r, s5 = String "[" r)).
  { destruct s5 as [|b s5]; [exists false, "", ""; repeat split; intros X; [discriminate|destruct X; discriminate]|]. destruct (Ascii.ascii_dec b "[") as [->|N]; [exists true, s5, "["; repeat split; eauto|].
    exists false, (String b s5), "". split; [destruct b as [[|] [|] [|] [|] [|] [|] [|] [|]]; try reflexivity; congruence|]. repeat split; intros X; [discriminate|]. destruct X as [r X]. congruence. }
  destruct X as (br & s6 & p & -> & EP & HP & HB). rewrite EP in A. destruct (to_close_inv _ _ _ A HP) as (k6 & A6 & ->). rewrite A6.
  exists (br || negb (String.eqb w "")). split.
  - unfold list_command. destruct w as [|a w]; cbn [String.eqb negb].
    + rewrite orb_false_r, HB. cbn [append] in EA. rewrite EA. split; [intros [r ->]; exists "["%char, r; auto|]. intros (a & r & -> & [HW| ->]); [|eauto]. apply is_space_iff in HW. rewrite EA in E. cbn [span] in E. rewrite HW in E. destruct (span is_space r). discriminate.
    + rewrite orb_true_r. split; [intros _|reflexivity]. exists a, (w ++ s5). split; [exact EA|]. left. apply is_space_iff. eapply (span_all _ _ _ _ a E). cbn. rewrite Ascii.eqb_refl. reflexivity.
  - apply f_equal, f_equal2; [reflexivity|]. cbn [String.length]. rewrite EA, EP, !length_app. cbn [String.length]. rewrite !length_app. lia.
Qed.
Lemma match_here_ref : forall run s i k, to_close s = Some k -> exists arr, (arr = true <-> list_command s) /\
  match_here symbol i (String symbol (mark run ++ s)) = Some (reference run arr i, S (String.length (mark run)) + k).
Proof. intros [|] s i k H; [apply (match_here_gen "!" true false s i k eq_refl H)|apply (match_here_gen "" false false s i k eq_refl H)]. Qed.

(** Which references a search finds: all of them, or only those after the first
    closing parenthesis. *)
Inductive marks : bool -> nat -> template -> list found -> Prop :=
| m_stop : forall b pos, marks b pos Stop []
| m_lit : forall b pos a r ms, marks b (S pos) r ms -> marks b pos (Lit a r) ms
| m_group : forall b pos o c t r ms1 ms2, marks b (S pos) t ms1 -> marks (b || has_char ")" (render t) || Ascii.eqb c ")") (pos + 2 + len t) r ms2 -> marks b pos (Group o c t r) (ms1 ++ ms2)
| m_ref : forall pos run nm r arr ms1 ms2, (arr = true <-> list_command (render nm)) -> marks false (pos + S (String.length (mark run))) nm ms1 -> marks true (pos + 2 + String.length (mark run) + len nm) r ms2 ->
    marks true pos (Ref run nm r) (reference run arr pos :: ms1 ++ ms2)
| m_inner : forall pos run nm r ms1 ms2, marks false (pos + S (String.length (mark run))) nm ms1 -> marks true (pos + 2 + String.length (mark run) + len nm) r ms2 -> marks false pos (Ref run nm r) (ms1 ++ ms2).

Lemma mark_facts : forall run, has_char ")" (mark run) = false /\ has_char newline_char (mark run) = false.
Proof. intros [|]; split; reflexivity. Qed.
Lemma wf_newline : forall t, well_formed symbol true t -> has_char newline_char (render t) = false.
Proof.
  intros t H. remember true as i eqn:Ei. induction H as [i|i a r HP HR IH|i o c t r HP HT IHT HR IH|i run nm r HN IHN HR IH]; subst i; cbn [Spec_Expand.render has_char].
  - reflexivity.
  - destruct (plain_scan a HP) as (_ & _ & _ & N & _). destruct (Ascii.eqb_spec a newline_char); [contradiction|auto].
  - destruct (pair_facts o c HP) as (_ & _ & _ & _ & _ & _ & N1 & N2 & _). destruct (Ascii.eqb_spec o newline_char); [contradiction|]. rewrite has_char_app, (IHT eq_refl). cbn [has_char orb]. destruct (Ascii.eqb_spec c newline_char); [contradiction|]. apply (IH eq_refl).
  - destruct symbol_not_bracket as (_ & N & _). destruct (Ascii.eqb_spec symbol newline_char); [contradiction|]. rewrite !has_char_app. destruct (mark_facts run) as [_ ->]. rewrite (IHN eq_refl). cbn [has_char orb]. apply (IH eq_refl).
Qed.
Lemma wf_close : forall t R, well_formed symbol true t -> exists k, to_close (render t ++ String ")" R) = Some k.
Proof.
  intros t R H. apply wf_newline in H. revert H; generalize (render t); intros u H; induction u as [|a u IH]; cbn [append to_close]; [exists 1; reflexivity|]. destruct (Ascii.eqb a ")"); [eauto|]. cbn [has_char] in H. change newline_char with "010"%char in H at 1. destruct (Ascii.eqb a "010"); [discriminate|]. destruct (IH H) as [k ->]. cbn. eauto.
Qed.
Lemma list_command_app : forall s R, list_command (s ++ String ")" R) <-> list_command s.
Proof.
  intros [|b s] R; unfold list_command; cbn [append].
  - split; intros (a & r & E & [W|W]); try discriminate; injection E as <- _; [apply is_space_iff in W|]; discriminate.
  - split; intros (a & r & E & W); injection E as <- <-; eauto.
Qed.

Lemma find_marks : forall t i, well_formed symbol i t ->
  (forall pos, exists ms, marks true pos t ms /\ forall R, find_from symbol 0 pos (render t ++ R) = (ms ++ find_from symbol 0 (pos + len t) R)%list) /\
  (i = true -> forall pos, exists ms, marks false pos t ms /\ forall R k, to_close (render t ++ R) = Some k ->
     if has_char ")" (render t) then find_from symbol k pos (render t ++ R) = (ms ++ find_from symbol 0 (pos + len t) R)%list
     else ms = [] /\ find_from symbol k pos (render t ++ R) = find_from symbol (k - len t) (pos + len t) R).
Proof.
  unfold len. intros t i H. induction H as [i|i a r HP HR IH|i o c t r HP HT IHT HR IH|i run nm r HN IHN HR IH].
  - split; [intros pos|intros _ pos]; exists []; (split; [constructor|]); intros R; cbn; rewrite Nat.add_0_r; [reflexivity|]. intros k H. rewrite Nat.sub_0_r. auto.
  - destruct IH as [IF IC]. split.
    + intros pos. destruct (IF (S pos)) as (ms & M & F). exists ms. split; [constructor; exact M|]. intros R. cbn [Spec_Expand.render append String.length]. rewrite find_plain by (destruct HP; assumption). rewrite F. lenlia.
    + intros -> pos. destruct (IC eq_refl (S pos)) as (ms & M & F). exists ms. split; [constructor; exact M|]. intros R k K. cbn [Spec_Expand.render append String.length has_char to_close] in *. destruct (plain_scan a HP) as (_ & _ & N1 & N2 & _).
      destruct (Ascii.eqb_spec a ")"); [contradiction|]. destruct (Ascii.eqb_spec a "010"); [contradiction|]. destruct (to_close (render r ++ R)) as [k1|] eqn:K1; [|discriminate]. injection K as <-. specialize (F R k1 K1). rewrite find_skip1. destruct (has_char ")" (render r)).
      * rewrite F. lenlia.
      * destruct F as [-> F]. split; [reflexivity|]. rewrite F. f_equal; lia.
  - destruct (pair_facts o c HP) as (_ & _ & _ & So & Sc & No & N1 & N2 & _). destruct IHT as [TF TC]. destruct IH as [IF IC]. split.
    + intros pos. destruct (TF (S pos)) as (ms1 & M1 & F1). destruct (IF (pos + 2 + len t)) as (ms2 & M2 & F2). exists (ms1 ++ ms2)%list. split; [apply m_group; [exact M1|exact M2]|]. intros R. cbn [Spec_Expand.render append String.length]. rewrite find_plain by exact So. apps. rewrite F1, find_plain by exact Sc.
      replace (S (S pos + String.length (render t))) with (pos + 2 + len t) by (unfold len; lia). rewrite F2, <- app_assoc. lenlia.
    + intros -> pos. destruct (TC eq_refl (S pos)) as (ms1 & M1 & F1). destruct (IF (pos + 2 + len t)) as (ms2 & M2 & F2). destruct (IC eq_refl (pos + 2 + len t)) as (ms3 & M3 & F3).
      exists (ms1 ++ if has_char ")" (render t) || Ascii.eqb c ")" then ms2 else ms3)%list. split; [apply m_group; [exact M1|]; cbn [orb]; destruct (has_char ")" (render t) || Ascii.eqb c ")"); assumption|].
      intros R k K. cbn [Spec_Expand.render append String.length to_close] in *. change "010"%char with newline_char in K. destruct (Ascii.eqb_spec o ")"); [contradiction|]. destruct (Ascii.eqb_spec o newline_char); [contradiction|]. revert K. apps. intros K. destruct (to_close (render t ++ String c (render r ++ R))) as [k1|] eqn:K1; [|discriminate]. injection K as <-.
      specialize (F1 _ _ K1). rewrite find_skip1. cbn [has_char]. destruct (Ascii.eqb_spec o ")"); [contradiction|]. rewrite has_char_app. cbn [has_char]. destruct (has_char ")" (render t)) eqn:C1; cbn [orb].
      * rewrite F1, find_plain by exact Sc. replace (S (S pos + String.length (render t))) with (pos + 2 + len t) by (unfold len; lia). rewrite F2, <- app_assoc. lenlia.
      * destruct F1 as [-> F1]. rewrite F1. destruct (to_close_inv _ _ _ K1 C1) as (k2 & K2 & ->). replace (String.length (render t) + k2 - String.length (render t)) with k2 by lia. cbn [to_close] in K2. destruct (Ascii.eqb_spec c ")") as [Ec|Ec].
        -- injection K2 as <-. rewrite find_skip1. replace (S (S pos + String.length (render t))) with (pos + 2 + len t) by (unfold len; lia). rewrite F2. cbn [app]. lenlia.
        -- destruct (Ascii.eqb_spec c "010"); [contradiction|]. destruct (to_close (render r ++ R)) as [k3|] eqn:K3; [|discriminate]. injection K2 as <-. specialize (F3 _ _ K3). rewrite find_skip1. replace (S (S pos + String.length (render t))) with (pos + 2 + len t) by (unfold len; lia). destruct (has_char ")" (render r)).
           ++ rewrite F3. cbn [app]. lenlia.
           ++ destruct F3 as [-> F3]. split; [reflexivity|]. rewrite F3. f_equal; lenlia.
  - destruct IHN as [_ NC]. destruct IH as [IF _]. destruct (mark_facts run) as [MK1 MK2].
    assert (Main : forall pos, exists ms1 ms2, marks false (pos + S (String.length (mark run))) nm ms1 /\ marks true (pos + 2 + String.length (mark run) + len nm) r ms2 /\
      forall R k, to_close (render nm ++ String ")" (render r ++ R)) = Some k -> find_from symbol (String.length (mark run) + k) (S pos) (mark run ++ render nm ++ String ")" (render r ++ R)) = (ms1 ++ ms2 ++ find_from symbol 0 (pos + len (Ref run nm r)) R)%list).
    { intros pos. destruct (NC eq_refl (pos + S (String.length (mark run)))) as (ms1 & M1 & F1). destruct (IF (pos + 2 + String.length (mark run) + len nm)) as (ms2 & M2 & F2). exists ms1, ms2. split; [exact M1|]. split; [exact M2|]. intros R k K. rewrite find_skip.
      replace (S pos + String.length (mark run)) with (pos + S (String.length (mark run))) by lia. specialize (F1 _ _ K).
      assert (L : pos + 2 + String.length (mark run) + len nm + String.length (render r) = pos + len (Ref run nm r)). { unfold len. cbn [Spec_Expand.render String.length]. rewrite !length_app. cbn [String.length]. lia. }
      destruct (has_char ")" (render nm)) eqn:C1.
      - rewrite F1. rewrite find_plain by (destruct symbol_not_bracket as (NB & _); intros X; apply NB; rewrite <- X; unfold bracket; cbn; auto 8). replace (S (pos + S (String.length (mark run)) + String.length (render nm))) with (pos + 2 + String.length (mark run) + len nm) by (unfold len; lia). rewrite F2, L. reflexivity.
      - destruct F1 as [-> F1]. rewrite F1. destruct (to_close_inv _ _ _ K C1) as (k2 & K2 & ->). cbn in K2. injection K2 as <-. replace (String.length (render nm) + 1 - String.length (render nm)) with 1 by lia. rewrite find_skip1. replace (S (pos + S (String.length (mark run)) + String.length (render nm))) with (pos + 2 + String.length (mark run) + len nm) by (unfold len; lia). rewrite F2, L. reflexivity. }
    split.
    + intros pos. destruct (Main pos) as (ms1 & ms2 & M1 & M2 & F). destruct (wf_close nm "" HN) as [k0 K0]. destruct (match_here_ref run (render nm ++ String ")" "") pos k0 K0) as (arr & HA & _). rewrite list_command_app in HA.
      exists (reference run arr pos :: ms1 ++ ms2)%list. split; [apply m_ref; assumption|]. intros R. cbn [Spec_Expand.render append]. apps. destruct (wf_close nm (render r ++ R) HN) as [k K]. destruct (match_here_ref run _ pos k K) as (arr' & HA' & E). rewrite list_command_app in HA'. cbn [find_from]. rewrite E.
      assert (EA : arr' = arr) by (destruct arr, arr'; tauto || (symmetry; tauto) || (exfalso; intuition discriminate) || idtac). rewrite EA. cbn [app]. f_equal. replace (S (String.length (mark run)) + k - 1) with (String.length (mark run) + k) by lia. rewrite F by exact K. rewrite <- app_assoc. reflexivity.
    + intros -> pos. destruct (Main pos) as (ms1 & ms2 & M1 & M2 & F). exists (ms1 ++ ms2)%list. split; [apply m_inner; assumption|]. intros R k K. assert (HC : has_char ")" (render (Ref run nm r)) = true).
      { cbn [Spec_Expand.render has_char]. destruct (Ascii.eqb symbol ")"); [reflexivity|]. rewrite !has_char_app. cbn [has_char]. change (Ascii.eqb ")" ")") with true. cbn iota. rewrite !orb_true_r. reflexivity. }
      rewrite HC. revert K. cbn [Spec_Expand.render]. apps. intros K. cbn [to_close] in K. destruct symbol_not_bracket as (NB & NN & _). destruct (Ascii.eqb_spec symbol ")") as [E|]; [exfalso; apply NB; rewrite E; unfold bracket; cbn; auto 8|]. destruct (Ascii.eqb_spec symbol "010"); [contradiction|].
      destruct (to_close (mark run ++ render nm ++ String ")" (render r ++ R))) as [k1|] eqn:K1; [|discriminate]. injection K as <-. destruct (to_close_inv _ _ _ K1 MK1) as (k2 & K2 & ->). rewrite find_skip1, F by exact K2. rewrite <- app_assoc. unfold len. cbn [Spec_Expand.render]. reflexivity.
Qed.

(** the bracket group of a reference *)
Lemma scan_render : forall t, well_formed symbol true t -> forall stack start idx R, stack <> [] -> start <> (-1)%Z -> scan stack start idx (render t ++ R) = scan stack start (idx + Z.of_nat (len t))%Z R.
Proof.
  unfold len. intros t H. remember true as i eqn:Ei. induction H as [i|i a r HP HR IH|i o c t r HP HT IHT HR IH|i run nm r HN IHN HR IH]; subst i; intros stack start idx R HS Hst; cbn [Spec_Expand.render append].
  - cbn. rewrite Z.add_0_r. reflexivity.
  - destruct (plain_scan a HP) as (O & C & _). cbn [scan]. rewrite O, C, (IH eq_refl) by assumption. f_equal. cbn [String.length]. lia.
  - destruct (pair_facts o c HP) as (O1 & O2 & O3 & _). cbn [scan]. rewrite O1. destruct (Z.eqb_spec start (-1)); [contradiction|]. apps. rewrite (IHT eq_refl); [|discriminate|exact Hst]. cbn [scan]. rewrite O2, O3, Ascii.eqb_refl. cbn [negb]. destruct stack as [|top stack']; [congruence|]. rewrite (IH eq_refl) by assumption. f_equal. cbn [String.length]. rewrite length_app. cbn [String.length]. lia.
  - destruct symbol_scan as [O C]. cbn [scan]. rewrite O, C. apps. assert (M : forall X, scan stack start (idx + 1) (mark run ++ X) = scan ("("%char :: stack) start (idx + 1 + Z.of_nat (String.length (mark run))) X).
    { intros X. destruct run; cbn [mark append scan]; [change (is_open "!") with false; change (opener "!") with (@None ascii); cbn iota|]; change (is_open "(") with true; cbn iota; (destruct (Z.eqb_spec start (-1)); [contradiction|]); f_equal; cbn [String.length]; lia. }
    rewrite M, (IHN eq_refl); [|discriminate|exact Hst]. cbn [scan]. change (is_open ")") with false. cbn iota. change (opener ")") with (Some "("%char). cbn iota beta. change (Ascii.eqb "(" "(") with true. cbn [negb]. destruct stack as [|top stack']; [congruence|]. rewrite (IH eq_refl) by assumption. f_equal.
    cbn [String.length]. rewrite !length_app. cbn [String.length]. lia.
Qed.
Lemma group_ref : forall run t R, well_formed symbol true t -> find_enclosing_bracket_group (String symbol (mark run ++ render t ++ String ")" R)) = (Z.of_nat (String.length (mark run)), Z.of_nat (String.length (mark run)) + Z.of_nat (len t) + 2)%Z.
Proof.
  intros run t R H. unfold find_enclosing_bracket_group. destruct symbol_scan as [O C]. cbn [scan]. rewrite O, C.
  assert (M : forall X, scan [] (-1) (0 + 1) (mark run ++ X) = scan ["("%char] (Z.of_nat (String.length (mark run))) (1 + Z.of_nat (String.length (mark run))) X).
  { intros X. destruct run; cbn [mark append scan]; [change (is_open "!") with false; change (opener "!") with (@None ascii); cbn iota|]; change (is_open "(") with true; cbn iota; change (Z.eqb (-1) (-1)) with true; cbn iota; reflexivity. }
  rewrite M, scan_render; [|exact H|discriminate|destruct run; discriminate]. cbn [scan]. change (is_open ")") with false. cbn iota. change (opener ")") with (Some "("%char). cbn iota beta. change (Ascii.eqb "(" "(") with true. cbn [negb]. f_equal. lia.
Qed.

(** templates *)
Lemma render_app : forall t u, render (tapp t u) = render t ++ render u.
Proof. induction t as [|a r IH|o c t IHt r IHr|run n IHn r IHr]; intros u; cbn [tapp Spec_Expand.render append]; [reflexivity|rewrite IH; reflexivity| |]; rewrite IHr; appeq. Qed.
Lemma render_lits : forall s, render (lits s) = s.
Proof. induction s as [|a s IH]; cbn; [reflexivity|rewrite IH; reflexivity]. Qed.
End WithSymbol.
