(** Proofs about compiler and linker flags. *)
From Verif Require Import Lib Str StrFacts LibFacts Model_Path Proof_Path Proof_Path2 Model_Memo Spec_Quote Model_Quote Proof_Quote Model_Writer Proof_Suffix Proof_Parts Model_Flags Spec_Flags.
Local Open Scope string_scope.

(** ** Characters *)
Lemma all_chars_has : forall f s, all_chars f s = true <-> forall c, f c = false -> has_char c s = false.
Proof.
  intros f s. split.
  - induction s as [|x s IH]; intros H c Hc; [reflexivity|]. cbn [all_chars] in H. apply andb_true_iff in H. destruct H as [H1 H2]. apply has_char_false. split; [intros ->; congruence|auto].
  - induction s as [|x s IH]; intros H; [reflexivity|]. cbn [all_chars]. apply andb_true_iff. split.
    + destruct (f x) eqn:E; [reflexivity|]. specialize (H x E). apply has_char_false in H. destruct H as [n _]. contradiction.
    + apply IH. intros c Hc. specialize (H c Hc). apply has_char_false in H. apply H.
Qed.
Lemma all_chars_app : forall f a b, all_chars f (a ++ b) = all_chars f a && all_chars f b.
Proof. intros f a b. induction a as [|c a IH]; [reflexivity|]. cbn [append all_chars]. rewrite IH, andb_assoc. reflexivity. Qed.
Lemma all_chars_imp : forall (f g : ascii -> bool) s, (forall c, f c = true -> g c = true) -> all_chars f s = true -> all_chars g s = true.
Proof. intros f g s H. induction s as [|c s IH]; intros E; [reflexivity|]. cbn [all_chars] in *. apply andb_true_iff in E. destruct E as [E1 E2]. rewrite (H _ E1), (IH E2). reflexivity. Qed.

(** ** The shell's words *)
Lemma read_app : forall e s st w l t, sh_read e st w s = Some l -> (t = "" \/ exists t', t = String " " t') ->
  sh_read e st w (s ++ t) = option_map (app l) (sh_read e Between [] t).
Proof.
  intros e. induction s as [|c s IH]; intros st w l t H Ht.
  - cbn [append]. assert (G : sh_read e st w t = match st with Between => sh_read e Between [] t | _ => cons_word w (sh_read e Between [] t) end \/ st <> Between /\ st <> Word).
    { destruct st; try (right; split; discriminate); left; destruct Ht as [->|[t' ->]]; reflexivity. }
    destruct st; cbn [sh_read] in H; try discriminate; destruct G as [G|[G1 G2]]; try contradiction; rewrite G; injection H as <-.
    + destruct (sh_read e Between [] t); reflexivity.
    + destruct (sh_read e Between [] t); reflexivity.
  - cbn [append sh_read] in *. destruct st.
    all: repeat match goal with |- context [if ?b then _ else _] => destruct b end.
    all: try discriminate; try (apply IH; assumption).
    destruct (sh_read e Between [] s) as [l'|] eqn:E; [|discriminate]. cbn [cons_word] in H. injection H as <-. rewrite (IH _ _ _ _ E Ht). destruct (sh_read e Between [] t); reflexivity.
Qed.
Lemma arguments_app : forall a b la lb, sh_arguments a = Some la -> sh_arguments b = Some lb -> sh_arguments (a ++ String " " b) = Some (la ++ lb)%list.
Proof.
  intros a b la lb Ha Hb. unfold sh_arguments in *. rewrite (read_app _ _ _ _ _ _ Ha) by (right; eauto).
  change (sh_read false Between [] (String " " b)) with (sh_read false Between [] b). rewrite Hb. reflexivity.
Qed.
Lemma arguments_space : forall b, sh_arguments (String " " b) = sh_arguments b. Proof. reflexivity. Qed.

(** ** Pieces of a variable's text *)
(** The text [p] becomes [q] by taking comments away and [x] by expansion, which
    a shell reads as [w]. *)
Definition piece (vals : (string -> option string) -> Prop) (p : string) (w : list atom) : Prop :=
  exists q x,
    (forall skip t, make_join 0 skip (p ++ t) = p ++ make_join 0 false t) /\
    (forall t, make_uncomment 0 (p ++ t) = q ++ make_uncomment 0 t) /\
    (forall val cur t, vals val -> refs val [] cur (q ++ t) = refs val [] (cur ++ x) t) /\
    (forall t, sh_read false Between [] (x ++ t) = sh_read false Word w t).

Lemma pieces : forall vals ps ws, Forall2 (piece vals) ps ws -> forall skip cur la, sh_arguments cur = Some la ->
  exists x, (forall val, vals val -> refs val [] (cur ++ "  ") (make_uncomment 0 (make_join 0 skip (join_with continuation ps))) = Some x) /\ sh_arguments x = Some (la ++ ws)%list.
Proof.
  intros vals ps ws H. induction H as [|p w ps ws (q & x & J & U & R & S) H IH]; intros skip cur la Hc.
  - exists (cur ++ "  "). split; [intros; reflexivity|]. change "  " with (String " " " "). apply arguments_app; [exact Hc|reflexivity].
  - assert (Sx : sh_arguments x = Some [w]) by (unfold sh_arguments; rewrite <- (append_nil_r x), S; reflexivity).
    assert (Sc : sh_arguments ((cur ++ "  ") ++ x) = Some (la ++ [w])%list).
    { rewrite append_assoc. change ("  " ++ x) with (String " " (String " " x)). apply arguments_app; [exact Hc|]. rewrite arguments_space. exact Sx. }
    destruct ps as [|p' ps].
    + inversion H; subst. unfold join_with. cbn [String.concat]. exists ((cur ++ "  ") ++ x). split; [|exact Sc].
      intros val V. rewrite <- (append_nil_r p), J, U, R by exact V. reflexivity.
    + destruct (IH true _ _ Sc) as (y & E & Sy). exists y. split; [|rewrite <- app_assoc in Sy; exact Sy].
      unfold join_with in *. change (String.concat continuation (p :: p' :: ps)) with (p ++ continuation ++ String.concat continuation (p' :: ps)).
      intros val V. rewrite J, join_continuation, U, R by exact V. rewrite <- (E val V).
      set (r := make_join 0 true (String.concat continuation (p' :: ps))).
      change (make_uncomment 0 ("  " ++ r)) with (String " " (String " " (make_uncomment 0 r))). cbn [refs]. change (Ascii.eqb " " "$") with false. cbv iota.
      f_equal. rewrite !append_assoc. reflexivity.
Qed.
Lemma read_list_value : forall vals quoter prefix l ws, Forall2 (fun v w => piece vals (quoter (prefix ++ v)) w) l ws ->
  exists x, (forall val, vals val -> read_value val (write_list quoter prefix l) = Some x) /\ sh_arguments x = Some ws.
Proof.
  intros vals quoter prefix l ws H. destruct l as [|v l].
  - inversion H; subst. exists "". split; [intros|]; reflexivity.
  - assert (F : Forall2 (piece vals) (map (fun v => quoter (prefix ++ v)) (v :: l)) ws).
    { clear - H. induction H; cbn [map]; constructor; auto. }
    destruct (pieces _ _ _ F true "" [] eq_refl) as (x & E & Sx). exists x. split; [|exact Sx].
    intros val V. specialize (E val V). unfold read_value, write_list. rewrite join_continuation. set (r := make_join 0 true _) in *.
    change (make_uncomment 0 ("  " ++ r)) with (String " " (String " " (make_uncomment 0 r))). exact E.
Qed.

(** Texts without newlines and number signs whose last sign is no backslash *)
Definition firm (p : string) : Prop := exists a c, p = a ++ String c "" /\ c <> "\"%char.
Definition first_ok (p : string) : Prop := match p with String c _ => c <> " "%char /\ c <> "009"%char | "" => False end.
Lemma join_firm : forall a n c t, has_char newline (a ++ String c "") = false -> c <> "\"%char -> make_join n false (a ++ String c t) = bs n ++ a ++ String c (make_join 0 false t).
Proof.
  induction a as [|x a IH]; intros n c t H N; cbn [append] in *; apply has_char_false in H; destruct H as [N1 H]; cbn [make_join]; unfold newline in *.
  - neqs. reflexivity.
  - cases x "\"%char; [rewrite IH by assumption; symmetry; apply bs_push|]. neqs. cbn [andb]. rewrite IH by assumption. reflexivity.
Qed.
Lemma join_piece : forall p, has_char newline p = false -> firm p -> first_ok p -> forall skip t, make_join 0 skip (p ++ t) = p ++ make_join 0 false t.
Proof.
  intros p H (a & c & -> & N) F skip t. rewrite !append_assoc. cbn [append].
  transitivity (make_join 0 false (a ++ String c t)); [|rewrite join_firm by assumption; reflexivity].
  destruct skip; [|reflexivity]. destruct a as [|x a]; cbn [append] in *; destruct F as [F1 F2]; cbn [make_join]; neqs; reflexivity.
Qed.
Lemma uncomment_firm : forall a n c t, has_char "#" (a ++ String c "") = false -> c <> "\"%char -> make_uncomment n (a ++ String c t) = bs n ++ a ++ String c (make_uncomment 0 t).
Proof.
  induction a as [|x a IH]; intros n c t H N; cbn [append] in *; apply has_char_false in H; destruct H as [N1 H]; cbn [make_uncomment].
  - neqs. reflexivity.
  - cases x "\"%char; [rewrite IH by assumption; symmetry; apply bs_push|]. neqs. rewrite IH by assumption. reflexivity.
Qed.
Lemma uncomment_piece : forall p, has_char "#" p = false -> firm p -> forall t, make_uncomment 0 (p ++ t) = p ++ make_uncomment 0 t.
Proof. intros p H (a & c & -> & N) t. rewrite !append_assoc. cbn [append]. rewrite uncomment_firm by assumption. reflexivity. Qed.
Lemma refs_plain : forall val s cur t, has_char "$" s = false -> refs val [] cur (s ++ t) = refs val [] (cur ++ s) t.
Proof.
  intros val. induction s as [|c s IH]; intros cur t H; [rewrite append_nil_r; reflexivity|]. apply has_char_false in H. destruct H as [N H].
  cbn [append refs]. neqs. rewrite IH by exact H. f_equal. rewrite append_assoc. reflexivity.
Qed.
Lemma refs_dollars : forall val s cur t, refs val [] cur (replace1 dollar "$$" s ++ t) = refs val [] (cur ++ s) t.
Proof.
  intros val. induction s as [|c s IH]; intros cur t; [rewrite append_nil_r; reflexivity|]. unfold replace1 in *. cbn [map_chars]. cases c dollar.
  - cbn [append refs]. change (Ascii.eqb "$" "$") with true. cbv iota. rewrite IH, append_assoc. reflexivity.
  - rewrite append_assoc, str1_app. cbn [refs]. unfold dollar in *. neqs. rewrite IH, append_assoc. reflexivity.
Qed.
Lemma firm_end : forall a c, c <> "\"%char -> firm (a ++ String c "").
Proof. intros a c N. exists a, c. auto. Qed.

(** A define *)
Lemma uncomment_hash : forall u n t, clear (Nat.ltb 0 n) (u ++ "'") = true ->
  make_uncomment n (replace1 hash (String backslash (str1 hash)) (u ++ "'") ++ t) = bs n ++ (u ++ "'") ++ make_uncomment 0 t.
Proof.
  induction u as [|c u IH]; intros n t H; [reflexivity|]. cbn [append] in *. unfold replace1 in *. cbn [map_chars]. cbn [clear] in H. apply andb_true_iff in H. destruct H as [H1 H2].
  rewrite append_assoc. cases c hash.
  - destruct n as [|n]; [|discriminate]. change (make_uncomment 0 (String backslash (str1 hash) ++ ?r)) with (String "#" (make_uncomment 0 r)). rewrite IH by exact H2. reflexivity.
  - rewrite str1_app. cbn [make_uncomment]. cases c "\"%char.
    + rewrite IH by exact H2. symmetry. apply bs_push.
    + unfold hash in *. neqs. rewrite IH by exact H2. reflexivity.
Qed.
Lemma define_piece : forall vals d, plain_define d -> piece vals (escape_cpp_define ("-D" ++ d)) (literal ("-D" ++ d)).
Proof.
  intros vals d [H1 H2]. exists (replace1 dollar "$$" (escape_shell_argument ("-D" ++ d))), (escape_shell_argument ("-D" ++ d)). repeat split.
  - intros skip t. apply (join_encoded ("-D" ++ d)). exact H1.
  - intros t. unfold escape_cpp_define, escape_make_variable_expansion.
    assert (E : exists u, replace1 dollar "$$" (escape_shell_argument ("-D" ++ d)) = u ++ "'").
    { unfold escape_shell_argument, replace1 at 1. rewrite !map_chars_app. eexists. rewrite <- append_assoc. reflexivity. }
    assert (C : clear false (replace1 dollar "$$" (escape_shell_argument ("-D" ++ d))) = true).
    { apply clear_dollars. apply clear_shell. apply clear_intro; [exact H2|left; reflexivity]. }
    destruct E as [u E]. rewrite E in C |- *. apply (uncomment_hash u 0 t C).
  - intros val cur t _. apply refs_dollars.
  - intros t. apply read_escape_shell.
Qed.

(** Safe text *)
Lemma safe_not : forall s c, all_chars safe_char s = true -> safe_char c = false -> has_char c s = false.
Proof. intros s c H N. exact (proj1 (all_chars_has _ _) H c N). Qed.
Lemma read_safe : forall s w t st, st = Word \/ (st = Between /\ s <> "") -> all_chars safe_char s = true -> sh_read false st w (s ++ t) = sh_read false Word (w ++ literal s) t.
Proof.
  induction s as [|c s IH]; intros w t st Hst H.
  { destruct Hst as [->|[_ n]]; [cbn; rewrite app_nil_r; reflexivity|contradiction]. }
  cbn [all_chars] in H. apply andb_true_iff in H. destruct H as [H1 H2]. rewrite literal_cons, <- atoms_snoc. rewrite <- (IH (w ++ [Ch c])%list t Word (or_introl eq_refl) H2).
  assert (N : forall x, safe_char x = false -> c <> x) by (intros x Hx ->; congruence).
  cbn [append sh_read].
  assert (A1 : c <> " "%char) by (apply N; reflexivity). assert (A2 : c <> "009"%char) by (apply N; reflexivity). assert (A3 : c <> "'"%char) by (apply N; reflexivity).
  assert (A4 : c <> "034"%char) by (apply N; reflexivity). assert (A5 : c <> "\"%char) by (apply N; reflexivity).
  assert (A6 : shell_special false c = false).
  { unfold shell_special. cbn [andb]. rewrite orb_false_r. apply orb_false_iff. split; [|apply Ascii.eqb_neq; apply N; reflexivity].
    destruct (has_char c _) eqn:E; [|reflexivity]. exfalso. clear - E H1.
    assert (G : forall l, has_char c l = true -> forallb (fun x => negb (safe_char x)) (chars l) = true -> False).
    { induction l as [|y l IH]; intros E' F; [discriminate|]. cbn [has_char chars forallb] in *. apply andb_true_iff in F. destruct F as [F1 F2].
      destruct (Ascii.eqb_spec y c) as [->|]; [rewrite H1 in F1; discriminate|auto]. }
    apply (G _ E). vm_compute. reflexivity. }
  neqs. rewrite A6. destruct Hst as [->|[-> _]]; reflexivity.
Qed.
Lemma last_of : forall s, s <> "" -> exists a c, s = a ++ String c "".
Proof.
  induction s as [|c s IH]; intros H; [contradiction|]. destruct s as [|d s]; [exists "", c; reflexivity|].
  destruct IH as (a & x & E); [discriminate|]. exists (String c a), x. rewrite E. reflexivity.
Qed.
Lemma safe_firm : forall s, safe s -> firm s.
Proof.
  intros s [N H]. destruct (last_of s N) as (a & c & ->). apply firm_end. intros ->. rewrite all_chars_app in H. apply andb_true_iff in H. destruct H as [_ H]. discriminate H.
Qed.
Lemma safe_first : forall s, safe s -> first_ok s.
Proof. intros [|c s] [N H]; [contradiction|]. cbn [all_chars] in H. apply andb_true_iff in H. destruct H as [H _]. split; intros ->; discriminate H. Qed.
Lemma safe_piece : forall vals s, safe s -> piece vals s (literal s).
Proof.
  intros vals s H. pose proof H as [N C]. exists s, s. repeat split.
  - apply join_piece; [apply safe_not; [exact C|reflexivity]|apply safe_firm; exact H|apply safe_first; exact H].
  - apply uncomment_piece; [apply safe_not; [exact C|reflexivity]|apply safe_firm; exact H].
  - intros val cur t _. apply refs_plain. apply safe_not; [exact C|reflexivity].
  - intros t. rewrite read_safe; [reflexivity|right; auto|exact C].
Qed.
Lemma safe_unquoted : forall s, has_char dquote s = false -> quote_if_necessary s = s.
Proof. intros s H. unfold quote_if_necessary. rewrite H. reflexivity. Qed.

(** Quoted text *)
Lemma read_calm : forall s w t, all_chars calm_char s = true ->
  sh_read false Double w (replace1 dquote (String backslash (str1 dquote)) s ++ String dquote t) = sh_read false Word (w ++ literal s) t.
Proof.
  induction s as [|c s IH]; intros w t H; [cbn; rewrite app_nil_r; reflexivity|]. cbn [all_chars] in H. apply andb_true_iff in H. destruct H as [H1 H2].
  unfold replace1 in *. cbn [map_chars]. rewrite append_assoc, literal_cons, <- atoms_snoc, <- IH by exact H2. cases c dquote; [reflexivity|]. rewrite str1_app. cbn [sh_read].
  assert (N : forall x, calm_char x = false -> c <> x) by (intros x Hx ->; congruence).
  assert (A1 : c <> "\"%char) by (apply N; reflexivity). assert (A2 : c <> "$"%char) by (apply N; reflexivity). assert (A3 : c <> "`"%char) by (apply N; reflexivity).
  unfold dquote in *. neqs. reflexivity.
Qed.
Lemma quoted_piece : forall vals s, quoted s -> piece vals (quote_if_necessary s) (literal s).
Proof.
  intros vals s [Q C]. unfold quote_if_necessary. change dquote with "034"%char at 1. rewrite Q. set (r := replace1 _ _ s).
  assert (N : forall x, calm_char x = false -> has_char x s = false) by (apply all_chars_has; exact C).
  assert (R : forall x, calm_char x = false -> x <> "\"%char -> has_char x (str1 dquote ++ r ++ str1 dquote) = false).
  { intros x Hx Nx. assert (D : "034"%char <> x) by (intros <-; discriminate Hx). rewrite !has_char_app.
    assert (E : has_char x (str1 dquote) = false) by (apply has_char_false; split; [exact D|reflexivity]). rewrite E. unfold r. rewrite has_char_replace; [reflexivity| |auto].
    apply has_char_false. split; [intros <-; contradiction|exact E]. }
  assert (F : firm (str1 dquote ++ r ++ str1 dquote)).
  { rewrite <- append_assoc. apply firm_end. discriminate. }
  exists (str1 dquote ++ r ++ str1 dquote), (str1 dquote ++ r ++ str1 dquote). repeat split.
  - apply join_piece; [apply R; [reflexivity|discriminate]|exact F|split; discriminate].
  - apply uncomment_piece; [apply R; [reflexivity|discriminate]|exact F].
  - intros val cur t _. apply refs_plain. apply R; [reflexivity|discriminate].
  - intros t. rewrite !append_assoc, !str1_app. change (sh_read false Between [] (String dquote ?r)) with (sh_read false Double [] r). unfold r. rewrite read_calm by exact C. reflexivity.
Qed.
Lemma flag_piece : forall vals s, plain_flag s -> piece vals (quote_if_necessary ("" ++ s)) (literal s).
Proof.
  intros vals s [H|H]; cbn [append]; [|apply quoted_piece; exact H]. rewrite safe_unquoted; [apply safe_piece; exact H|]. destruct H as [_ H]. apply safe_not; [exact H|reflexivity].
Qed.
Lemma safe_app : forall a b, all_chars safe_char a = true -> safe b -> safe (a ++ b).
Proof. intros a b Ha [N Hb]. split; [destruct a; [exact N|discriminate]|]. rewrite all_chars_app, Ha, Hb. reflexivity. Qed.
Lemma prefixed_piece : forall vals p s, all_chars safe_char p = true -> safe s -> piece vals (quote_if_necessary (p ++ s)) (literal (p ++ s)).
Proof.
  intros vals p s Hp Hs. pose proof (safe_app _ _ Hp Hs) as G. rewrite safe_unquoted; [apply safe_piece; exact G|]. destruct G as [_ G]. apply safe_not; [exact G|reflexivity].
Qed.
