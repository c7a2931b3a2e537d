(** Proofs about the commands of actions and rules in the files for ninja. *)
From Coq Require Import ZArith.
From Verif Require Import Lib Str LibFacts StrFacts Model_Names Model_Path Model_Quote Spec_Quote Proof_Quote Model_Ninja Spec_Ninja Proof_Ninja Model_Writer Model_NinjaBuild Model_NinjaAction Spec_NinjaAction Proof_Suffix Proof_Flags5.
Local Open Scope string_scope.

Lemma concat_cons : forall x l, String.concat "" (x :: l) = x ++ String.concat "" l.
Proof. intros x [|y l]; [cbn; rewrite append_nil_r; reflexivity|reflexivity]. Qed.
(** ** specials *)
Lemma replace_pieces : forall p by_ (f g : piece -> string) ps, replace p by_ "" = "" -> (forall x, In x ps -> forall r, replace p by_ (f x ++ r) = g x ++ replace p by_ r) ->
  replace p by_ (String.concat "" (map f ps)) = String.concat "" (map g ps).
Proof.
  intros p by_ f g ps E. induction ps as [|x ps IH]; intros H; [exact E|]. cbn [map]. rewrite !concat_cons, (H x (or_introl eq_refl)), IH; [reflexivity|]. intros y Y. apply H. right. exact Y.
Qed.
Definition flat (m : meanings) (p : piece) : string := match p with Rule_input i => "${" ++ input_name i ++ "}" | _ => piece_means m p end.
Definition flat_text (m : meanings) (ps : list piece) : string := String.concat "" (map (flat m) ps).
Section Special.
Variables (s : setup) (t : target) (to_build : string) (m : meanings).
Hypothesis N : to_build <> "".
Hypothesis M1 : product_is m = to_build.
Hypothesis M2 : intermediate_is m = path_join to_build (int_dir t).
Hypothesis M3 : configuration_is m = config_name s.
Hypothesis C1 : has_char "$" (product_is m) = false.
Hypothesis C2 : has_char "$" (intermediate_is m) = false.
Hypothesis C3 : has_char "$" (configuration_is m) = false.
Lemma special_flat : forall ps, clear_argument ps -> special_in s t to_build (argument ps) = flat_text m ps.
Proof.
  intros ps H. unfold special_in. destruct to_build as [|c b] eqn:E; [contradiction|]. rewrite <- E in *. clear E c b. unfold argument, flat_text.
  set (g1 := fun p => match p with Product_dir => to_build | _ => written p end). set (g2 := fun p => match p with Intermediate_dir => path_join to_build (int_dir t) | _ => g1 p end).
  assert (E1 : replace "$!PRODUCT_DIR" to_build (String.concat "" (map written ps)) = String.concat "" (map g1 ps)).
  { apply replace_pieces; [reflexivity|]. intros [x| | | |[]] X r; cbn [written g1 input_name]; try reflexivity; [apply (replace_plain "!PRODUCT_DIR"); exact (proj1 (H x X))|apply (replace_hit "$" "!PRODUCT_DIR")]. }
  assert (E2 : replace "$!INTERMEDIATE_DIR" (path_join to_build (int_dir t)) (String.concat "" (map g1 ps)) = String.concat "" (map g2 ps)).
  { apply replace_pieces; [reflexivity|]. intros [x| | | |[]] X r; cbn [written g1 g2 input_name]; try reflexivity; [apply (replace_plain "!INTERMEDIATE_DIR"); exact (proj1 (H x X))| |apply (replace_hit "$" "!INTERMEDIATE_DIR")].
    apply (replace_plain "!INTERMEDIATE_DIR"). rewrite <- M1. exact C1. }
  assert (E3 : replace "$|CONFIGURATION_NAME" (config_name s) (String.concat "" (map g2 ps)) = String.concat "" (map (flat m) ps)).
  { apply replace_pieces; [reflexivity|]. intros [x| | | |[]] X r; cbn [written g1 g2 flat piece_means input_name]; try reflexivity; rewrite ?M1, ?M2, ?M3; [apply (replace_plain "|CONFIGURATION_NAME"); exact (proj1 (H x X))| | |apply (replace_hit "$" "|CONFIGURATION_NAME")].
    - apply (replace_plain "|CONFIGURATION_NAME"). rewrite <- M1. exact C1.
    - apply (replace_plain "|CONFIGURATION_NAME"). rewrite <- M2. exact C2. }
  rewrite E1, E2, E3. reflexivity.
Qed.
End Special.

(** ** evaluating *)
Lemma evaluate_plain : forall env x r, has_char "$" x = false -> evaluate env Plain (x ++ r) = option_map (append x) (evaluate env Plain r).
Proof.
  intros env. induction x as [|c x IH]; intros r H; [cbn; destruct (evaluate env Plain r); reflexivity|]. apply has_char_false in H. destruct H as [n H]. cbn [append evaluate]. rewrite (proj2 (Ascii.eqb_neq c "$") n), (IH r H). destruct (evaluate env Plain r); reflexivity.
Qed.
Lemma evaluate_input : forall env i r, evaluate env Plain (("${" ++ input_name i ++ "}") ++ r) = option_map (append (env (input_name i))) (evaluate env Plain r).
Proof. intros env [] r; reflexivity. Qed.
Lemma escape_keeps : forall c s, c <> "\"%char -> has_char c (map_chars escape_char s) = has_char c s.
Proof.
  intros c s N. induction s as [|x s IH]; [reflexivity|]. cbn [map_chars]. rewrite has_char_app, IH. cbn [has_char]. unfold escape_char. destruct (Ascii.eqb x dquote || Ascii.eqb x backslash || Ascii.eqb x backquote).
  - cbn [has_char str1]. unfold backslash. destruct (Ascii.eqb_spec "\" c) as [E|_]; [congruence|]. destruct (Ascii.eqb x c); reflexivity.
  - cbn [has_char str1]. destruct (Ascii.eqb x c); reflexivity.
Qed.
Lemma escape_concat : forall l, map_chars escape_char (String.concat "" l) = String.concat "" (map (map_chars escape_char) l).
Proof. induction l as [|x l IH]; [reflexivity|]. cbn [map]. rewrite !concat_cons, map_chars_app, IH. reflexivity. Qed.
Lemma read_double_part : forall e s w t, has_char "$" s = false -> sh_read e Double w (map_chars escape_char s ++ t) = sh_read e Double (w ++ literal s) t.
Proof.
  intros e. induction s as [|c s IH]; intros w t H; [cbn; rewrite app_nil_r; reflexivity|]. apply has_char_false in H. destruct H as [n H].
  cbn [map_chars]. rewrite append_assoc. unfold escape_char at 1. rewrite literal_cons.
  cases c dquote; [cbn - [map_chars literal]; rewrite (IH _ _ H), atoms_snoc; reflexivity|].
  cases c backslash; [cbn - [map_chars literal]; rewrite (IH _ _ H), atoms_snoc; reflexivity|].
  cases c backquote; [cbn - [map_chars literal]; rewrite (IH _ _ H), atoms_snoc; reflexivity|].
  cbn [orb]. rewrite str1_app. cbn [sh_read]. unfold dquote, backslash, backquote in *. neqs. rewrite (IH _ _ H), atoms_snoc. reflexivity.
Qed.
Lemma escape_none : forall s, has_char "034" s = false -> has_char "\" s = false -> has_char "`" s = false -> map_chars escape_char s = s.
Proof.
  induction s as [|c s IH]; intros H1 H2 H3; [reflexivity|]. apply has_char_false in H1, H2, H3. destruct H1 as [n1 H1], H2 as [n2 H2], H3 as [n3 H3]. cbn [map_chars]. rewrite (IH H1 H2 H3). unfold escape_char, dquote, backslash, backquote. neqs. reflexivity.
Qed.
Lemma literal_app : forall a b, literal (a ++ b) = (literal a ++ literal b)%list.
Proof. induction a as [|c a IH]; intros b; [reflexivity|]. cbn [append]. rewrite !literal_cons, IH. reflexivity. Qed.

Section Argument.
Variables (m : meanings) (env : string -> string).
Hypothesis C1 : has_char "$" (product_is m) = false.
Hypothesis C2 : has_char "$" (intermediate_is m) = false.
Hypothesis C3 : has_char "$" (configuration_is m) = false.
Definition ready (ps : list piece) : Prop := clear_argument ps /\ forall i, In (Rule_input i) ps -> env (input_name i) = input_is m i /\ harmless (input_is m i).
Lemma ready_cons : forall p ps, ready (p :: ps) -> ready ps.
Proof. intros p ps (A & B). split; [intros x X; apply A; right; exact X|intros i I; apply B; right; exact I]. Qed.
(** a piece as it is evaluated *)
Definition seen (p : piece) : string := match p with Rule_input i => input_is m i | _ => map_chars escape_char (piece_means m p) end.
Lemma no_dollar : forall p ps, ready (p :: ps) -> match p with Rule_input _ => True | _ => has_char "$" (piece_means m p) = false end.
Proof. intros [x| | | |i] ps R; try assumption; [|exact I]. exact (proj1 (proj1 R x (or_introl eq_refl))). Qed.
Lemma evaluate_pieces : forall ps r, ready ps -> evaluate env Plain (map_chars escape_char (flat_text m ps) ++ r) = option_map (append (String.concat "" (map seen ps))) (evaluate env Plain r).
Proof.
  induction ps as [|p ps IH]; intros r R; [cbn; destruct (evaluate env Plain r); reflexivity|]. unfold flat_text. cbn [map]. rewrite !concat_cons, map_chars_app, append_assoc. fold (flat_text m ps).
  assert (E : evaluate env Plain (map_chars escape_char (flat m p) ++ map_chars escape_char (flat_text m ps) ++ r) = option_map (append (seen p)) (evaluate env Plain (map_chars escape_char (flat_text m ps) ++ r))).
  { pose proof (no_dollar p ps R) as D. destruct p as [x| | | |i]; cbn [flat seen piece_means] in *; try (apply evaluate_plain; rewrite escape_keeps; [exact D|discriminate]).
    replace (map_chars escape_char ("${" ++ input_name i ++ "}")) with ("${" ++ input_name i ++ "}") by (destruct i; reflexivity). rewrite evaluate_input, (proj1 (proj2 R i (or_introl eq_refl))). reflexivity. }
  rewrite E, (IH r (ready_cons p ps R)). destruct (evaluate env Plain r); [cbn; rewrite append_assoc; reflexivity|reflexivity].
Qed.
Lemma read_pieces : forall ps w t, ready ps -> sh_read true Double w (String.concat "" (map seen ps) ++ t) = sh_read true Double (w ++ literal (means m ps)) t.
Proof.
  induction ps as [|p ps IH]; intros w t R; [cbn; rewrite app_nil_r; reflexivity|]. unfold means. cbn [map]. rewrite !concat_cons, append_assoc, literal_app, app_assoc. fold (means m ps). rewrite <- (IH _ t (ready_cons p ps R)).
  pose proof (no_dollar p ps R) as D. destruct p as [x| | | |i]; cbn [seen piece_means] in *; try (apply read_double_part; exact D).
  destruct (proj2 R i (or_introl eq_refl)) as (_ & (D1 & _) & _ & Q1 & Q2 & Q3 & _). rewrite <- (escape_none (input_is m i) Q1 Q2 Q3) at 1. apply read_double_part. exact D1.
Qed.
Lemma inputs_quoted : forall ps i, In (Rule_input i) ps -> has_char "$" (flat_text m ps) = true.
Proof.
  induction ps as [|p ps IH]; intros i H; [contradiction|]. unfold flat_text. cbn [map]. rewrite concat_cons, has_char_app. destruct H as [->|H]; [destruct i; reflexivity|]. fold (flat_text m ps). rewrite (IH i H). apply orb_true_r.
Qed.
Lemma no_inputs : forall ps, no_input ps -> flat_text m ps = means m ps.
Proof.
  induction ps as [|p ps IH]; intros H; [reflexivity|]. unfold flat_text, means. cbn [map]. rewrite !concat_cons. f_equal; [destruct p; try reflexivity; exfalso; eapply H; left; reflexivity|apply IH; intros i I; apply (H i); right; exact I].
Qed.
Lemma no_inputs_dollar : forall ps, ready ps -> no_input ps -> has_char "$" (means m ps) = false.
Proof.
  induction ps as [|p ps IH]; intros R H; [reflexivity|]. unfold means. cbn [map]. rewrite concat_cons, has_char_app. apply orb_false_iff. split; [|apply IH; [exact (ready_cons p ps R)|intros i I; apply (H i); right; exact I]].
  pose proof (no_dollar p ps R) as D. destruct p; try exact D. exfalso. eapply H. left. reflexivity.
Qed.
Lemma argument_read : forall ps, ready ps -> exists e, (forall r, evaluate env Plain (encode_posix_shell_argument (flat_text m ps) ++ r) = option_map (append e) (evaluate env Plain r)) /\
  (forall t, sh_read true Between [] (e ++ t) = sh_read true Word (literal (means m ps)) t).
Proof.
  intros ps R. destruct (needs_quote (flat_text m ps)) eqn:Q.
  - exists (String dquote (String.concat "" (map seen ps) ++ String dquote "")). split.
    + intros r. unfold encode_posix_shell_argument. rewrite Q. cbv zeta. rewrite !append_assoc.
      assert (E : forall x, evaluate env Plain (str1 dquote ++ x) = option_map (String dquote) (evaluate env Plain x)) by reflexivity.
      rewrite E, (evaluate_pieces ps _ R), E. destruct (evaluate env Plain r); [cbn; rewrite append_assoc; reflexivity|reflexivity].
    + intros t. change (String dquote (String.concat "" (map seen ps) ++ String dquote "") ++ t) with (String dquote ((String.concat "" (map seen ps) ++ String dquote "") ++ t)). rewrite append_assoc.
      change (sh_read true Between [] (String dquote ?x)) with (sh_read true Double [] x). rewrite (read_pieces ps [] _ R). reflexivity.
  - assert (NI : no_input ps).
    { intros i I. pose proof (inputs_quoted ps i I) as D. unfold needs_quote in Q. apply orb_false_iff in Q. destruct Q as (Q & _). rewrite (not_quoted _ "$"%char _ Q) in D; [discriminate|reflexivity]. }
    rewrite (no_inputs ps NI). pose proof (no_inputs_dollar ps R NI) as D. exists (encode_posix_shell_argument (means m ps)). split.
    + intros r. apply evaluate_plain. unfold encode_posix_shell_argument. cbv zeta. rewrite !has_char_app, escape_keeps, D; [|discriminate]. destruct (needs_quote (means m ps)); reflexivity.
    + intros t. rewrite read_argument, plain_no_dollars; [reflexivity|exact D].
Qed.
Lemma list_read : forall pss, (forall ps, In ps pss -> ready ps) ->
  exists e, evaluate env Plain (join_with " " (map (fun ps => encode_posix_shell_argument (flat_text m ps)) pss)) = Some e /\ sh_words e = Some (map (fun ps => literal (means m ps)) pss).
Proof.
  induction pss as [|ps pss IH]; intros R; [exists ""; split; reflexivity|]. destruct (argument_read ps (R ps (or_introl eq_refl))) as (e & E1 & E2). destruct pss as [|q pss].
  - exists e. cbn [map]. unfold join_with. cbn [String.concat]. split.
    + rewrite <- (append_nil_r (encode_posix_shell_argument (flat_text m ps))), E1. cbn. rewrite append_nil_r. reflexivity.
    + unfold sh_words. rewrite <- (append_nil_r e), E2. reflexivity.
  - destruct (IH ltac:(intros x X; apply R; right; exact X)) as (e' & E3 & E4). exists (e ++ " " ++ e'). split.
    + unfold join_with in *. cbn [map] in *.
      match goal with |- evaluate env Plain (String.concat " " (?x :: ?y :: ?l)) = _ => change (String.concat " " (x :: y :: l)) with (x ++ " " ++ String.concat " " (y :: l)) end.
      rewrite E1, (evaluate_plain env " ") by reflexivity. rewrite E3. reflexivity.
    + unfold sh_words in *. rewrite E2. change (" " ++ e') with (String " " e'). rewrite read_space, E4. reflexivity.
Qed.
End Argument.

(** ** two blanks in a row *)
Fixpoint dbl (p : bool) (s : string) : bool := match s with "" => false | String c s' => (p && Ascii.eqb c " ") || dbl (Ascii.eqb c " ") s' end.
Fixpoint fin (p : bool) (s : string) : bool := match s with "" => p | String c s' => fin (Ascii.eqb c " ") s' end.
Lemma dbl_app : forall a b p, dbl p (a ++ b) = dbl p a || dbl (fin p a) b.
Proof. induction a as [|c a IH]; intros b p; [reflexivity|]. cbn [append dbl fin]. rewrite IH, orb_assoc. reflexivity. Qed.
Lemma fin_app : forall a b p, fin p (a ++ b) = fin (fin p a) b.
Proof. induction a as [|c a IH]; intros b p; [reflexivity|]. cbn [append fin]. apply IH. Qed.
Lemma dbl_blank : forall s, dbl false s = false -> one_blank s.
Proof. intros s H a b ->. rewrite !dbl_app in H. apply orb_false_iff in H. destruct H as (_ & H). destruct (fin false a); discriminate H. Qed.
Lemma blank_dbl : forall s, one_blank s -> dbl false s = false.
Proof.
  assert (A : forall s p, (forall a b, s <> a ++ "  " ++ b) -> (p = true -> forall b, s <> " " ++ b) -> dbl p s = false).
  { induction s as [|c s IH]; intros p H1 H2; [reflexivity|]. cbn [dbl]. apply orb_false_iff. split.
    - destruct p; [|reflexivity]. cbn [andb]. destruct (Ascii.eqb_spec c " ") as [->|]; [exfalso; apply (H2 eq_refl s); reflexivity|reflexivity].
    - apply IH; [intros a b ->; apply (H1 (String c a) b); reflexivity|]. intros E b ->. apply Ascii.eqb_eq in E. subst c. apply (H1 "" b). reflexivity. }
  intros s H. apply A; [exact H|discriminate].
Qed.
Lemma dbl_escape : forall s p, dbl p (map_chars escape_char s) = dbl p s.
Proof.
  induction s as [|c s IH]; intros p; [reflexivity|]. cbn [map_chars dbl]. rewrite dbl_app. unfold escape_char. destruct (Ascii.eqb_spec c dquote) as [->|]; [cbn; rewrite IH, !andb_false_r; reflexivity|].
  destruct (Ascii.eqb_spec c backslash) as [->|]; [cbn; rewrite IH, !andb_false_r; reflexivity|]. destruct (Ascii.eqb_spec c backquote) as [->|]; [cbn; rewrite IH, !andb_false_r; reflexivity|].
  cbn [orb str1 dbl fin]. rewrite IH, orb_false_r. reflexivity.
Qed.
Lemma no_space : forall s, has_char " " s = false -> s <> "" -> forall p, dbl p s = false /\ fin p s = false.
Proof.
  induction s as [|c s IH]; intros H N p; [contradiction|]. apply has_char_false in H. destruct H as [n H]. cbn [dbl fin]. rewrite (proj2 (Ascii.eqb_neq c " ") n), andb_false_r. destruct s as [|d s]; [split; reflexivity|]. exact (IH H ltac:(discriminate) false).
Qed.
Lemma dbl_encode : forall x p, one_blank x -> dbl p (encode_posix_shell_argument x) = false /\ fin p (encode_posix_shell_argument x) = false.
Proof.
  intros x p H. apply blank_dbl in H. unfold encode_posix_shell_argument. destruct (needs_quote x) eqn:Q; cbv zeta.
  - rewrite !dbl_app, !fin_app. cbn [str1 dbl fin]. change (Ascii.eqb dquote " ") with false. rewrite andb_false_r, dbl_escape, H, orb_false_r, andb_false_r. split; reflexivity.
  - rewrite append_nil_r. cbn [append]. unfold needs_quote in Q. apply orb_false_iff in Q. destruct Q as (Q1 & Q2). apply String.eqb_neq in Q2. apply no_space.
    + rewrite escape_keeps; [|discriminate]. apply (not_quoted _ " "%char _ Q1). reflexivity.
    + destruct x as [|c x]; [contradiction|]. cbn [map_chars]. unfold escape_char. destruct (Ascii.eqb c dquote || Ascii.eqb c backslash || Ascii.eqb c backquote); discriminate.
Qed.
Lemma dbl_list : forall l p, (forall x, In x l -> one_blank x) -> dbl p (encode_posix_shell_list l) = false.
Proof.
  unfold encode_posix_shell_list, join_with. induction l as [|x l IH]; intros p H; [reflexivity|]. destruct (dbl_encode x p (H x (or_introl eq_refl))) as (D & F). destruct l as [|y l]; [exact D|]. cbn [map].
  match goal with |- dbl p (String.concat " " (?a :: ?b :: ?c)) = _ => change (String.concat " " (a :: b :: c)) with (a ++ " " ++ String.concat " " (b :: c)) end.
  rewrite !dbl_app, D, F. cbn [orb dbl fin Ascii.eqb andb]. apply (IH true). intros z Z. apply H. right. exact Z.
Qed.
(** ** dollar signs at the end, newlines *)
Lemma dangling_none : forall s, has_char "$" s = false -> dangling false s = false.
Proof. induction s as [|c s IH]; intros H; [reflexivity|]. apply has_char_false in H. destruct H as [n H]. cbn [dangling negb andb]. rewrite (proj2 (Ascii.eqb_neq c "$") n). exact (IH H). Qed.
Section Line.
Variables (m : meanings).
Hypothesis C1 : clear (product_is m).
Hypothesis C2 : clear (intermediate_is m).
Hypothesis C3 : clear (configuration_is m).
Lemma flat_ok : forall ps, clear_argument ps -> dangling false (map_chars escape_char (flat_text m ps)) = false /\ has_char newline (flat_text m ps) = false.
Proof.
  induction ps as [|p ps IH]; intros H; [split; reflexivity|]. unfold flat_text. cbn [map]. rewrite !concat_cons, map_chars_app, dangling_app, has_char_app. fold (flat_text m ps). destruct (IH ltac:(intros x X; apply H; right; exact X)) as (A & B). rewrite B.
  assert (E : dangling false (map_chars escape_char (flat m p)) = false /\ has_char newline (flat m p) = false).
  { destruct p as [x| | | |i]; cbn [flat piece_means]; [destruct (H x (or_introl eq_refl)) as (X & Y)|destruct C1 as (X & Y)|destruct C2 as (X & Y)|destruct C3 as (X & Y)|destruct i; split; reflexivity];
      (split; [apply dangling_none; rewrite escape_keeps; [exact X|discriminate]|exact Y]). }
  destruct E as (E1 & E2). rewrite E1, E2. split; [exact A|reflexivity].
Qed.
Lemma encode_ok : forall ps, clear_argument ps -> dangling false (encode_posix_shell_argument (flat_text m ps)) = false /\ has_char newline (encode_posix_shell_argument (flat_text m ps)) = false.
Proof.
  intros ps H. destruct (flat_ok ps H) as (A & B). unfold encode_posix_shell_argument. cbv zeta. rewrite !dangling_app, !has_char_app, escape_keeps, B; [|discriminate]. destruct (needs_quote (flat_text m ps)); cbn [str1 dangling negb andb].
  - change (Ascii.eqb dquote "$") with false. rewrite A. split; reflexivity.
  - rewrite A. split; reflexivity.
Qed.
Lemma list_ok : forall pss, (forall ps, In ps pss -> clear_argument ps) -> dangling false (encode_posix_shell_list (map (flat_text m) pss)) = false /\ has_char newline (encode_posix_shell_list (map (flat_text m) pss)) = false.
Proof.
  unfold encode_posix_shell_list, join_with. induction pss as [|ps pss IH]; intros H; [split; reflexivity|]. destruct (encode_ok ps (H ps (or_introl eq_refl))) as (A & B). destruct pss as [|q pss]; [split; assumption|]. cbn [map].
  match goal with |- context [String.concat " " (?a :: ?b :: ?c)] => change (String.concat " " (a :: b :: c)) with (a ++ " " ++ String.concat " " (b :: c)) end.
  rewrite !dangling_app, !has_char_app, A, B. exact (IH ltac:(intros x X; apply H; right; exact X)).
Qed.
End Line.
Lemma simple_plain : forall d, simple d -> encode_posix_shell_argument d = d /\ clear d /\ has_char " " d = false.
Proof.
  intros d (N & H).
  assert (X : forall c, has_char c (String "009" (String "010" (String "034" " #$%&'()*;<=>?[{|}~\`"))) = true -> has_char c d = false).
  { intros c C. destruct (has_char c d) eqn:E; [|reflexivity]. rewrite (H c E) in C. discriminate. }
  split; [|split; [split; apply X; reflexivity|apply X; reflexivity]].
  assert (Q : needs_quote d = false).
  { unfold needs_quote. apply orb_false_iff. split; [|apply String.eqb_neq; exact N].
    assert (Y : forall z, (forall c, has_char c z = true -> has_char c d = true) -> has_any (one_of quote_chars) z = false).
    { induction z as [|c z IH]; intros Y; [reflexivity|]. cbn [has_any]. apply orb_false_iff. split.
      - pose proof (H c (Y c ltac:(cbn [has_char]; rewrite Ascii.eqb_refl; reflexivity))) as Z. unfold one_of, quote_chars, tab, newline. repeat (apply has_char_false in Z; let n := fresh "n" in destruct Z as [n Z]). repeat (apply has_char_false; split; [assumption|]). reflexivity.
      - apply IH. intros a A. apply Y. cbn [has_char]. rewrite A. destruct (Ascii.eqb c a); reflexivity. }
    apply Y. auto. }
  unfold encode_posix_shell_argument. rewrite Q. cbv zeta. cbn [append]. rewrite append_nil_r. apply escape_none; apply X; reflexivity.
Qed.
Lemma skip_none' : forall v, (forall a, v <> " " ++ a) -> skip_blanks v = v.
Proof. intros [|c v] H; [reflexivity|]. cbn [skip_blanks]. destruct (Ascii.eqb_spec c " ") as [->|]; [exfalso; apply (H v); reflexivity|reflexivity]. Qed.
Lemma variable_read : forall key value, In key ["command"; "source"; "root"; "dirname"; "ext"; "name"] -> has_char newline value = false -> one_blank (key ++ " = " ++ value) -> dangling false value = false -> (forall a, value <> " " ++ a) ->
  exists out, variable_line key value = Some out /\ reads_as out key value.
Proof.
  intros key value K NL OB DA NS.
  assert (KN : has_char newline (key ++ " = " ++ value) = false /\ dangling false (key ++ " = " ++ value) = false).
  { rewrite !has_char_app, !dangling_app, NL. repeat (destruct K as [<-|K]; [cbn; split; [reflexivity|exact DA]|]). contradiction. }
  destruct KN as (KN & KD). unfold variable_line. destruct (line_written 78 1 (key ++ " = " ++ value) "" KN OB KD) as (out & W & _). exists out. split; [exact W|].
  intros rest. destruct (line_written 78 1 (key ++ " = " ++ value) rest KN OB KD) as (out' & W' & R). rewrite W in W'. injection W' as <-. eexists. split; [exact R|].
  assert (A : assignment (spaces (2 * 1) ++ key ++ " = " ++ value) = Some (key, skip_blanks value)) by (repeat (destruct K as [<-|K]; [reflexivity|]); contradiction).
  rewrite A, (skip_none' value NS). reflexivity.
Qed.
