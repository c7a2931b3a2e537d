(** Proofs about quoting for shells and make. *)
From Verif Require Import Lib LibFacts Str StrFacts Model_Quote Spec_Quote.
Local Open Scope string_scope.

Ltac cases c x := destruct (Ascii.eqb_spec c x) as [->|?].
Ltac neq H := rewrite (proj2 (Ascii.eqb_neq _ _) H).
Ltac neqs := repeat match goal with H : ?a <> ?b |- context [Ascii.eqb ?a ?b] => rewrite (proj2 (Ascii.eqb_neq a b) H) end.

Lemma map_chars_app : forall f a b, map_chars f (a ++ b) = map_chars f a ++ map_chars f b.
Proof. intros f a b. induction a as [|c a IH]; [reflexivity|]. cbn [append map_chars]. rewrite IH, append_assoc. reflexivity. Qed.
Lemma has_char_false : forall c x s, has_char c (String x s) = false <-> x <> c /\ has_char c s = false.
Proof. intros c x s. cbn [has_char]. destruct (Ascii.eqb_spec x c); split; intros H; try discriminate; [destruct H; contradiction|auto|destruct H; assumption]. Qed.
Lemma str1_app : forall c s, str1 c ++ s = String c s. Proof. reflexivity. Qed.
Lemma literal_cons : forall c s, literal (String c s) = Ch c :: literal s. Proof. reflexivity. Qed.
Lemma app_cons_assoc : forall A (l : list A) x r, (l ++ x :: r)%list = ((l ++ [x]) ++ r)%list.
Proof. intros. rewrite <- app_assoc. reflexivity. Qed.
Lemma atoms_snoc : forall (w : list atom) a r, ((w ++ [a]) ++ r)%list = (w ++ a :: r)%list.
Proof. intros. rewrite <- app_assoc. reflexivity. Qed.

(** ** The shell *)
Lemma read_double : forall e s w t, sh_read e Double w (map_chars escape_char s ++ String dquote t) = sh_read e Word (w ++ with_dollars s) t.
Proof.
  intros e. induction s as [|c s IH]; intros w t; [cbn; rewrite app_nil_r; reflexivity|].
  cbn [map_chars]. rewrite append_assoc. unfold escape_char at 1. unfold with_dollars. cbn [chars map]. fold (with_dollars s).
  cases c dquote; [cbn - [map_chars with_dollars]; rewrite IH, atoms_snoc; reflexivity|].
  cases c backslash; [cbn - [map_chars with_dollars]; rewrite IH, atoms_snoc; reflexivity|].
  cases c backquote; [cbn - [map_chars with_dollars]; rewrite IH, atoms_snoc; reflexivity|].
  cbn [orb]. rewrite str1_app. cbn [sh_read]. unfold dquote, backslash, backquote in *. neqs.
  destruct (Ascii.eqb_spec c "$"); rewrite IH, atoms_snoc; reflexivity.
Qed.

Lemma read_plain : forall e s w t st, st = Word \/ (st = Between /\ s <> "") -> has_any (one_of quote_chars) s = false ->
  sh_read e st w (map_chars escape_char s ++ t) = sh_read e Word (w ++ literal s) t.
Proof.
  intros e. induction s as [|c s IH]; intros w t st Hst H.
  { destruct Hst as [->|[_ n]]; [cbn; rewrite app_nil_r; reflexivity|contradiction]. }
  cbn [has_any] in H. apply orb_false_iff in H. destruct H as [H1 H2]. rewrite literal_cons, <- atoms_snoc.
  rewrite <- (IH (w ++ [Ch c])%list t Word (or_introl eq_refl) H2). cbn [map_chars]. rewrite append_assoc. unfold escape_char at 1.
  assert (Hstep : forall st', st' = Word \/ st' = Between -> c <> " "%char -> c <> "009"%char -> c <> "'"%char -> c <> "034"%char -> c <> "\"%char ->
    shell_special e c = false -> forall r, sh_read e st' w (String c r) = sh_read e Word (w ++ [Ch c]) r).
  { intros st' Hs ? ? ? ? ? Hsp r. destruct Hs as [->| ->]; cbn [sh_read]; neqs; cbn [orb]; rewrite Hsp; reflexivity. }
  assert (Hst' : st = Word \/ st = Between) by tauto.
  cases c dquote; [destruct Hst' as [->| ->]; reflexivity|]. cases c backslash; [destruct Hst' as [->| ->]; reflexivity|].
  cases c backquote; [destruct Hst' as [->| ->]; reflexivity|]. cbn [orb]. rewrite str1_app. unfold one_of, quote_chars in H1.
  repeat (apply has_char_false in H1; let n := fresh "n" in destruct H1 as [n H1]). unfold dquote, backslash, backquote, tab, newline in *.
  apply Hstep; auto; try congruence. unfold shell_special.
  assert (E : has_char c "|&;<>()$`*?[#~%{}" = false) by (repeat (apply has_char_false; split; [congruence|]); reflexivity).
  rewrite E. cbn [orb]. rewrite (proj2 (Ascii.eqb_neq c "010")) by congruence. rewrite (proj2 (Ascii.eqb_neq c "=")) by congruence. destruct e; reflexivity.
Qed.

Lemma plain_no_dollars : forall s, has_char dollar s = false -> with_dollars s = literal s.
Proof.
  induction s as [|c s IH]; intros H; [reflexivity|]. apply has_char_false in H. destruct H as [n H]. unfold with_dollars, literal. cbn [chars map]. unfold dollar in n. neqs.
  f_equal. apply IH. exact H.
Qed.
Lemma not_quoted : forall f c s, has_any f s = false -> f c = true -> has_char c s = false.
Proof.
  intros f c s. induction s as [|x s IH]; intros H Hc; [reflexivity|]. cbn [has_any] in H. apply orb_false_iff in H. destruct H as [H1 H2].
  apply has_char_false. split; [intros ->; congruence|auto].
Qed.

Lemma read_argument : forall e s t, sh_read e Between [] (encode_posix_shell_argument s ++ t) = sh_read e Word (with_dollars s) t.
Proof.
  intros e s t. unfold encode_posix_shell_argument, needs_quote. destruct (has_any (one_of quote_chars) s) eqn:E.
  - cbn [orb]. cbv zeta. rewrite !append_assoc, !str1_app. 
    change (sh_read e Between [] (String dquote ?r)) with (sh_read e Double [] r). rewrite read_double. reflexivity.
  - destruct (String.eqb_spec s "") as [->|n]; [reflexivity|]. cbn [orb]. cbv zeta. cbn [append]. rewrite append_nil_r.
    rewrite read_plain by auto. cbn [app]. rewrite plain_no_dollars; [reflexivity|]. eapply not_quoted; [exact E|reflexivity].
Qed.
Lemma read_space : forall e w t, sh_read e Word w (String " " t) = cons_word w (sh_read e Between [] t).
Proof. reflexivity. Qed.

Theorem posix_argument : forall s, sh_words (encode_posix_shell_argument s) = Some [with_dollars s].
Proof. intros s. unfold sh_words. rewrite <- (append_nil_r (encode_posix_shell_argument s)). rewrite read_argument. reflexivity. Qed.
Theorem posix_literal : forall s, has_char "$" s = false -> sh_words (encode_posix_shell_argument s) = Some [literal s].
Proof. intros s H. rewrite posix_argument, plain_no_dollars by exact H. reflexivity. Qed.

(** Lists of encoded arguments *)
Lemma read_list : forall e (enc : string -> string) (den : string -> list atom) (sep : string),
  (forall s t, sh_read e Between [] (enc s ++ t) = sh_read e Word (den s) t) ->
  (forall w t, sh_read e Word w (sep ++ t) = cons_word w (sh_read e Between [] t)) ->
  forall l, sh_read e Between [] (join_with sep (map enc l)) = Some (map den l).
Proof.
  intros e enc den sep H Hs. assert (G : forall l x, sh_read e Between [] (join_with sep (map enc (x :: l))) = Some (map den (x :: l))).
  { induction l as [|y l IH]; intros x.
    - unfold join_with. cbn [map String.concat]. rewrite <- (append_nil_r (enc x)), H. reflexivity.
    - unfold join_with in *. cbn [map] in *. change (String.concat sep (enc x :: enc y :: map enc l)) with (enc x ++ sep ++ String.concat sep (enc y :: map enc l)).
      rewrite H, Hs. rewrite IH. reflexivity. }
  intros [|x l]; [reflexivity|apply G].
Qed.
Theorem posix_list : forall l, sh_words (encode_posix_shell_list l) = Some (map with_dollars l).
Proof. intros l. apply read_list; [apply read_argument|reflexivity]. Qed.

Lemma read_single : forall e by_, (forall w t, sh_read e Single w (by_ ++ t) = sh_read e Single (w ++ [Ch "'"]) t) ->
  forall s w t, sh_read e Single w (replace1 squote by_ s ++ String squote t) = sh_read e Word (w ++ literal s) t.
Proof.
  intros e by_ Hb. induction s as [|c s IH]; intros w t; [cbn; rewrite app_nil_r; reflexivity|]. unfold replace1 in *. cbn [map_chars]. rewrite append_assoc, literal_cons, <- atoms_snoc.
  rewrite <- IH. cases c squote; [apply Hb|]. rewrite str1_app. cbn [sh_read]. unfold squote in *. neqs. reflexivity.
Qed.
Lemma read_escape_shell : forall e s t, sh_read e Between [] (escape_shell_argument s ++ t) = sh_read e Word (literal s) t.
Proof.
  intros e s t. unfold escape_shell_argument. rewrite !append_assoc, !str1_app. change (sh_read e Between [] (String squote ?r)) with (sh_read e Single [] r).
  rewrite read_single; [reflexivity|]. intros w r. reflexivity.
Qed.
Theorem make_shell_argument : forall s, sh_words (escape_shell_argument s) = Some [literal s].
Proof. intros s. unfold sh_words. rewrite <- (append_nil_r (escape_shell_argument s)), read_escape_shell. reflexivity. Qed.

(** ** Ninja's shell quoting *)
Lemma read_ninja_plain : forall s w t st, st = Word \/ (st = Between /\ s <> "") -> ninja_plain_rest s = true -> has_char backslash s = false -> has_char newline s = false ->
  sh_read false st w (s ++ t) = sh_read false Word (w ++ literal s) t.
Proof.
  induction s as [|c s IH]; intros w t st Hst H1 H2 H3.
  { destruct Hst as [->|[_ n]]; [cbn; rewrite app_nil_r; reflexivity|contradiction]. }
  apply has_char_false in H2. destruct H2 as [N2 H2]. apply has_char_false in H3. destruct H3 as [N3 H3]. cbn [ninja_plain_rest] in H1.
  destruct (ninja_ok c) eqn:E; [|rewrite (proj2 (Ascii.eqb_neq _ _) N3) in H1; discriminate].
  rewrite literal_cons, <- atoms_snoc, <- (IH (w ++ [Ch c])%list t Word) by auto.
  assert (Hst' : st = Word \/ st = Between) by tauto. cbn [append].
  destruct c as [b0 b1 b2 b3 b4 b5 b6 b7]. 
  destruct b0, b1, b2, b3, b4, b5, b6, b7; try discriminate E; try (exfalso; apply N2; reflexivity); destruct Hst' as [->| ->]; reflexivity.
Qed.
Theorem ninja_argument : forall s, has_char "\" s = false -> has_char "010" s = false -> sh_arguments (quote_shell_argument s) = Some [literal s].
Proof.
  intros s H1 H2. unfold quote_shell_argument, sh_arguments. destruct (ninja_plain s) eqn:E.
  - destruct s as [|c s]; [discriminate|]. cbn [ninja_plain] in E. apply andb_true_iff in E. destruct E as [E1 E2].
    rewrite <- (append_nil_r (String c s)) at 1. rewrite read_ninja_plain; [reflexivity|right; split; [reflexivity|discriminate]| |exact H1|exact H2]. cbn [ninja_plain_rest]. rewrite E1. exact E2.
  - rewrite str1_app. change (sh_read false Between [] (String squote ?r)) with (sh_read false Single [] r). change (str1 squote) with (String squote "") at 2.
    rewrite read_single; [reflexivity|]. intros w r. reflexivity.
Qed.
Theorem ninja_argument_quoted : forall s, ninja_plain s = false -> sh_arguments (quote_shell_argument s) = Some [literal s].
Proof.
  intros s E. unfold quote_shell_argument, sh_arguments. rewrite E. rewrite str1_app. change (sh_read false Between [] (String squote ?r)) with (sh_read false Single [] r). change (str1 squote) with (String squote "") at 2.
  rewrite read_single; [reflexivity|]. intros w r. reflexivity.
Qed.

(** ** Make *)
(** No backslash stands right before a number sign ([p]: one was just read). *)
Fixpoint clear (p : bool) (s : string) : bool :=
  match s with
  | "" => true
  | String c s' => negb (p && Ascii.eqb c "#") && clear (Ascii.eqb c "\") s'
  end.
Lemma clear_intro : forall s p, (forall a b, s <> a ++ "\#" ++ b) -> (p = false \/ forall b, s <> "#" ++ b) -> clear p s = true.
Proof.
  induction s as [|c s IH]; intros p H Hp; [reflexivity|]. cbn [clear]. apply andb_true_iff. split.
  - destruct p; [|reflexivity]. destruct Hp as [Hp|Hp]; [discriminate|]. cases c "#"%char; [|reflexivity]. exfalso. apply (Hp s). reflexivity.
  - apply IH; [intros a b E; apply (H (String c a) b); cbn [append]; rewrite E; reflexivity|].
    cases c "\"%char; [right|left; reflexivity]. intros b E. apply (H "" b). cbn. rewrite E. reflexivity.
Qed.
Fixpoint last_bs (p : bool) (s : string) : bool := match s with "" => p | String c s' => last_bs (Ascii.eqb c "\") s' end.
Lemma clear_app : forall a b p, clear p (a ++ b) = clear p a && clear (last_bs p a) b.
Proof. induction a as [|c a IH]; intros b p; [reflexivity|]. cbn [append clear last_bs]. rewrite IH, andb_assoc. reflexivity. Qed.
Lemma last_bs_app : forall a b p, last_bs p (a ++ b) = last_bs (last_bs p a) b.
Proof. induction a as [|c a IH]; intros b p; [reflexivity|]. cbn [append last_bs]. apply IH. Qed.
Lemma clear_weaken : forall s p, clear p s = true -> clear false s = true.
Proof. intros [|c s] p H; [reflexivity|]. cbn [clear] in *. apply andb_true_iff in H. destruct H as [_ H]. exact H. Qed.

Lemma clear_squotes : forall s p, clear p s = true -> clear p (replace1 squote (String squote (String backslash (String squote (str1 squote)))) s ++ str1 squote) = true.
Proof.
  induction s as [|c s IH]; intros p H; [cbn; destruct p; reflexivity|]. unfold replace1 in *. cbn [map_chars]. rewrite append_assoc. cbn [clear] in H. apply andb_true_iff in H. destruct H as [H1 H2].
  cases c squote.
  - rewrite clear_app. apply andb_true_iff. split; [destruct p; reflexivity|]. apply IH. exact H2.
  - rewrite str1_app. cbn [clear]. rewrite H1. cbn [andb]. apply IH. exact H2.
Qed.
Lemma clear_shell : forall s p, clear false s = true -> clear p (escape_shell_argument s) = true.
Proof.
  intros s p H. unfold escape_shell_argument. rewrite str1_app. cbn [clear]. change (Ascii.eqb squote "#") with false. change (Ascii.eqb squote "\") with false.
  rewrite andb_false_r. cbn [negb andb]. apply clear_squotes. exact H.
Qed.
Lemma clear_dollars : forall s p, clear p s = true -> clear p (replace1 dollar "$$" s) = true.
Proof.
  induction s as [|c s IH]; intros p H; [reflexivity|]. unfold replace1 in *. cbn [map_chars]. cbn [clear] in H. apply andb_true_iff in H. destruct H as [H1 H2].
  cases c dollar.
  - cbn [append clear]. change (Ascii.eqb "$" "#") with false. change (Ascii.eqb "$" "\") with false. rewrite andb_false_r. cbn [negb andb]. apply IH. exact H2.
  - rewrite str1_app. cbn [clear]. rewrite H1. apply IH. exact H2.
Qed.

Lemma bs_push : forall n s, bs n ++ String "\" s = bs (S n) ++ s.
Proof. induction n as [|n IH]; intros s; [reflexivity|]. cbn [bs append] in *. rewrite IH. reflexivity. Qed.
Lemma uncomment_clear : forall u n, clear (Nat.ltb 0 n) u = true -> make_uncomment n (replace1 hash (String backslash (str1 hash)) u) = bs n ++ u.
Proof.
  induction u as [|c u IH]; intros n H; [symmetry; apply append_nil_r|]. unfold replace1 in *. cbn [map_chars]. cbn [clear] in H. apply andb_true_iff in H. destruct H as [H1 H2].
  cases c hash.
  - destruct n as [|n]; [|discriminate]. change (make_uncomment 0 (String backslash (str1 hash) ++ ?r)) with (String "#" (make_uncomment 0 r)). rewrite IH by exact H2. reflexivity.
  - rewrite str1_app. cbn [make_uncomment]. cases c "\"%char.
    + rewrite IH by exact H2. symmetry. apply bs_push.
    + unfold hash in *. neqs. rewrite IH; [reflexivity|]. revert H2. neqs. auto.
Qed.
Lemma expand_dollars : forall u, make_expand (replace1 dollar "$$" u) = Some u.
Proof.
  induction u as [|c u IH]; [reflexivity|]. unfold replace1 in *. cbn [map_chars]. cases c dollar.
  - cbn [append make_expand]. change (Ascii.eqb "$" "$") with true. cbv iota. rewrite IH. reflexivity.
  - rewrite str1_app. cbn [make_expand]. unfold dollar in *. neqs. rewrite IH. reflexivity.
Qed.

Lemma has_char_replace : forall x c by_ s, has_char x by_ = false -> has_char x s = false -> has_char x (replace1 c by_ s) = false.
Proof.
  intros x c by_ s Hb. induction s as [|a s IH]; intros H; [reflexivity|]. apply has_char_false in H. destruct H as [n H]. unfold replace1 in *. cbn [map_chars]. rewrite has_char_app, IH by exact H.
  rewrite orb_false_r. destruct (Ascii.eqb a c); [exact Hb|]. apply has_char_false. auto.
Qed.

(** joining a text that ends in a quote and has no newline *)
Lemma join_plain : forall a n t, has_char newline a = false -> make_join n false (a ++ String squote t) = bs n ++ a ++ String squote (make_join 0 false t).
Proof.
  induction a as [|c a IH]; intros n t H; [reflexivity|]. apply has_char_false in H. destruct H as [N H]. cbn [append make_join].
  cases c "\"%char; [rewrite IH by exact H; symmetry; apply bs_push|]. unfold newline in *. neqs. cbn [andb]. rewrite IH by exact H. reflexivity.
Qed.

Definition encoded (v : string) : string := escape_cpp_define v.
Lemma encoded_shape : forall v, exists m, encoded v = String squote (m ++ str1 squote) /\ (has_char newline v = false -> has_char newline m = false).
Proof.
  intros v. unfold encoded, escape_cpp_define, escape_make_variable_expansion, escape_shell_argument.
  set (q := replace1 squote _ v). exists (replace1 hash (String backslash (str1 hash)) (replace1 dollar "$$" q)). split.
  - unfold replace1. rewrite !map_chars_app. reflexivity.
  - intros H. apply has_char_replace; [reflexivity|]. apply has_char_replace; [reflexivity|]. apply has_char_replace; [reflexivity|exact H].
Qed.
Lemma join_encoded : forall v skip t, has_char newline v = false -> make_join 0 skip (encoded v ++ t) = encoded v ++ make_join 0 false t.
Proof.
  intros v skip t H. destruct (encoded_shape v) as (m & E & Hm). rewrite E. cbn [append]. rewrite !append_assoc, !str1_app.
  transitivity (String squote (make_join 0 false (m ++ String squote t))); [destruct skip; reflexivity|]. rewrite join_plain by auto. reflexivity.
Qed.
Lemma join_continuation : forall t, make_join 0 false (continuation ++ t) = "  " ++ make_join 0 true t.
Proof. reflexivity. Qed.

Lemma join_list : forall l v skip, (forall x, In x (v :: l) -> has_char newline x = false) ->
  make_join 0 skip (join_with continuation (map encoded (v :: l))) = join_with "  " (map encoded (v :: l)).
Proof.
  induction l as [|y l IH]; intros v skip H.
  - unfold join_with. cbn [map String.concat]. rewrite <- (append_nil_r (encoded v)) at 1. rewrite join_encoded by (apply H; left; reflexivity). apply append_nil_r.
  - unfold join_with in *. cbn [map] in *.
    change (String.concat continuation (encoded v :: encoded y :: map encoded l)) with (encoded v ++ continuation ++ String.concat continuation (encoded y :: map encoded l)).
    change (String.concat "  " (encoded v :: encoded y :: map encoded l)) with (encoded v ++ "  " ++ String.concat "  " (encoded y :: map encoded l)).
    rewrite join_encoded by (apply H; left; reflexivity). rewrite join_continuation, IH; [reflexivity|]. intros x Hx. apply H. right. exact Hx.
Qed.

(** the joined text is what the replacements make of the list of shell words *)
Lemma encoded_join : forall l, join_with "  " (map encoded l) =
  replace1 hash (String backslash (str1 hash)) (replace1 dollar "$$" (join_with "  " (map escape_shell_argument l))).
Proof.
  assert (G : forall l v, join_with "  " (map encoded (v :: l)) =
    replace1 hash (String backslash (str1 hash)) (replace1 dollar "$$" (join_with "  " (map escape_shell_argument (v :: l))))).
  { induction l as [|y l IH]; intros v; [reflexivity|]. unfold join_with in *. cbn [map] in *.
    change (String.concat "  " (encoded v :: encoded y :: map encoded l)) with (encoded v ++ "  " ++ String.concat "  " (encoded y :: map encoded l)).
    change (String.concat "  " (escape_shell_argument v :: escape_shell_argument y :: map escape_shell_argument l)) with
      (escape_shell_argument v ++ "  " ++ String.concat "  " (escape_shell_argument y :: map escape_shell_argument l)).
    rewrite IH. unfold replace1. rewrite !map_chars_app. reflexivity. }
  intros [|v l]; [reflexivity|apply G].
Qed.
Lemma clear_list : forall l p, (forall x, In x l -> clear false x = true) -> clear p (join_with "  " (map escape_shell_argument l)) = true.
Proof.
  assert (G : forall l v p, (forall x, In x (v :: l) -> clear false x = true) -> clear p (join_with "  " (map escape_shell_argument (v :: l))) = true).
  { induction l as [|y l IH]; intros v p H; [apply clear_shell; apply H; left; reflexivity|]. unfold join_with in *. cbn [map] in *.
    change (String.concat "  " (escape_shell_argument v :: escape_shell_argument y :: map escape_shell_argument l)) with
      (escape_shell_argument v ++ "  " ++ String.concat "  " (escape_shell_argument y :: map escape_shell_argument l)).
    rewrite !clear_app, clear_shell by (apply H; left; reflexivity). cbn [andb]. apply andb_true_iff. split.
    - match goal with |- clear ?q _ = true => destruct q end; reflexivity.
    - apply IH. intros x Hx. apply H. right. exact Hx. }
  intros [|v l] p H; [reflexivity|apply G; exact H].
Qed.

Theorem define_list : forall prefix l,
  (forall v, In v l -> has_char newline (prefix ++ v) = false /\ forall a b, prefix ++ v <> a ++ "\#" ++ b) ->
  make_arguments (write_defines prefix l) = Some (map (fun v => literal (prefix ++ v)) l).
Proof.
  intros prefix l H. destruct l as [|v l]; [reflexivity|]. remember (v :: l) as vl eqn:Evl. unfold make_arguments, make_value.
  assert (E : write_defines prefix vl = continuation ++ join_with continuation (map encoded (map (append prefix) vl))) by (subst vl; cbn [write_defines]; rewrite map_map; reflexivity).
  rewrite E, join_continuation. clear E.
  assert (E : make_join 0 true (join_with continuation (map encoded (map (append prefix) vl))) = join_with "  " (map encoded (map (append prefix) vl))).
  { subst vl. cbn [map]. apply (join_list (map (append prefix) l) (prefix ++ v)). intros x Hx. change (In x (map (append prefix) (v :: l))) in Hx.
    apply in_map_iff in Hx. destruct Hx as (y & <- & Hy). apply H. exact Hy. }
  rewrite E, encoded_join. clear E. set (X := join_with "  " (map escape_shell_argument (map (append prefix) vl))).
  replace ("  " ++ replace1 hash (String backslash (str1 hash)) (replace1 dollar "$$" X)) with (replace1 hash (String backslash (str1 hash)) (replace1 dollar "$$" ("  " ++ X))) by reflexivity.
  rewrite uncomment_clear.
  - cbn [bs append Nat.ltb]. change (String " " (String " " X)) with ("  " ++ X). rewrite expand_dollars. unfold sh_arguments.
    change (sh_read false Between [] ("  " ++ X)) with (sh_read false Between [] X). unfold X.
    rewrite (read_list false escape_shell_argument literal "  "); [rewrite map_map; reflexivity|apply read_escape_shell|reflexivity].
  - apply clear_dollars. rewrite clear_app. apply andb_true_iff. split; [reflexivity|]. apply clear_list.
    intros x Hx. apply in_map_iff in Hx. destruct Hx as (y & <- & Hy). apply clear_intro; [apply H; exact Hy|left; reflexivity].
Qed.

Theorem define_one : forall d, has_char newline d = false -> (forall a b, d <> a ++ "\#" ++ b) -> make_arguments (escape_cpp_define d) = Some [literal d].
Proof.
  intros d H1 H2. unfold make_arguments, make_value. rewrite <- (append_nil_r (escape_cpp_define d)). change (escape_cpp_define d) with (encoded d). rewrite join_encoded by exact H1.
  change (make_join 0 false "") with "". rewrite append_nil_r. unfold encoded, escape_cpp_define, escape_make_variable_expansion. rewrite uncomment_clear.
  - cbn [bs append]. rewrite expand_dollars. unfold sh_arguments. rewrite <- (append_nil_r (escape_shell_argument d)), read_escape_shell. reflexivity.
  - apply clear_dollars. apply clear_shell. apply clear_intro; [exact H2|left; reflexivity].
Qed.

(** ** Ninja defines *)
Lemma map_chars_ext : forall f g s, (forall c, f c = g c) -> map_chars f s = map_chars g s.
Proof. intros f g s H. induction s as [|c s IH]; [reflexivity|]. cbn [map_chars]. rewrite H, IH. reflexivity. Qed.
Lemma map_chars_comp : forall f g s, map_chars f (map_chars g s) = map_chars (fun c => map_chars f (g c)) s.
Proof. intros f g s. induction s as [|c s IH]; [reflexivity|]. cbn [map_chars]. rewrite map_chars_app, IH. reflexivity. Qed.
Lemma replace_swap : forall q s, has_char dollar q = false -> has_char squote "$$" = false ->
  replace1 squote q (replace1 dollar "$$" s) = replace1 dollar "$$" (replace1 squote q s).
Proof.
  intros q s Hq _. unfold replace1. rewrite !map_chars_comp. apply map_chars_ext. intros c.
  assert (Q : forall r, has_char dollar r = false -> map_chars (fun a => if Ascii.eqb a dollar then "$$" else str1 a) r = r).
  { induction r as [|x r IH]; intros H; [reflexivity|]. apply has_char_false in H. destruct H as [n H]. cbn [map_chars]. neqs. rewrite IH by exact H. reflexivity. }
  cases c dollar; [reflexivity|]. cases c squote; [cbn [map_chars str1 append]; rewrite Q by exact Hq; apply append_nil_r|]. unfold str1. cbn [map_chars]. neqs. reflexivity.
Qed.
Lemma plain_no_dollar : forall s, ninja_plain_rest s = true -> has_char dollar s = false.
Proof.
  induction s as [|c s IH]; intros H; [reflexivity|]. cbn [ninja_plain_rest] in H. apply has_char_false. destruct (ninja_ok c) eqn:E.
  - split; [intros ->; discriminate E|auto].
  - apply andb_true_iff in H. destruct H as [H1 H2]. apply Ascii.eqb_eq in H1. apply String.eqb_eq in H2. subst. split; [discriminate|reflexivity].
Qed.
Lemma replace_dollar_inv : forall s, has_char dollar (replace1 dollar "$$" s) = false -> replace1 dollar "$$" s = s.
Proof.
  induction s as [|c s IH]; intros H; [reflexivity|]. unfold replace1 in *. cbn [map_chars] in *. cases c dollar; [discriminate|]. rewrite str1_app in *. apply has_char_false in H. destruct H as [_ H].
  rewrite IH by exact H. reflexivity.
Qed.
Lemma ninja_quoted_escaped : forall u, has_char newline u = false -> has_char "\" u = false ->
  exists x, ninja_value (quote_shell_argument (replace1 dollar "$$" u)) = Some x /\ sh_arguments x = Some [literal u].
Proof.
  intros u HN HBu. unfold quote_shell_argument. destruct (ninja_plain (replace1 dollar "$$" u)) eqn:E.
  - assert (ED : has_char dollar (replace1 dollar "$$" u) = false).
    { apply plain_no_dollar. destruct (replace1 dollar "$$" u) as [|c r]; [discriminate|]. cbn [ninja_plain] in E. apply andb_true_iff in E. destruct E as [E1 E2]. cbn [ninja_plain_rest]. rewrite E1. exact E2. }
    exists u. split; [apply expand_dollars|]. assert (EQ := replace_dollar_inv _ ED). rewrite EQ in E.
    pose proof (ninja_argument u HBu HN) as HA. unfold quote_shell_argument in HA. rewrite E in HA. exact HA.
  - set (q := String squote (String dquote (String squote (String dquote (str1 squote))))). exists (str1 squote ++ replace1 squote q u ++ str1 squote). split.
    + rewrite replace_swap by reflexivity. transitivity (make_expand (replace1 dollar "$$" (str1 squote ++ replace1 squote q u ++ str1 squote))); [|apply expand_dollars].
      unfold ninja_value. f_equal. unfold replace1. rewrite !map_chars_app. reflexivity.
    + unfold sh_arguments. rewrite str1_app. change (sh_read false Between [] (String squote ?r)) with (sh_read false Single [] r).
      change (str1 squote) with (String squote ""). rewrite read_single; [reflexivity|]. intros w r. reflexivity.
Qed.
Theorem ninja_define_ok : forall d v, ninja_define d = Some v -> has_char "\" d = false ->
  exists x, ninja_value v = Some x /\ sh_arguments x = Some [literal ("-D" ++ d)].
Proof.
  intros d v H HB. unfold ninja_define, ninja_escape in H. destruct (has_char newline ("-D" ++ d)) eqn:HN; [discriminate|]. cbn [option_map] in H. inversion H; subst v. clear H.
  apply (ninja_quoted_escaped ("-D" ++ d)); assumption.
Qed.

(** ** C string literals *)
Lemma octal_end : forall v t, c_read (COctal 3 v) t = emit (byte v) (c_read CPlain t).
Proof. intros v [|c t]; [reflexivity|]. cbn [c_read]. cbv zeta. change (Nat.ltb 3 3) with false. destruct (octal c); reflexivity. Qed.
Lemma c_step : forall c t, c_read CPlain ((if c_plain c then str1 c else String backslash (octal3 c)) ++ t) = emit (Some c) (c_read CPlain t).
Proof.
  intros c t. destruct (c_plain c) eqn:E.
  - rewrite str1_app. cbn [c_read]. cbv zeta. unfold c_plain in E. apply andb_true_iff in E. destruct E as [E E2]. apply andb_true_iff in E. destruct E as [E0 E1].
    apply negb_true_iff in E0. apply orb_false_iff in E0. destruct E0 as [Ea Eb]. unfold backslash, dquote in *. rewrite Ea, Eb.
    destruct (Ascii.eqb_spec c "010"); [subst; discriminate|reflexivity].
  - transitivity (c_read (COctal 3 (N_of_ascii c)) t); [destruct c as [[] [] [] [] [] [] [] []]; reflexivity|]. rewrite octal_end. unfold byte.
    rewrite ascii_N_embedding. destruct c as [[] [] [] [] [] [] [] []]; reflexivity.
Qed.
Theorem c_string : forall s, c_literal (escape_for_c_string s) = Some s.
Proof.
  unfold c_literal, escape_for_c_string. induction s as [|c s IH]; [reflexivity|]. cbn [map_chars]. rewrite c_step, IH. reflexivity.
Qed.

(** ** Windows *)
Lemma backslashes_bs : forall n, backslashes n = bs n. Proof. reflexivity. Qed.
Lemma win_backslashes : forall n q k w t, win_read q true k w (backslashes n ++ t) = win_read q true (n + k) w t.
Proof.
  induction n as [|n IH]; intros q k w t; [reflexivity|]. cbn [backslashes append win_read]. change (Ascii.eqb backslash "\") with true. cbv iota. rewrite IH. f_equal. lia.
Qed.
Fixpoint ends_bs (s : string) : bool := match s with "" => false | String c "" => Ascii.eqb c "\" | String c s' => ends_bs s' end.
Lemma odd_double : forall n, Nat.odd (S (2 * n)) = true /\ Nat.div2 (S (2 * n)) = n.
Proof.
  intros n. split; [apply Nat.odd_spec; exists n; lia|]. apply Nat.div2_succ_double.
Qed.
Lemma win_body : forall s n w r, ends_bs s = false -> (n = 0 \/ s <> "") ->
  win_read true true 0 w (win_quotes n s ++ r) = win_read true true 0 (w ++ bs n ++ s) r.
Proof.
  induction s as [|c s IH]; intros n w r H Hn.
  - destruct Hn as [->|Hn]; [|contradiction]. cbn [win_quotes backslashes bs append]. rewrite append_nil_r. reflexivity.
  - cbn [win_quotes]. assert (Hs : s <> "" -> ends_bs s = false) by (intros Hs; destruct s; [contradiction|exact H]).
    assert (Hs0 : ends_bs s = false) by (destruct s; [reflexivity|apply Hs; discriminate]).
    cases c backslash.
    + assert (s <> "") by (intros ->; discriminate H). rewrite IH by auto. rewrite <- bs_push. reflexivity.
    + cases c dquote.
      * rewrite append_assoc, win_backslashes. cbn [append win_read]. change (Ascii.eqb backslash "\") with true. cbv iota.
        change (Ascii.eqb dquote "\") with false. change (Ascii.eqb dquote "034") with true. cbv iota. rewrite Nat.add_0_r.
        destruct (odd_double n) as [O1 O2]. rewrite O1, O2. rewrite IH by auto. f_equal. cbn [bs append]. rewrite !append_assoc. reflexivity.
      * rewrite append_assoc, win_backslashes. cbn [append win_read]. unfold backslash, dquote in *. neqs. cbn [negb andb]. rewrite Nat.add_0_r, IH by auto.
        f_equal. cbn [bs append]. rewrite !append_assoc. reflexivity.
Qed.
Lemma single_percents : forall s, single_percent (replace1 percent "%%" s) = s.
Proof.
  induction s as [|c s IH]; [reflexivity|]. unfold replace1 in *. cbn [map_chars]. cases c percent.
  - cbn [append]. change (single_percent (String "%" (String "%" ?r))) with (String "%" (single_percent r)). rewrite IH. reflexivity.
  - rewrite str1_app. cbn [single_percent]. destruct (map_chars _ s) as [|d r] eqn:E.
    + cbn in IH. subst s. reflexivity.
    + unfold percent in *. neqs. cbn [andb]. rewrite IH. reflexivity.
Qed.
Lemma win_word : forall s t, ends_bs s = false -> win_read false false 0 "" (String dquote (win_quotes 0 s ++ String dquote t)) = win_read false true 0 s t.
Proof.
  intros s t H. change (win_read false false 0 "" (String dquote ?r)) with (win_read true true 0 "" r). rewrite win_body by auto. cbn [bs append].
  change (win_read true true 0 s (String dquote t)) with (win_read false true 0 (s ++ "") t). rewrite append_nil_r. reflexivity.
Qed.
Definition as_path (np : string -> string) (s : string) : string := if looks_like_path s then np s else s.
Lemma ends_bs_spec : forall s, (forall a, s <> a ++ "\") -> ends_bs s = false.
Proof.
  induction s as [|c s IH]; intros H; [reflexivity|]. destruct s as [|d s].
  - cbn [ends_bs]. cases c "\"%char; [exfalso; apply (H ""); reflexivity|reflexivity].
  - change (ends_bs (String c (String d s))) with (ends_bs (String d s)). apply IH. intros a E. apply (H (String c a)). cbn [append]. rewrite E. reflexivity.
Qed.
Lemma rsp_shape : forall np s, quote_for_rsp_file np true s = replace1 percent "%%" (String dquote (win_quotes 0 (as_path np s) ++ str1 dquote)).
Proof.
  intros np s. unfold quote_for_rsp_file. cbv zeta iota. fold (as_path np s). rewrite <- (str1_app dquote). unfold replace1. rewrite !map_chars_app. reflexivity.
Qed.
Lemma win_list : forall l, (forall x, In x l -> ends_bs x = false) ->
  win_read false false 0 "" (join_with " " (map (fun x => String dquote (win_quotes 0 x ++ str1 dquote)) l)) = Some l.
Proof.
  set (f := fun x => String dquote (win_quotes 0 x ++ str1 dquote)).
  assert (G : forall l v, (forall x, In x (v :: l) -> ends_bs x = false) -> win_read false false 0 "" (join_with " " (map f (v :: l))) = Some (v :: l)).
  { induction l as [|y l IH]; intros v H; unfold join_with in *; cbn [map] in *.
    - unfold f. cbn [String.concat]. change (str1 dquote) with (String dquote ""). rewrite win_word by (apply H; left; reflexivity). cbn [win_read orb bs]. rewrite append_nil_r. reflexivity.
    - change (String.concat " " (f v :: f y :: map f l)) with (f v ++ String " " (String.concat " " (f y :: map f l))). unfold f at 1. cbn [append]. rewrite append_assoc, str1_app.
      rewrite win_word by (apply H; left; reflexivity). cbn [win_read]. change (Ascii.eqb " " "\") with false. change (Ascii.eqb " " "034") with false. cbn [negb andb orb]. cbv iota.
      change (Ascii.eqb " " " " || Ascii.eqb " " "009") with true. cbv iota. rewrite IH by (intros x Hx; apply H; right; exact Hx). cbn [bs]. rewrite append_nil_r. reflexivity. }
  intros [|v l] H; [reflexivity|apply G; exact H].
Qed.
Lemma replace_join : forall c by_ sep l, replace1 c by_ sep = sep -> join_with sep (map (replace1 c by_) l) = replace1 c by_ (join_with sep l).
Proof.
  intros c by_ sep l Hs. assert (G : forall l0 v, join_with sep (map (replace1 c by_) (v :: l0)) = replace1 c by_ (join_with sep (v :: l0))).
  { induction l0 as [|y r IH]; intros v; [reflexivity|]. unfold join_with in *. cbn [map] in *. 
    change (String.concat sep (v :: y :: r)) with (v ++ sep ++ String.concat sep (y :: r)).
    change (String.concat sep (replace1 c by_ v :: replace1 c by_ y :: map (replace1 c by_) r)) with (replace1 c by_ v ++ sep ++ String.concat sep (replace1 c by_ y :: map (replace1 c by_) r)).
    rewrite IH. rewrite <- Hs at 1. unfold replace1. rewrite !map_chars_app. reflexivity. }
  destruct l as [|v l]; [reflexivity|apply G].
Qed.
Lemma replace_none : forall c by_ s, has_char c s = false -> replace1 c by_ s = s.
Proof.
  intros c by_. induction s as [|x s IH]; intros H; [reflexivity|]. apply has_char_false in H. destruct H as [n H]. unfold replace1 in *. cbn [map_chars]. neqs. rewrite IH by exact H. reflexivity.
Qed.
Lemma rsp_join : forall np l, join_with " " (map (quote_for_rsp_file np true) l) =
  replace1 percent "%%" (join_with " " (map (fun x => String dquote (win_quotes 0 x ++ str1 dquote)) (map (as_path np) l))).
Proof.
  intros np l. rewrite <- replace_join by reflexivity. f_equal. rewrite !map_map. apply map_ext. intros s. apply rsp_shape.
Qed.
Theorem rsp_list : forall np p l, (forall x a, In x l -> as_path np x <> a ++ "\") ->
  exists program rest, encode_rsp_file_list np true (p :: l) = program ++ " " ++ rest /\ win_arguments (single_percent rest) = Some (map (as_path np) l).
Proof.
  intros np p l H. cbn [encode_rsp_file_list]. cbv zeta. eexists. eexists. split; [reflexivity|]. rewrite rsp_join, single_percents. apply win_list.
  intros x Hx. apply in_map_iff in Hx. destruct Hx as (y & <- & Hy). apply ends_bs_spec. intros a. apply H. exact Hy.
Qed.
Theorem rsp_argument : forall np s, (forall a, as_path np s <> a ++ "\") -> win_arguments (single_percent (quote_for_rsp_file np true s)) = Some [as_path np s].
Proof.
  intros np s H. pose proof (rsp_join np [s]) as E. cbn [map] in E. unfold join_with in E at 1. cbn [String.concat] in E. rewrite E, single_percents.
  apply (win_list [as_path np s]). intros x [<-|[]]. apply ends_bs_spec. exact H.
Qed.
Lemma win_quotes_char : forall c s n, c <> backslash -> c <> dquote -> has_char c s = false -> has_char c (win_quotes n s) = false.
Proof.
  intros c s n N1 N2. assert (HB : forall k, has_char c (backslashes k) = false) by (induction k as [|k IH]; [reflexivity|]; cbn [backslashes]; apply has_char_false; auto).
  revert n. induction s as [|x s IH]; intros n H; [apply HB|]. apply has_char_false in H. destruct H as [n0 H]. cbn [win_quotes]. cases x backslash; [apply IH; exact H|].
  cases x dquote; rewrite has_char_app, HB; cbn [orb]; repeat (apply has_char_false; split; [auto|]); apply IH; exact H.
Qed.
Theorem rsp_direct : forall np s, (forall a, as_path np s <> a ++ "\") -> has_char "%" (as_path np s) = false ->
  win_arguments (quote_for_rsp_file np true s) = Some [as_path np s].
Proof.
  intros np s H HP. rewrite <- (rsp_argument np s H). f_equal. rewrite rsp_shape, single_percents. apply replace_none.
  apply has_char_false. split; [discriminate|]. rewrite has_char_app, win_quotes_char by (auto; discriminate). reflexivity.
Qed.

(** ** Findings *)
Lemma ninja_backslash : exists s, sh_arguments (quote_shell_argument s) = Some [literal "ab"] /\ s = "a\b".
Proof. exists "a\b". split; reflexivity. Qed.
Lemma ninja_newline : exists s, quote_shell_argument s = s /\ s = String "a" (String newline "") /\ sh_arguments s <> Some [literal s].
Proof. eexists. split; [|split; [reflexivity|]]; [reflexivity|discriminate]. Qed.
Lemma define_backslash_hash : exists d, make_value (escape_cpp_define d) = Some "'A=\" /\ d = "A=\#b".
Proof. exists "A=\#b". split; reflexivity. Qed.
Lemma define_newline : exists d, make_value (escape_cpp_define d) = Some "'A=" /\ d = "A=" ++ String newline "b".
Proof. eexists. split; [|reflexivity]. reflexivity. Qed.
Lemma c_trigraph : exists s, c_literal (trigraphs (escape_for_c_string s)) <> Some s /\ s = "what??!".
Proof. exists "what??!". split; [discriminate|reflexivity]. Qed.
Lemma rsp_trailing : exists s, win_arguments (single_percent (quote_for_rsp_file (fun p => p) true s)) = None /\ s = "dir\".
Proof. exists "dir\". split; reflexivity. Qed.
Lemma rsp_two : exists a b, win_arguments (join_with " " (map (quote_for_rsp_file (fun p => p) true) [a; b])) <> Some [a; b] /\ a = "C:\dir\" /\ b = "x".
Proof. exists "C:\dir\", "x". split; [discriminate|]. split; reflexivity. Qed.
Lemma rsp_percent : exists s, win_arguments (quote_for_rsp_file (fun p => p) true s) = Some ["100%%"] /\ s = "100%".
Proof. exists "100%". split; reflexivity. Qed.
(** Without "??" trigraph replacement changes nothing. *)
Lemma trigraphs_eq : forall a b c s, trigraphs (String a (String b (String c s))) =
  match Ascii.eqb a "?" && Ascii.eqb b "?", trigraph c with true, Some d => String d (trigraphs s) | _, _ => String a (trigraphs (String b (String c s))) end.
Proof. reflexivity. Qed.
Lemma trigraphs_none : forall s, (forall a b, s <> a ++ "??" ++ b) -> trigraphs s = s.
Proof.
  induction s as [|a s IH]; intros H; [reflexivity|]. assert (Hs : forall x b, s <> x ++ "??" ++ b) by (intros x b E; apply (H (String a x) b); cbn [append]; rewrite E; reflexivity).
  specialize (IH Hs). destruct s as [|b s]; [reflexivity|]. destruct s as [|c s]; [reflexivity|]. rewrite trigraphs_eq, IH.
  destruct (Ascii.eqb_spec a "?") as [->|]; [destruct (Ascii.eqb_spec b "?") as [->|]|]; cbn [andb]; [exfalso; apply (H "" (String c s)); reflexivity| |]; reflexivity.
Qed.
Lemma escape_qq : forall s, (forall a b, s <> a ++ "??" ++ b) -> forall a b, escape_for_c_string s <> a ++ "??" ++ b.
Proof.
  unfold escape_for_c_string. induction s as [|c s IH]; intros H a b E; [destruct a; discriminate E|].
  assert (Hs : forall x y, s <> x ++ "??" ++ y) by (intros x y E'; apply (H (String c x) y); cbn [append]; rewrite E'; reflexivity).
  specialize (IH Hs). cbn [map_chars] in E. destruct (c_plain c) eqn:Ec.
  - rewrite str1_app in E. destruct a as [|x a]; [|injection E as _ E; apply (IH a b); exact E]. injection E as Ex E. subst c.
    destruct s as [|d s]; [discriminate|]. cbn [map_chars] in E. destruct (c_plain d) eqn:Ed; [|discriminate E]. rewrite str1_app in E. injection E as Ed' E. subst d.
    apply (H "" s). reflexivity.
  - cbn [append] in E. destruct a as [|x a]; [discriminate E|]. injection E as _ E. unfold octal3 in E. cbv zeta in E. cbn [append str1] in E.
    assert (Q : forall n, (n < 8)%N -> octal_digit n <> "?"%char).
    { intros n Hn. assert (E8 : In n [0;1;2;3;4;5;6;7]%N) by (assert (E8 : (n = 0 \/ n = 1 \/ n = 2 \/ n = 3 \/ n = 4 \/ n = 5 \/ n = 6 \/ n = 7)%N) by lia; cbn; intuition).
      repeat (destruct E8 as [<-|E8]; [discriminate|]). destruct E8. }
    assert (HN : (N_of_ascii c < 256)%N) by apply N_ascii_bounded.
    assert (Q1 : octal_digit (N_of_ascii c / 64) <> "?"%char) by (apply Q; apply N.div_lt_upper_bound; lia).
    assert (Q2 : octal_digit (N_of_ascii c / 8 mod 8) <> "?"%char) by (apply Q; apply N.mod_lt; lia).
    assert (Q3 : octal_digit (N_of_ascii c mod 8) <> "?"%char) by (apply Q; apply N.mod_lt; lia).
    destruct a as [|a1 a]; [injection E as E1 E; contradiction|]. injection E as _ E. destruct a as [|a2 a]; [injection E as E1 E; contradiction|]. injection E as _ E.
    destruct a as [|a3 a]; [injection E as E1 E; contradiction|]. injection E as _ E. apply (IH a b). exact E.
Qed.
Theorem c_string_trigraphs : forall s, (forall a b, s <> a ++ "??" ++ b) -> c_literal (trigraphs (escape_for_c_string s)) = Some s.
Proof. intros s H. rewrite trigraphs_none by (apply escape_qq; exact H). apply c_string. Qed.
Lemma not_path : forall np s, (forall c r, s = String c r -> has_char "/" r = false) -> as_path np s = s.
Proof. intros np [|c r] H; [reflexivity|]. unfold as_path, looks_like_path. change slash with "/"%char. rewrite (H c r eq_refl). reflexivity. Qed.
Theorem rsp_plain : forall np s, (forall c r, s = String c r -> has_char "/" r = false) -> (forall a, s <> a ++ "\") ->
  win_arguments (single_percent (quote_for_rsp_file np true s)) = Some [s] /\
  (has_char "%" s = false -> win_arguments (quote_for_rsp_file np true s) = Some [s]).
Proof.
  intros np s HP HB. pose proof (not_path np s HP) as E. split.
  - rewrite rsp_argument; rewrite E; auto.
  - intros H. rewrite rsp_direct; rewrite E; auto.
Qed.
