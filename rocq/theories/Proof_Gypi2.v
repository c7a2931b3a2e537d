(** Proofs about parseConfigGypi. *)
From Coq Require Import ZArith.
From Verif Require Import Lib LibFacts Str StrFacts Js Model_Value Spec_Text Proof_Text Model_Json Model_Gypi Spec_Gypi Proof_Json Proof_Gypi.
Local Open Scope string_scope.

Lemma has_cons : forall a b s, has_char a (String b s) = (Ascii.eqb b a || has_char a s)%bool.
Proof. intros a b s. cbn [has_char]. destruct (Ascii.eqb b a); reflexivity. Qed.
Lemma has_head : forall a s, has_char a (String a s) = true.
Proof. intros a s. rewrite has_cons, Ascii.eqb_refl. reflexivity. Qed.
Lemma has_tail : forall a b s, has_char a s = true -> has_char a (String b s) = true.
Proof. intros a b s H. rewrite has_cons, H. apply orb_true_r. Qed.
Lemma blanks_cons : forall a w, blanks (String a w) <-> (a = " "%char \/ a = "010"%char) /\ blanks w.
Proof.
  intros a w. split.
  - intros H. split; [apply H, has_head|]. intros b Hb. apply H, has_tail, Hb.
  - intros [A B] b Hb. rewrite has_cons in Hb. apply orb_true_iff in Hb. destruct Hb as [Hb|Hb]; [|apply B, Hb]. apply Ascii.eqb_eq in Hb. subst b. exact A.
Qed.
Lemma plain_cons : forall a p, plain (String a p) <-> ((32 <= N_of_ascii a)%N /\ ~ In a ["'"; """"; "\"; "#"]%char) /\ plain p.
Proof.
  intros a w. split.
  - intros H. split; [apply H, has_head|]. intros b Hb. apply H, has_tail, Hb.
  - intros [A B] b Hb. rewrite has_cons in Hb. apply orb_true_iff in Hb. destruct Hb as [Hb|Hb]; [|apply B, Hb]. apply Ascii.eqb_eq in Hb. subst b. exact A.
Qed.

(** ** Comments *)
Lemma strip_no : forall t r, has_char "#" t = false -> strip_comments false (t ++ r) = t ++ strip_comments false r.
Proof.
  induction t as [|a t IH]; intros r H; [reflexivity|]. cbn [append strip_comments]. rewrite has_cons in H. apply orb_false_iff in H. destruct H as [H1 H2]. rewrite H1, IH by exact H2. reflexivity.
Qed.
Lemma strip_in : forall c r, has_char "010" c = false -> has_char "013" c = false -> strip_comments true (c ++ String "010" r) = String "010" (strip_comments false r).
Proof.
  induction c as [|a c IH]; intros r H1 H2; [reflexivity|]. cbn [append strip_comments]. rewrite has_cons in H1, H2. apply orb_false_iff in H1, H2. destruct H1 as [A1 A2], H2 as [B1 B2]. unfold line_end, lf. rewrite A1, B1. cbn [orb]. apply IH; assumption.
Qed.
Lemma strip_gap : forall g, gap g -> exists w, blanks w /\ forall r, strip_comments false (g ++ r) = w ++ strip_comments false r.
Proof.
  induction 1 as [|a g Ha G (w & W & E)|c g H1 H2 G (w & W & E)].
  - exists "". split; [intros a X; discriminate|reflexivity].
  - exists (String a w). split; [apply blanks_cons; split; [destruct Ha as [<-|[<-|[]]]; auto|exact W]|]. intros r. cbn [append strip_comments]. destruct Ha as [<-|[<-|[]]]; cbn [Ascii.eqb Bool.eqb]; rewrite E; reflexivity.
  - exists (String "010" w). split; [apply blanks_cons; auto|]. intros r. change (("#" ++ c ++ newline ++ g) ++ r) with (String "#" ((c ++ newline ++ g) ++ r)). rewrite !append_assoc.
    change (newline ++ g ++ r) with (String "010" (g ++ r)). cbn [strip_comments Ascii.eqb Bool.eqb]. rewrite strip_in by assumption. rewrite E. reflexivity.
Qed.
Lemma plain_no : forall p a, plain p -> In a ["'"; """"; "\"; "#"]%char -> has_char a p = false.
Proof. intros p a H Ha. destruct (has_char a p) eqn:E; [|reflexivity]. destruct (H a E) as [_ X]. contradiction. Qed.
Lemma blanks_no : forall w a, blanks w -> a <> " "%char -> a <> "010"%char -> has_char a w = false.
Proof. intros w a H H1 H2. destruct (has_char a w) eqn:E; [|reflexivity]. destruct (H a E); contradiction. Qed.
Lemma string_no_hash : forall s t, writes_string s t -> has_char "#" t = false.
Proof.
  induction 1 as [p P|p w s t P W H IH].
  - change ("'" ++ p ++ "'") with (String "'" (p ++ "'")). rewrite has_cons, has_char_app, (plain_no p) by (assumption || (cbn; auto)). reflexivity.
  - change ("'" ++ p ++ "'" ++ newline ++ w ++ t) with (String "'" (p ++ String "'" (String "010" (w ++ t)))). rewrite has_cons, has_char_app, (plain_no p) by (assumption || (cbn; auto)). rewrite !has_cons, has_char_app, IH, (blanks_no w) by (assumption || discriminate). reflexivity.
Qed.
Lemma digits_has : forall s a, digits s -> ~ digit a -> has_char a s = false.
Proof. induction 1 as [|b s D H IH]; intros N; [reflexivity|]. rewrite has_cons, IH by exact N. destruct (Ascii.eqb_spec b a); [subst; contradiction|reflexivity]. Qed.
Lemma rendering_has : forall z a, ~ digit a -> a <> "-"%char -> has_char a (rendering z) = false.
Proof.
  intros z a N M. destruct (rendering_shape z) as [-> |(sign & b & s & -> & HS & D & _ & DS)].
  - rewrite has_cons. destruct (Ascii.eqb_spec "0" a) as [E|]; [subst; destruct N; unfold digit; cbn; auto|reflexivity].
  - rewrite has_char_app, has_cons, (digits_has s) by assumption. destruct (Ascii.eqb_spec b a); [subst; contradiction|]. destruct HS as [<-|[<-|[]]]; [reflexivity|]. rewrite has_cons. destruct (Ascii.eqb_spec "-" a) as [E|]; [subst; contradiction|reflexivity].
Qed.
Lemma digit_not : forall a, In a ["'"; """"; "\"; "#"]%char -> ~ digit a /\ a <> "-"%char.
Proof. intros a H. repeat (destruct H as [<-|H]; [split; [unfold digit; cbn; intuition discriminate|discriminate]|]). destruct H. Qed.

(** blanks for gaps, and the texts of strings kept *)
Definition blank_ok (p : src * string) : Prop := blanks (snd p) /\ match fst p with SPunct a => In a ["{"; "}"; "["; "]"; ","; ":"]%char | SNum _ => True | SStr s t => writes_string s t end.
Lemma strip_rendered : forall l, Forall src_ok l -> exists l', Forall blank_ok l' /\ stoks l' = stoks l /\ strip_comments false (rendered l) = rendered l'.
Proof.
  induction 1 as [|[x g] l [G H] F (l' & F' & S & E)]; [exists []; repeat split; constructor|]. cbn [fst snd] in *. destruct (strip_gap g G) as (w & W & SG). exists ((x, w) :: l'). split; [constructor; [split; assumption|exact F']|]. split; [cbn [stoks map fst]; f_equal; exact S|].
  cbn [rendered fst snd]. rewrite strip_no, SG, E; [reflexivity|]. destruct x as [a|z|s t]; cbn [stext].
  - repeat (destruct H as [<-|H]; [reflexivity|]). destruct H.
  - destruct (digit_not "#") as [A B]; [cbn; auto|]. apply rendering_has; assumption.
  - apply (string_no_hash _ _ H).
Qed.

(** ** Joining *)
Definition joins (s t : string) : Prop := forall n, String.length s <= n -> join_strings n s = t.
Lemma joins_nil : joins "" "".
Proof. intros [|n] _; reflexivity. Qed.
Lemma joint_char : forall a s, a <> "'"%char -> joint (String a s) = None.
Proof. intros a s H. unfold joint. destruct a as [[] [] [] [] [] [] [] []]; try reflexivity. destruct H. reflexivity. Qed.
Lemma joins_keep : forall a s t, joint (String a s) = None -> joins s t -> joins (String a s) (String a t).
Proof. intros a s t N J [|n] L; cbn [String.length] in L; [lia|]. cbn [join_strings]. rewrite N. f_equal. apply J. lia. Qed.
Lemma joins_over : forall s u t, joint s = Some u -> String.length u < String.length s -> joins u t -> joins s t.
Proof. intros s u t E L J [|n] M; [lia|]. cbn [join_strings]. rewrite E. apply J. lia. Qed.
Lemma joins_plain : forall w s t, has_char "'" w = false -> joins s t -> joins (w ++ s) (w ++ t).
Proof.
  induction w as [|a w IH]; intros s t H J; [exact J|]. rewrite has_cons in H. apply orb_false_iff in H. destruct H as [H1 H2]. cbn [append]. apply joins_keep; [apply joint_char; intros ->; discriminate|apply IH; assumption].
Qed.
(** what can come after a string *)
Definition no_joint (r : string) : Prop := joint (String "'" r) = None.
Lemma joint_plain : forall p r, plain p -> no_joint (p ++ String "'" r).
Proof.
  intros [|a p] r P; [reflexivity|]. apply plain_cons in P. destruct P as [[P _] _]. unfold no_joint. cbn [append joint]. destruct (line_end a) eqn:L; [|reflexivity]. exfalso. unfold line_end in L. apply orb_true_iff in L.
  destruct L as [L|L]; apply Ascii.eqb_eq in L; subst a; cbn in P; lia.
Qed.
Lemma after_gap_blanks : forall w r, blanks w -> after_gap (w ++ r) = after_gap r.
Proof. induction w as [|a w IH]; intros r B; [reflexivity|]. apply blanks_cons in B. destruct B as [[-> | ->] B]; cbn [append after_gap]; [change (js_space " ") with true|change (js_space "010") with true]; apply IH, B. Qed.
Lemma length_app : forall a b, String.length (a ++ b) = String.length a + String.length b.
Proof. induction a as [|c a IH]; intros b; [reflexivity|]. cbn [append String.length]. rewrite IH. reflexivity. Qed.
Lemma joins_string : forall s t, writes_string s t -> exists b, t = String "'" b /\ no_joint b /\ forall r u, no_joint r -> joins r u -> no_joint (b ++ r) /\ joins (b ++ r) (s ++ String "'" u).
Proof.
  induction 1 as [p P|p w s t P W H (b & -> & NB & IH)].
  - exists (p ++ "'"). split; [reflexivity|]. split; [apply joint_plain, P|]. intros r u NR J. rewrite append_assoc. cbn [append]. split; [apply joint_plain, P|].
    apply joins_plain; [apply plain_no; [exact P|cbn; auto]|]. apply joins_keep; assumption.
  - exists (p ++ "'" ++ newline ++ w ++ String "'" b). split; [reflexivity|]. split; [apply joint_plain, P|]. intros r u NR J. rewrite !append_assoc. destruct (IH r u NR J) as [NJ IJ]. split; [apply joint_plain, P|]. apply joins_plain; [apply plain_no; [exact P|cbn; auto]|].
    cbn [append]. apply (joins_over _ (b ++ r)).
    + unfold newline. cbn [append joint]. change (line_end "010") with true. cbn iota. replace ((w ++ String "'" b) ++ r) with (w ++ String "'" (b ++ r)) by (rewrite append_assoc; reflexivity). rewrite after_gap_blanks by exact W. reflexivity.
    + unfold newline. cbn [append String.length]. repeat (rewrite ?length_app; cbn [append String.length]). lia.
    + exact IJ.
Qed.
(** the texts of strings joined *)
Definition joined_text (x : src) : string := match x with SStr s _ => "'" ++ s ++ "'" | _ => stext x end.
Fixpoint joined (l : list (src * string)) : string := match l with [] => "" | p :: l' => joined_text (fst p) ++ snd p ++ joined l' end.
Definition starts_marked (l : list (src * string)) : Prop := match l with (SPunct _, _) :: _ | [] => True | _ => False end.
Lemma mark_ends : forall l, Forall blank_ok l -> starts_marked l -> forall w, blanks w -> no_joint (w ++ rendered l).
Proof.
  intros l F S w W. destruct w as [|a w].
  - destruct l as [|[[a| |] g] l]; [reflexivity| |destruct S..]. apply Forall_cons_iff in F. destruct F as [[_ H] _]. cbn [fst] in H. cbn [append rendered stext fst]. unfold no_joint. repeat (destruct H as [<-|H]; [reflexivity|]). destruct H.
  - apply blanks_cons in W. destruct W as [[-> | ->] W]; [reflexivity|]. unfold no_joint. cbn [append joint]. change (line_end "010") with true. cbn iota. rewrite after_gap_blanks by exact W.
    destruct l as [|[[a| |] g] l]; [reflexivity| |destruct S..]. apply Forall_cons_iff in F. destruct F as [[_ H] _]. cbn [fst] in H. cbn [append rendered stext fst]. repeat (destruct H as [<-|H]; [reflexivity|]). destruct H.
Qed.
Lemma joins_rendered : forall l, Forall blank_ok l -> apart (stoks l) -> joins (rendered l) (joined l).
Proof.
  intros l F. induction F as [|[x w] l [W H] F IH]; intros A; [apply joins_nil|]. cbn [fst snd] in *. assert (A' : apart (stoks l)) by (destruct l; [exact I|apply A]). specialize (IH A'). cbn [rendered joined fst snd].
  assert (B : joins (w ++ rendered l) (w ++ joined l)) by (apply joins_plain; [apply blanks_no; [exact W|discriminate..]|exact IH]).
  destruct x as [a|z|s t]; cbn [stext joined_text].
  - apply joins_plain; [|exact B]. repeat (destruct H as [<-|H]; [reflexivity|]). destruct H.
  - apply joins_plain; [|exact B]. destruct (digit_not "'") as [X Y]; [cbn; auto|]. apply rendering_has; assumption.
  - destruct (joins_string _ _ H) as (b & -> & NB & J). assert (N : no_joint (w ++ rendered l)).
    { apply mark_ends; [exact F| |exact W]. destruct l as [|[[| |] ?] l]; [exact I|exact I|destruct A as [A _]; specialize (A eq_refl); discriminate..]. }
    destruct (J _ _ N B) as [N' J']. cbn [append]. rewrite append_assoc. cbn [append]. apply joins_keep; assumption.
Qed.

(** ** Quotes *)
Lemma requote_app : forall a b, requote (a ++ b) = requote a ++ requote b.
Proof. induction a as [|c a IH]; intros b; [reflexivity|]. cbn [append requote]. rewrite IH. reflexivity. Qed.
Lemma requote_no : forall s, has_char "'" s = false -> requote s = s.
Proof. induction s as [|a s IH]; intros H; [reflexivity|]. rewrite has_cons in H. apply orb_false_iff in H. destruct H as [H1 H2]. cbn [requote]. rewrite H1, IH by exact H2. reflexivity. Qed.
Lemma plain_app : forall a b, plain a -> plain b -> plain (a ++ b).
Proof. intros a b A B c H. rewrite has_char_app in H. apply orb_true_iff in H. destruct H; [apply A|apply B]; assumption. Qed.
Lemma string_plain : forall s t, writes_string s t -> plain s.
Proof. induction 1; [assumption|apply plain_app; assumption]. Qed.
(** as JSON *)
Definition json_piece (p : src * string) : piece := (match fst p with SStr s _ => String quote (s ++ String quote "") | x => stext x end, stok (fst p), snd p).
Lemma requote_joined : forall l, Forall blank_ok l -> requote (joined l) = render (map json_piece l).
Proof.
  induction 1 as [|[x w] l [W H] F IH]; [reflexivity|]. cbn [joined map render fst snd] in *. rewrite !requote_app, IH, (requote_no w) by (apply blanks_no; [exact W|discriminate..]). cbn [json_piece text_of gap_of fst snd]. f_equal.
  destruct x as [a|z|s t]; cbn [joined_text stext].
  - apply requote_no. repeat (destruct H as [<-|H]; [reflexivity|]). destruct H.
  - apply requote_no. destruct (digit_not "'") as [X Y]; [cbn; auto|]. apply rendering_has; assumption.
  - change ("'" ++ s ++ "'") with (String "'" (s ++ "'")). cbn [requote Ascii.eqb Bool.eqb]. rewrite requote_app, requote_no by (apply plain_no; [apply (string_plain _ _ H)|cbn; auto]). reflexivity.
Qed.
Lemma drive_plain : forall lang q s acc, (q = quote \/ q = "'"%char) -> plain s -> drive lang (InStr q acc) s = Some (InStr q (acc ++ s)).
Proof.
  intros lang q s. induction s as [|a s IH]; intros acc Q P; [rewrite append_nil_r; reflexivity|]. apply plain_cons in P. destruct P as [[P1 P2] P]. cbn [drive step].
  assert (N1 : Ascii.eqb a q = false) by (apply Ascii.eqb_neq; intros ->; apply P2; destruct Q as [-> | ->]; cbn; auto).
  assert (N2 : Ascii.eqb a "\" = false) by (apply Ascii.eqb_neq; intros ->; apply P2; cbn; auto).
  assert (N3 : match lang with Json => N.ltb (N_of_ascii a) 32 | Python => (Ascii.eqb a lf || Ascii.eqb a "013" || Ascii.eqb a "000")%bool end = false).
  { destruct lang; [apply N.ltb_ge, P1|]. rewrite !orb_false_iff. repeat split; apply Ascii.eqb_neq; intros ->; exact (P1 eq_refl). }
  rewrite N1, N2, N3, IH by assumption. rewrite append_assoc. reflexivity.
Qed.
Lemma lexes_plain : forall lang q s, (q = quote \/ lang = Python /\ q = "'"%char) -> plain s -> lexes lang (String q (s ++ String q "")) (TStr s).
Proof.
  intros lang q s Q P rest _. cbn [append]. rewrite lex_cons. replace (step lang Out q) with (Some (@nil tok, InStr q "")) by (destruct Q as [-> |[-> ->]]; [destruct lang|]; reflexivity). rewrite option_map_nil, append_assoc.
  rewrite (drive_lex _ _ _ _ _ (drive_plain lang q s "" ltac:(destruct Q as [Q|[_ Q]]; auto) P)). cbn [append]. rewrite lex_cons. cbn [step]. rewrite Ascii.eqb_refl. reflexivity.
Qed.
Lemma blanks_white : forall w, blanks w -> white_gap w.
Proof.
  intros w B. split; [|split].
  - induction w as [|a w IH]; [apply skips_nil|]. apply blanks_cons in B. destruct B as [H B]. apply skips_white; [destruct H as [-> | ->]; reflexivity|apply IH, B].
  - induction w as [|a w IH]; [apply skips_nil|]. apply blanks_cons in B. destruct B as [H B]. apply skips_white; [destruct H as [-> | ->]; reflexivity|apply IH, B].
  - destruct w as [|a w]; [exact I|]. apply blanks_cons in B. destruct B as [H B]. destruct H as [-> | ->]; repeat split.
Qed.
Lemma json_piece_ok : forall p, blank_ok p -> piece_ok Json (json_piece p).
Proof.
  intros [x w] [W H]. cbn [fst snd] in *. apply blanks_white in W. destruct x as [a|z|s t].
  - exact (good_punct a w H W Json).
  - exact (good_num z w W Json).
  - destruct W as (W1 & _ & W2). split; [apply lexes_plain; [auto|apply (string_plain _ _ H)]|]. split; [exact W1|]. split; [|exact W2]. intros _. split; [repeat split|discriminate].
Qed.
Lemma stoks_json : forall l, map tok_of (map json_piece l) = stoks l.
Proof. intros l. rewrite map_map. reflexivity. Qed.

Theorem parse_plain : forall v text, unique v -> writes_file v text -> parse_config_gypi text = Some v.
Proof.
  intros v text U (g & t & g' & G & G' & W & ->). destruct (proj1 writes_sources v t W g' G') as (l & R & S & F). destruct (strip_rendered l F) as (l' & F' & S' & E). destruct (strip_gap g G) as (w & BW & SG).
  unfold parse_config_gypi, json_parse. rewrite <- R, SG, E. assert (A : apart (stoks l')) by (rewrite S', S; apply apart_toks).
  assert (J : joins (w ++ rendered l') (w ++ joined l')) by (apply joins_plain; [apply blanks_no; [exact BW|discriminate..]|apply joins_rendered; assumption]). rewrite (J _ (le_n _)).
  rewrite requote_app, requote_joined, requote_no by (exact F' || (apply blanks_no; [exact BW|discriminate..])). unfold read.
  destruct (blanks_white w BW) as (WJ & _). rewrite WJ, lex_render; [|apply Forall_map; eapply Forall_impl; [|exact F']; apply json_piece_ok|rewrite stoks_json; apply apart_separate, A].
  rewrite stoks_json, S', S, <- (app_nil_r (toks v)), parse_value; [reflexivity|exact U|exact I].
Qed.

(** ** Python reads the same *)
Lemma two_strings : forall st a b ts, parse_toks Python st (TStr a :: TStr b :: ts) = parse_toks Python st (TStr (a ++ b) :: ts).
Proof.
  intros st a b ts. cbn [parse_toks]. destruct st as [c stk|c d stk|k d stk|v stk].
  - destruct c, stk as [|[|] stk]; reflexivity.
  - destruct c; reflexivity.
  - cbn [parse_step]. rewrite append_assoc. reflexivity.
  - destruct v, stk as [|[|] stk]; try reflexivity; cbn [parse_step]; rewrite append_assoc; reflexivity.
Qed.
(** the same tokens, strings possibly in parts *)
Inductive in_parts : list tok -> list tok -> Prop :=
| ip_nil : in_parts [] []
| ip_same t ts ts' : in_parts ts ts' -> in_parts (t :: ts) (t :: ts')
| ip_part a b ts ts' : in_parts (TStr b :: ts) ts' -> in_parts (TStr (a ++ b) :: ts) (TStr a :: ts').
Lemma parse_in_parts : forall ts ts', in_parts ts ts' -> forall st, parse_toks Python st ts' = parse_toks Python st ts.
Proof.
  induction 1 as [|t ts ts' H IH|a b ts ts' H IH]; intros st; [reflexivity| |].
  - cbn [parse_toks]. destruct (parse_step Python st t); [apply IH|reflexivity].
  - rewrite <- two_strings. cbn [parse_toks]. destruct (parse_step Python st (TStr a)); [apply IH|reflexivity].
Qed.
Lemma gap_skips : forall g, gap g -> skips Python g /\ boundary g.
Proof.
  induction 1 as [|a g Ha G [IH B]|c g H1 H2 G [IH B]]; [split; [apply skips_nil|exact I]| |].
  - split; [apply skips_white; [destruct Ha as [<-|[<-|[]]]; reflexivity|exact IH]|]. destruct Ha as [<-|[<-|[]]]; repeat split.
  - split; [|repeat split]. intros rest. change (("#" ++ c ++ newline ++ g) ++ rest) with (String "#" ((c ++ newline ++ g) ++ rest)). rewrite lex_cons. change (step Python Out "#") with (Some (@nil tok, Comment)). cbv iota. rewrite option_map_nil, !append_assoc.
    assert (L : forall c r, has_char "010" c = false -> lex Python Comment (c ++ newline ++ r) = lex Python Out r).
    { clear. induction c as [|a c IH]; intros r H; [unfold newline; cbn [append]; rewrite lex_cons; cbn [step]; change (Ascii.eqb "010" lf) with true; cbv iota; apply option_map_nil|].
      rewrite has_cons in H. apply orb_false_iff in H. destruct H as [H1 H2]. cbn [append]. rewrite lex_cons. cbn [step]. unfold lf. rewrite H1, option_map_nil. apply IH, H2. }
    rewrite L by exact H1. apply IH.
Qed.
Lemma string_pieces : forall s t, writes_string s t -> forall g, gap g -> exists ps, ps <> [] /\ render ps = t ++ g /\ Forall (piece_ok Python) ps /\ Forall (fun p => exists x, tok_of p = TStr x) ps /\ forall ts ts', in_parts ts ts' -> in_parts (TStr s :: ts) (map tok_of ps ++ ts').
Proof.
  assert (OK : forall p g, plain p -> skips Python g -> boundary g -> piece_ok Python (String "'" (p ++ "'"), TStr p, g)).
  { intros p g P S B. split; [apply (lexes_plain Python "'" p); auto|]. split; [exact S|]. split; [|exact B]. intros _. split; [repeat split|discriminate]. }
  induction 1 as [p P|p w s t P W H IH]; intros g G.
  - destruct (gap_skips g G) as [S B]. exists [(String "'" (p ++ "'"), TStr p, g)]. split; [discriminate|]. split; [cbn [render text_of gap_of fst snd]; rewrite append_nil_r; reflexivity|]. split; [constructor; [apply OK; assumption|constructor]|]. split; [constructor; [exists p; reflexivity|constructor]|].
    intros ts ts' I. cbn [map tok_of fst snd app]. apply ip_same, I.
  - destruct (IH g G) as (ps & NE & R & F & TS & IP). destruct (blanks_white (String "010" w)) as (_ & S & B); [apply blanks_cons; auto|]. exists ((String "'" (p ++ "'"), TStr p, String "010" w) :: ps). split; [discriminate|].
    split; [cbn [render text_of gap_of fst snd]; rewrite R; unfold newline; cbn [append]; repeat (rewrite ?append_assoc; cbn [append]); reflexivity|]. split; [constructor; [apply OK; assumption|exact F]|]. split; [constructor; [exists p; reflexivity|exact TS]|].
    intros ts ts' I. cbn [map tok_of fst snd app]. apply ip_part. apply IP, I.
Qed.
Lemma python_pieces : forall l, Forall src_ok l -> apart (stoks l) -> exists ps, render ps = rendered l /\ Forall (piece_ok Python) ps /\ separate (map tok_of ps) /\ in_parts (stoks l) (map tok_of ps) /\
  match l with (SPunct a, _) :: _ => exists g r, ps = (String a "", TPunct a, g) :: r | _ => True end.
Proof.
  intros l F. induction F as [|[x g] l [G H] F IH]; intros A; [exists []; repeat split; constructor|]. cbn [fst snd] in *. assert (A' : apart (stoks l)) by (destruct l; [exact I|apply A]). destruct (IH A') as (ps & R & FP & S & IP & HD). destruct (gap_skips g G) as [SK B].
  destruct x as [a|z|s t].
  - exists ((String a "", TPunct a, g) :: ps). split; [cbn [render rendered text_of gap_of stext fst snd]; rewrite R; reflexivity|].
    split; [constructor; [|exact FP]|split; [|split; [apply ip_same, IP|exists g, ps; reflexivity]]].
    + split; [apply punct_cases, H|]. split; [exact SK|]. split; [|exact B]. intros _. cbn [text_of fst]. split; [|discriminate]. repeat (destruct H as [<-|H]; [repeat split|]). destruct H.
    + cbn [map tok_of fst snd]. destruct ps; [exact I|]. split; [discriminate|exact S].
  - exists ((rendering z, TNum z, g) :: ps). split; [cbn [render rendered text_of gap_of stext fst snd]; rewrite R; reflexivity|].
    split; [constructor; [|exact FP]|split; [|split; [apply ip_same, IP|exact I]]].
    + split; [apply lexes_num|]. split; [exact SK|]. split; [discriminate|exact B].
    + cbn [map tok_of fst snd]. destruct l as [|[y g1] l]; [destruct ps; [exact I|inversion IP]|]. destruct A as [A _]. specialize (A eq_refl). destruct y; try discriminate. destruct HD as (g2 & r & ->). split; [reflexivity|exact S].
  - destruct (string_pieces s t H g G) as (sp & NE & RS & FS & TS & IS). exists (sp ++ ps)%list. split; [rewrite render_app, RS, R; cbn [rendered stext fst snd]; rewrite append_assoc; reflexivity|].
    split; [apply Forall_app; auto|]. split; [|split; [rewrite map_app; apply IS, IP|exact I]]. rewrite map_app. clear - TS S. induction TS as [|p sp (y & E) TS IH]; [exact S|]. cbn [map app]. rewrite E. destruct (map tok_of sp ++ map tok_of ps)%list; [exact I|]. split; [discriminate|exact IH].
Qed.
Theorem python_plain : forall v text, unique v -> writes_file v text -> py_eval text = Some v.
Proof.
  intros v text U (g & t & g' & G & G' & W & ->). destruct (proj1 writes_sources v t W g' G') as (l & R & S & F). assert (A : apart (stoks l)) by (rewrite S; apply apart_toks).
  destruct (python_pieces l F A) as (ps & RP & FP & SP & IP & _). unfold py_eval, read. rewrite <- R. destruct (gap_skips g G) as [SK _]. rewrite SK, <- RP, lex_render by assumption. rewrite (parse_in_parts _ _ IP), S, <- (app_nil_r (toks v)), parse_value; [reflexivity|exact U|].
  clear - W. assert (X : (forall v t, writes v t -> wordless v) /\ (forall l u, writes_items l u -> Forall wordless l) /\ (forall d u, writes_entries d u -> Forall (fun e : string * json => wordless (snd e)) d)) by (apply writes_mutind; intros; constructor; auto).
  exact (proj1 X v t W).
Qed.

(** ** Where they differ *)
Lemma hash_differs : exists text v v', py_eval text = Some v /\ parse_config_gypi text = Some v' /\ v <> v'.
Proof.
  exists ("['#'," ++ nl ++ " '1,', '#'," ++ nl ++ " '2']"), (JArr [JStr "#"; JStr "1,"; JStr "#"; JStr "2"]), (JArr [JNum 1; JStr ", 2"]). split; [vm_compute; reflexivity|]. split; [vm_compute; reflexivity|discriminate].
Qed.
Lemma apostrophe_fails : exists text v, py_eval text = Some v /\ parse_config_gypi text = None.
Proof. exists "{""it's"": 1}", (JObj [("it's", JNum 1)]). split; vm_compute; reflexivity. Qed.
Lemma null_fails : exists v, unique v /\ py_eval (config_file v) = None /\ load_config (config_file v) = Some v.
Proof. exists (JObj [("variables", JObj [("icu_path", JNull)])]). split; [|split; vm_compute; reflexivity]. repeat constructor; intros []. Qed.
