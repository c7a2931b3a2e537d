(** Proofs about flags on macOS: the values of variables. *)
From Verif Require Import Lib Str StrFacts LibFacts Model_Path Model_Memo Spec_Quote Model_Quote Proof_Quote Model_Writer Proof_Suffix Proof_Parts Model_Flags Spec_Flags Proof_Flags Proof_Flags2 Proof_Flags3 Proof_Flags4 Proof_Flags6 Proof_Flags7.
From Verif Require Import Model_FlagsMac Spec_FlagsMac.
Local Open Scope string_scope.

(** ** Pieces that are several words *)
Definition chunk (vals : (string -> option string) -> Prop) (p : string) (ws : list (list atom)) : Prop :=
  exists q x,
    (forall skip t, make_join 0 skip (p ++ t) = p ++ make_join 0 false t) /\
    (forall t, make_uncomment 0 (p ++ t) = q ++ make_uncomment 0 t) /\
    (forall val cur t, vals val -> refs val [] cur (q ++ t) = refs val [] (cur ++ x) t) /\
    sh_arguments x = Some ws.
Lemma piece_chunk : forall vals p w, piece vals p w -> chunk vals p [w].
Proof. intros vals p w (q & x & J & U & R & S). exists q, x. repeat split; [exact J|exact U|exact R|]. unfold sh_arguments. rewrite <- (append_nil_r x), S. reflexivity. Qed.
Lemma chunks : forall vals ps ws, Forall2 (chunk vals) ps ws -> forall skip cur la, sh_arguments cur = Some la ->
  exists x, (forall val, vals val -> refs val [] (cur ++ "  ") (make_uncomment 0 (make_join 0 skip (join_with continuation ps))) = Some x) /\ sh_arguments x = Some (la ++ concat ws)%list.
Proof.
  intros vals ps ws H. induction H as [|p w ps ws (q & x & J & U & R & Sx) H IH]; intros skip cur la Hc.
  - exists (cur ++ "  "). split; [intros; reflexivity|]. change "  " with (String " " " "). apply arguments_app; [exact Hc|reflexivity].
  - assert (Sc : sh_arguments ((cur ++ "  ") ++ x) = Some (la ++ w)%list).
    { rewrite append_assoc. change ("  " ++ x) with (String " " (String " " x)). apply arguments_app; [exact Hc|]. rewrite arguments_space. exact Sx. }
    destruct ps as [|p' ps].
    + inversion H; subst. unfold join_with. cbn [String.concat concat]. rewrite app_nil_r. exists ((cur ++ "  ") ++ x). split; [|exact Sc].
      intros val V. rewrite <- (append_nil_r p), J, U, R by exact V. reflexivity.
    + destruct (IH true _ _ Sc) as (y & E & Sy). exists y. split; [|cbn [concat]; rewrite <- app_assoc in Sy; exact Sy].
      unfold join_with in *. change (String.concat continuation (p :: p' :: ps)) with (p ++ continuation ++ String.concat continuation (p' :: ps)).
      intros val V. rewrite J, join_continuation, U, R by exact V. rewrite <- (E val V).
      set (r := make_join 0 true (String.concat continuation (p' :: ps))).
      change (make_uncomment 0 ("  " ++ r)) with (String " " (String " " (make_uncomment 0 r))). cbn [refs]. change (Ascii.eqb " " "$") with false. cbv iota.
      f_equal. rewrite !append_assoc. reflexivity.
Qed.
Lemma chunk_list : forall vals quoter prefix l ws, Forall2 (fun v w => chunk vals (quoter (prefix ++ v)) w) l ws ->
  exists x, (forall val, vals val -> read_value val (write_list quoter prefix l) = Some x) /\ sh_arguments x = Some (concat ws).
Proof.
  intros vals quoter prefix l ws H. destruct l as [|v l].
  - inversion H; subst. exists "". split; [intros|]; reflexivity.
  - assert (F : Forall2 (chunk vals) (map (fun v => quoter (prefix ++ v)) (v :: l)) ws).
    { clear - H. induction H; cbn [map]; constructor; auto. }
    destruct (chunks _ _ _ F true "" [] eq_refl) as (x & E & Sx). exists x. split; [|exact Sx].
    intros val V. specialize (E val V). unfold read_value, write_list. rewrite join_continuation. set (r := make_join 0 true _) in *.
    change (make_uncomment 0 ("  " ++ r)) with (String " " (String " " (make_uncomment 0 r))). exact E.
Qed.

(** The words of a flag *)
Definition spaced (c : ascii) : bool := safe_char c || Ascii.eqb c " ".
Lemma concat_spaced : forall ws w, Forall safe (w :: ws) -> all_chars spaced (String.concat " " (w :: ws)) = true.
Proof.
  induction ws as [|v ws IH]; intros w F; inversion F as [|? ? [N S] F']; subst.
  - cbn [String.concat]. apply (all_chars_imp safe_char); [|exact S]. intros c H. unfold spaced. rewrite H. reflexivity.
  - change (String.concat " " (w :: v :: ws)) with (w ++ " " ++ String.concat " " (v :: ws)). rewrite !all_chars_app, IH by exact F'.
    rewrite (all_chars_imp safe_char) with (g := spaced); [reflexivity| |exact S]. intros c H. unfold spaced. rewrite H. reflexivity.
Qed.
Lemma concat_firm : forall ws w, Forall safe (w :: ws) -> firm (String.concat " " (w :: ws)).
Proof.
  induction ws as [|v ws IH]; intros w F; inversion F as [|? ? S F']; subst; [exact (safe_firm w S)|].
  change (String.concat " " (w :: v :: ws)) with (w ++ " " ++ String.concat " " (v :: ws)). destruct (IH v F') as (a & c & -> & N). exists (w ++ " " ++ a), c. split; [rewrite !append_assoc; reflexivity|exact N].
Qed.
Lemma concat_words : forall ws w, Forall safe (w :: ws) -> sh_arguments (String.concat " " (w :: ws)) = Some (map literal (w :: ws)).
Proof.
  induction ws as [|v ws IH]; intros w F; inversion F as [|? ? S F']; subst; [exact (safe_words w S)|].
  change (String.concat " " (w :: v :: ws)) with (w ++ " " ++ String.concat " " (v :: ws)). change (map literal (w :: v :: ws)) with ([literal w] ++ map literal (v :: ws))%list.
  apply (words_app w (String.concat " " (v :: ws))); [exact (safe_words w S)|exact (IH v F')|reflexivity].
Qed.
Lemma spaced_not : forall s c, all_chars spaced s = true -> spaced c = false -> has_char c s = false.
Proof. intros s c H N. exact (proj1 (all_chars_has spaced s) H c N). Qed.
Lemma gives_chunk : forall v0 (vals : (string -> option string) -> Prop) s ws, (forall val x, vals val -> In x ["obj"; "builddir"; "srcdir"] -> val x = v0 x) -> gives v0 s ws -> chunk vals (quote_if_necessary ("" ++ s)) (map literal ws).
Proof.
  intros v0 vals s ws Hv H. destruct H as [s H|w ws F|a x d r Sa Hx Hd Sd Hr].
  - apply piece_chunk. apply flag_piece. exact H.
  - cbn [append]. pose proof (concat_spaced ws w F) as C. rewrite safe_unquoted by (apply spaced_not; [exact C|reflexivity]). set (s := String.concat " " (w :: ws)) in *.
    assert (Fo : first_ok s).
    { inversion F as [|? ? S F']; subst. pose proof (safe_first w S) as G. unfold s. destruct ws as [|v ws]; [exact G|]. change (String.concat " " (w :: v :: ws)) with (w ++ " " ++ String.concat " " (v :: ws)). destruct w; [destruct G|exact G]. }
    exists s, s. repeat split.
    + apply join_piece; [apply spaced_not; [exact C|reflexivity]|exact (concat_firm ws w F)|exact Fo].
    + apply uncomment_piece; [apply spaced_not; [exact C|reflexivity]|exact (concat_firm ws w F)].
    + intros val cur t _. apply refs_plain. apply spaced_not; [exact C|reflexivity].
    + exact (concat_words ws w F).
  - cbn [map]. apply piece_chunk. cbn [append]. assert (Nx : all_chars name_char x = true) by (destruct Hx as [<-|[<-|[<-|[]]]]; reflexivity).
    assert (Q : has_char dquote (a ++ "$(" ++ x ++ ")" ++ r) = false).
    { rewrite !has_char_app. rewrite (safe_not a) by (try apply Sa; reflexivity). rewrite (safe_not r); [|destruct Hr as [->|Hr]; [reflexivity|apply Hr]|reflexivity]. destruct Hx as [<-|[<-|[<-|[]]]]; reflexivity. }
    rewrite safe_unquoted by exact Q. destruct Sa as [Na Sa]. apply ref_piece; [exact Sa|exact Na|exact Nx| |exact Sd|exact Hr].
    intros val V. rewrite (Hv val x V Hx). exact Hd.
Qed.
Lemma map_concat : forall (wss : list (list string)), map literal (concat wss) = concat (map (map literal) wss).
Proof. induction wss as [|w wss IH]; [reflexivity|]. cbn [concat map]. rewrite map_app, IH. reflexivity. Qed.
Lemma all_words : forall v0 (vals : (string -> option string) -> Prop) l ws, (forall val x, vals val -> In x ["obj"; "builddir"; "srcdir"] -> val x = v0 x) -> all_give v0 l ws ->
  exists x, (forall val, vals val -> read_value val (write_list quote_if_necessary "" l) = Some x) /\ sh_arguments x = Some (map literal ws).
Proof.
  intros v0 vals l ws Hv (wss & F & ->). rewrite map_concat. apply chunk_list. induction F as [|s w l wss G F IH]; cbn [map]; [apply Forall2_nil|apply Forall2_cons; [exact (gives_chunk v0 vals s w Hv G)|exact IH]].
Qed.

(** ** Which lines there are *)
Lemma In_sorted : forall t (n : string) (c : config), In (n, c) (sorted_configs t) -> assoc n (configs t) = Some c /\ In n (map fst (configs t)).
Proof.
  intros t n c H. unfold sorted_configs in H. apply in_flat_map in H. destruct H as (m & Hm & H). destruct (assoc m (configs t)) as [d|] eqn:E; [|destruct H].
  destruct H as [H|[]]. injection H as <- <-. split; [exact E|]. apply assoc_In in E. apply (in_map fst) in E. exact E.
Qed.
Lemma sorted_In : forall t n c, assoc n (configs t) = Some c -> In (n, c) (sorted_configs t).
Proof. intros t n c H. unfold sorted_configs. apply in_flat_map. exists n. split; [|rewrite H; left; reflexivity]. apply sort_In. apply assoc_In in H. apply (in_map fst) in H. exact H. Qed.
Lemma table_line : forall texts t l, In l (flat_map (lines_for texts) (sorted_configs t)) -> exists n c p text, assoc n (configs t) = Some c /\ In n (map fst (configs t)) /\ In (p, text) (texts c) /\ l = Assign (p ++ n) text.
Proof.
  intros texts t l H. apply in_flat_map in H. destruct H as ([n c] & H1 & H2). apply In_sorted in H1. destruct H1 as [H1 H3]. unfold lines_for in H2. apply in_map_iff in H2. destruct H2 as ([p text] & <- & H2). exists n, c, p, text. auto.
Qed.
Lemma line_table : forall texts t n c p text, assoc n (configs t) = Some c -> In (p, text) (texts c) -> In (Assign (p ++ n) text) (flat_map (lines_for texts) (sorted_configs t)).
Proof. intros texts t n c p text H I. apply in_flat_map. exists (n, c). split; [exact (sorted_In t n c H)|]. unfold lines_for. apply in_map_iff. exists (p, text). auto. Qed.
Lemma table_not_for : forall texts t fs x text, ~ In (Assign_for fs x text) (flat_map (lines_for texts) (sorted_configs t)).
Proof. intros texts t fs x text H. apply table_line in H. destruct H as (n & c & p & tx & _ & _ & _ & E). discriminate E. Qed.
Definition prefixes : list string := ["DEFS_"; "CFLAGS_"; "CFLAGS_C_"; "CFLAGS_CC_"; "CFLAGS_OBJC_"; "CFLAGS_OBJCC_"; "INCS_"; "LDFLAGS_"; "LIBTOOLFLAGS_"].
Lemma prefixes_owned : forall p n, In p prefixes -> owned (p ++ n) = true.
Proof.
  intros p n H. unfold prefixes in H. cbn [In] in H. unfold owned.
  assert (K : forall a b, owned (("CFLAGS_" ++ a) ++ b) = true) by (intros a b; rewrite append_assoc; apply owned_pre; cbn [In]; auto).
  destruct H as [<-|[<-|[<-|[<-|[<-|[<-|[<-|[<-|[<-|[]]]]]]]]]]; try (apply owned_pre; cbn [In]; auto 8; fail); [exact (K "OBJC_" n)|exact (K "OBJCC_" n)|].
  rewrite (prefix_app "LIBTOOLFLAGS_" n), !orb_true_r. reflexivity.
Qed.
Lemma compile_prefix : forall t c p text, In (p, text) (compile_texts t c) -> In p prefixes.
Proof. intros t c p text H. unfold compile_texts in H. cbn [In] in H. unfold prefixes. decompose [or] H; try contradiction; match goal with E : (_, _) = (p, text) |- _ => injection E as <- _ end; cbn [In]; auto 10. Qed.
Lemma link_prefix : forall c p text, In (p, text) (link_texts c) -> In p prefixes.
Proof. intros c p text H. unfold link_texts in H. cbn [In] in H. unfold prefixes. decompose [or] H; try contradiction; match goal with E : (_, _) = (p, text) |- _ => injection E as <- _ end; cbn [In]; auto 10. Qed.

Lemma line_kinds : forall t x text, In (Assign x text) (target_lines t) ->
  (x = "TOOLSET" /\ text = toolset (target_of t)) \/ In x ["TARGET"; "OBJS"; "LIBS"] \/ exists p n, In p prefixes /\ x = p ++ n.
Proof.
  intros t x text H. unfold target_lines in H. cbn [In app] in H. destruct H as [H|[H|H]]; [injection H as <- <-; auto|injection H as <- <-; right; left; cbn [In]; auto|].
  apply in_app_iff in H. destruct H as [H|H].
  - destruct (all_sources (target_of t)); [destruct H|]. unfold compile_lines in H. apply in_app_iff in H. destruct H as [H|[H|H]].
    + apply table_line in H. destruct H as (n & c & p & tx & _ & _ & I & E). injection E as -> _. right. right. exists p, n. split; [exact (compile_prefix _ _ _ _ I)|reflexivity].
    + injection H as <- _. right; left; cbn [In]; auto.
    + destruct (compiled (target_of t)); [destruct H|]. unfold object_lines in H. cbn [In] in H. decompose [or] H; try discriminate; contradiction.
  - unfold link_lines in H. assert (G : In (Assign x text) (flat_map (lines_for link_texts) (sorted_configs t) ++ Assign "LIBS" (write_list quote_if_necessary "" (libraries t)) :: binary_lines t)%list) by (destruct (type (target_of t)); [exact H|exact H|exact H|exact H|destruct H]).
    clear H. apply in_app_iff in G. destruct G as [H|[H|H]].
    + apply table_line in H. destruct H as (n & c & p & tx & _ & _ & I & E). injection E as -> _. right. right. exists p, n. split; [exact (link_prefix _ _ _ I)|reflexivity].
    + injection H as <- _. right; left; cbn [In]; auto.
    + unfold binary_lines in H. cbn [In] in H. decompose [or] H; try discriminate; contradiction.
Qed.
Lemma line_owned : forall t x text, In (Assign x text) (target_lines t) -> owned x = true.
Proof.
  intros t x text H. apply line_kinds in H. destruct H as [[-> _]|[H|(p & n & I & ->)]]; [reflexivity| |exact (prefixes_owned p n I)]. destruct H as [<-|[<-|[<-|[]]]]; reflexivity.
Qed.
Lemma lines_owned : forall ts l x, In l (flat_map target_lines ts) -> sets l x -> owned x = true.
Proof. intros ts l x H [text ->]. apply in_flat_map in H. destruct H as (t & _ & H). exact (line_owned _ _ _ H). Qed.
Lemma prefix_not_toolset : forall p n, In p prefixes -> p ++ n <> "TOOLSET".
Proof. intros p n H E. unfold prefixes in H. cbn [In] in H. decompose [or] H; try contradiction; subst p; discriminate E. Qed.
Lemma toolset_text : forall t text, In (Assign "TOOLSET" text) (target_lines t) -> text = toolset (target_of t).
Proof.
  intros t text H. apply line_kinds in H. destruct H as [[_ H]|[H|(p & n & I & E)]]; [exact H| |destruct (prefix_not_toolset p n I (eq_sym E))]. destruct H as [H|[H|[H|[]]]]; discriminate H.
Qed.
Definition special_names : list string := ["TOOLSET"; "GYP_CFLAGS"; "GYP_CXXFLAGS"; "GYP_OBJCFLAGS"; "GYP_OBJCXXFLAGS"; "GYP_LDFLAGS"; "LIBS"; "GYP_LIBTOOLFLAGS"].
Lemma line_files : forall t fs x text, In (Assign_for fs x text) (target_lines t) ->
  In x special_names /\ ((fs = objects (target_of t)) \/ (fs = [binary_of t] /\ type (target_of t) <> None_)) /\ (x = "TOOLSET" -> text = "$(TOOLSET)").
Proof.
  intros t fs x text H. unfold target_lines in H. cbn [In app] in H. destruct H as [H|[H|H]]; [discriminate|discriminate|]. unfold special_names.
  apply in_app_iff in H. destruct H as [H|H].
  - destruct (all_sources (target_of t)); [destruct H|]. unfold compile_lines in H. apply in_app_iff in H. destruct H as [H|[H|H]]; [destruct (table_not_for _ _ _ _ _ H)|discriminate|].
    destruct (compiled (target_of t)); [destruct H|]. unfold object_lines in H. cbn [In] in H. decompose [or] H; try contradiction;
      match goal with E : Assign_for _ _ _ = Assign_for _ _ _ |- _ => injection E as <- <- <- end; (split; [cbn [In]; auto 10|split; [left; reflexivity|intros X; first [reflexivity|discriminate X]]]).
  - unfold link_lines in H. assert (G : type (target_of t) <> None_ /\ In (Assign_for fs x text) (flat_map (lines_for link_texts) (sorted_configs t) ++ Assign "LIBS" (write_list quote_if_necessary "" (libraries t)) :: binary_lines t)%list)
      by (destruct (type (target_of t)); [split; [discriminate|exact H]..|destruct H]). clear H. destruct G as [T G]. apply in_app_iff in G. destruct G as [H|[H|H]]; [destruct (table_not_for _ _ _ _ _ H)|discriminate|].
    unfold binary_lines in H. cbn [In] in H. decompose [or] H; try contradiction;
      match goal with E : Assign_for _ _ _ = Assign_for _ _ _ |- _ => injection E as <- <- <- end; (split; [cbn [In]; auto 10|split; [right; split; [reflexivity|exact T]|intros X; first [reflexivity|discriminate X]]]).
Qed.

(** ** Values of tables *)
Lemma table_value : forall v0 t b c texts pre suf s p text x, (forall l y, In l (pre ++ flat_map (lines_for texts) (sorted_configs t) ++ suf)%list -> sets l y -> owned y = true) -> stable v0 (fst s) ->
  assoc b (configs t) = Some c -> In (p, text) (texts c) ->
  (forall n d q text', assoc n (configs t) = Some d -> In n (map fst (configs t)) -> In (q, text') (texts d) -> q ++ n = p ++ b -> text' = text) ->
  (forall l, In l (pre ++ suf)%list -> ~ sets l (p ++ b)) -> (forall val, near v0 val -> read_value val text = Some x) ->
  lookup_in (fst (read_lines s (pre ++ flat_map (lines_for texts) (sorted_configs t) ++ suf)%list)) (p ++ b) = Some x.
Proof.
  intros v0 t b c texts pre suf s p text x Ho Hs Hc Hp Hu Hn Hx. apply (read_sets v0); [exact Ho|exact Hs| |].
  - intros text' H w Hw. assert (E : text' = text).
    { apply in_app_iff in H. destruct H as [H|H]; [exfalso; apply (Hn (Assign (p ++ b) text')); [apply in_app_iff; left; exact H|eexists; reflexivity]|].
      apply in_app_iff in H. destruct H as [H|H]; [|exfalso; apply (Hn (Assign (p ++ b) text')); [apply in_app_iff; right; exact H|eexists; reflexivity]].
      apply table_line in H. destruct H as (n & d & q & tx & H1 & H2 & H3 & E). injection E as E <-. exact (Hu n d q text' H1 H2 H3 (eq_sym E)). }
    subst text'. apply Hx. exists w. split; [reflexivity|exact Hw].
  - right. exists text. apply in_app_iff. right. apply in_app_iff. left. exact (line_table texts t b c p text Hc Hp).
Qed.
Lemma compile_unique : forall t b c n d p q text text', assoc b (configs t) = Some c -> set_apart b (map fst (configs t)) -> assoc n (configs t) = Some d -> In n (map fst (configs t)) ->
  In (p, text) (compile_texts t c) -> In (q, text') (compile_texts t d) -> q ++ n = p ++ b -> text' = text.
Proof.
  intros t b c n d p q text text' Hc Ha Hd Hn Hp Hq E.
  assert (N : forall r, In r ["C_"; "CC_"; "OBJC_"; "OBJCC_"] -> n <> r ++ b /\ b <> r ++ n) by (intros r Hr; apply Ha; assumption).
  destruct (N "C_") as [N1 N2]; [cbn [In]; auto|]. destruct (N "CC_") as [N3 N4]; [cbn [In]; auto|]. destruct (N "OBJC_") as [N5 N6]; [cbn [In]; auto|]. destruct (N "OBJCC_") as [N7 N8]; [cbn [In]; auto|]. clear N.
  unfold compile_texts in Hp, Hq. cbn [In] in Hp, Hq.
  decompose [or] Hp; try contradiction; match goal with X : (_, _) = (p, text) |- _ => injection X as <- <- end;
  decompose [or] Hq; try contradiction; match goal with X : (_, _) = (q, text') |- _ => injection X as <- <- end;
  try discriminate E; cbn [append] in E, N1, N2, N3, N4, N5, N6, N7, N8; try congruence.
  all: injection E; intros; subst n; rewrite Hc in Hd; injection Hd as <-; reflexivity.
Qed.
Lemma link_unique : forall t b c n d p q text text', assoc b (configs t) = Some c -> assoc n (configs t) = Some d ->
  In (p, text) (link_texts c) -> In (q, text') (link_texts d) -> q ++ n = p ++ b -> text' = text.
Proof.
  intros t b c n d p q text text' Hc Hd Hp Hq E. unfold link_texts in Hp, Hq. cbn [In] in Hp, Hq.
  destruct Hp as [Hp|[Hp|[]]]; injection Hp as <- <-; destruct Hq as [Hq|[Hq|[]]]; injection Hq as <- <-; try discriminate E;
    apply append_inj_l in E; subst n; rewrite Hc in Hd; injection Hd as <-; reflexivity.
Qed.
