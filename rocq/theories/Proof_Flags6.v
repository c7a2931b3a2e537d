(** Proofs about compiler and linker flags: the theorems. *)
From Verif Require Import Lib Str StrFacts LibFacts Model_Path Model_Memo Spec_Quote Model_Quote Proof_Quote Model_Writer Proof_Suffix Proof_Parts Model_Flags Spec_Flags Proof_Flags Proof_Flags2 Proof_Flags3 Proof_Flags4 Proof_Flags5.
Local Open Scope string_scope.

Lemma all_lines_app : forall a b, all_lines (a ++ b) = (all_lines a ++ all_lines b)%list.
Proof. intros a b. apply flat_map_app. Qed.
Lemma before_stable : forall v0 before, stable v0 (fst (read_lines (v0, []) (all_lines before))).
Proof. intros v0 before. apply (read_stable (all_lines before) (v0, [])). intros l x. apply lines_owned. Qed.
Lemma toolset_text : forall t text, In (Assign "TOOLSET" text) (target_lines t) -> text = toolset (target_of t).
Proof.
  intros t text H. apply line_kinds in H. destruct H as [[_ H]|[H|[H|[H|[H|(n & c & _ & H & _)]]]]]; try discriminate H; [exact H|].
  exfalso. apply config_line in H. destruct H as (n & d & _ & _ & H). cbn [config_lines In] in H. decompose [or] H; try contradiction; discriminate.
Qed.
(** Only a few variables are ever set for a file. *)
Lemma specific_none : forall ts (s : variables * specifics) f x, snd s = [] -> ~ In x ["TOOLSET"; "GYP_CFLAGS"; "GYP_CXXFLAGS"; "GYP_LDFLAGS"; "LIBS"] -> specific (snd (read_lines s (all_lines ts))) f x = None.
Proof.
  intros ts s f x Hs Hx. rewrite specific_keeps; [rewrite Hs; reflexivity|]. intros fs text H. exfalso. apply in_flat_map in H. destruct H as (t & _ & H). apply line_files in H.
  apply Hx. cbn [In] in *. tauto.
Qed.
Lemma after_keeps : forall after s f x, (forall u, In u after -> ~ In f (objects (target_of u)) /\ (type (target_of u) = None_ \/ f <> binary (target_of u))) ->
  specific (snd (read_lines s (all_lines after))) f x = specific (snd s) f x.
Proof.
  intros after s f x H. apply specific_keeps. intros fs text Hin Hf. apply in_flat_map in Hin. destruct Hin as (u & Hu & Hin). destruct (H u Hu) as [H1 H2]. apply line_files in Hin.
  destruct Hin as [[-> _]|(-> & Ht & _)]; [contradiction|]. destruct Hf as [Hf|[]]. destruct H2; [contradiction|congruence].
Qed.

(** The value of TOOLSET for files of a target, wherever it is set *)
Lemma toolset_for : forall t f v0 s a b, stable v0 (fst s) -> In (toolset (target_of t)) ["target"; "host"] -> target_lines t = (a ++ b)%list ->
  (forall fs text, In (Assign_for fs "TOOLSET" text) b -> text = "$(TOOLSET)") -> lookup_in (fst s) "TOOLSET" = Some (toolset (target_of t)) ->
  (specific (snd s) f "TOOLSET" = Some (Some (toolset (target_of t))) \/ exists fs text, In (Assign_for fs "TOOLSET" text) b /\ In f fs) ->
  specific (snd (read_lines s b)) f "TOOLSET" = Some (Some (toolset (target_of t))).
Proof.
  intros t f v0 s a b. revert s a. induction b as [|l b IH]; intros [v sp] a Hs Ht E Hb Hl Hf.
  { destruct Hf as [Hf|(? & ? & [] & _)]. exact Hf. }
  unfold read_lines. cbn [fold_left]. apply (IH _ (a ++ [l])%list).
  - destruct l as [y text|fs y text]; [|exact Hs]. cbn [read_line fst] in *. apply (stable_trans _ v); [exact Hs|]. intros z Hz. apply lookup_other. intros ->.
    rewrite (line_owned t z text) in Hz; [discriminate|]. rewrite E. apply in_app_iff. right. left. reflexivity.
  - exact Ht.
  - rewrite <- app_assoc. exact E.
  - intros fs text H. apply (Hb fs text). right. exact H.
  - destruct l as [y text|fs y text]; [|exact Hl]. cbn [read_line fst] in *. destruct (string_dec y "TOOLSET") as [->|N]; [|rewrite lookup_other by exact N; exact Hl].
    rewrite lookup_same. rewrite (toolset_text t text) by (rewrite E; apply in_app_iff; right; left; reflexivity). destruct Ht as [<-|[<-|[]]]; reflexivity.
  - destruct l as [y text|fs y text]; cbn [read_line snd] in *.
    + destruct Hf as [Hf|(fs & text' & [H|H] & Hi)]; [left; exact Hf|discriminate|right; exists fs, text'; auto].
    + rewrite specific_app. destruct (in_dec string_dec f fs) as [Hi|Hi]; [destruct (string_dec y "TOOLSET") as [->|N]|].
      * left. rewrite specific_in by exact Hi. rewrite (Hb fs text) by (left; reflexivity). cbn [fst] in Hl. f_equal.
        change (read_value (lookup_in v) "$(TOOLSET)") with (match lookup_in v "TOOLSET" with Some w => Some ("" ++ w) | None => None end). rewrite Hl. reflexivity.
      * rewrite specific_not by (intros [_ X]; congruence). destruct Hf as [Hf|(fs' & text' & [H|H] & Hi')]; [left; exact Hf|congruence|right; exists fs', text'; auto].
      * rewrite specific_not by (intros [X _]; contradiction). destruct Hf as [Hf|(fs' & text' & [H|H] & Hi')]; [left; exact Hf| |right; exists fs', text'; auto].
        injection H as -> _ _. contradiction.
Qed.

(** ** Expanding the commands *)
Lemma words_app : forall a b la lb c, sh_arguments a = Some la -> sh_arguments b = Some lb -> c = a ++ " " ++ b -> sh_arguments c = Some (la ++ lb)%list.
Proof. intros a b la lb c Ha Hb ->. apply arguments_app; assumption. Qed.
Lemma safe_words : forall s, safe s -> sh_arguments s = Some [literal s].
Proof. intros s [N H]. unfold sh_arguments. rewrite <- (append_nil_r s), read_safe by auto. rewrite append_nil_r. reflexivity. Qed.
Lemma refs_auto : forall val cur d v t, d = "@"%char \/ d = "<"%char -> val (String d "") = Some v -> refs val [] cur ("$" ++ String d t) = refs val [] (cur ++ v) t.
Proof. intros val cur d v t [->| ->] H; cbn [append refs]; cbn [Ascii.eqb Bool.eqb orb]; rewrite H; reflexivity. Qed.

Lemma compile_command : forall val n g k ts cc ccw out src fl flw dep depw ex exw,
  In n ["CC."; "CXX."] -> In g ["GYP_CFLAGS"; "GYP_CXXFLAGS"] -> In k ["CFLAGS."; "CXXFLAGS."] ->
  val "TOOLSET" = Some ts -> val (n ++ ts) = Some cc -> val "@" = Some out -> val "<" = Some src -> val g = Some fl -> val "DEPFLAGS" = Some dep -> val (k ++ ts) = Some ex ->
  sh_arguments cc = Some ccw -> safe out -> safe src -> sh_arguments fl = Some flw -> sh_arguments dep = Some depw -> sh_arguments ex = Some exw ->
  exists x, refs val [] "" ("$(" ++ n ++ "$(TOOLSET)) -o $@ $< $(" ++ g ++ ") $(DEPFLAGS) $(" ++ k ++ "$(TOOLSET)) -c") = Some x /\
    sh_arguments x = Some (ccw ++ map literal ["-o"; out; src] ++ flw ++ depw ++ exw ++ [literal "-c"])%list.
Proof.
  intros val n g k ts cc ccw out src fl flw dep depw ex exw Hn Hg Hk V1 V2 V3 V4 V5 V6 V7 W1 W2 W3 W4 W5 W6.
  assert (N1 : all_chars name_char n = true) by (destruct Hn as [<-|[<-|[]]]; reflexivity).
  assert (N2 : all_chars name_char g = true) by (destruct Hg as [<-|[<-|[]]]; reflexivity).
  assert (N3 : all_chars name_char k = true) by (destruct Hk as [<-|[<-|[]]]; reflexivity).
  exists (cc ++ " " ++ "-o" ++ " " ++ out ++ " " ++ src ++ " " ++ fl ++ " " ++ dep ++ " " ++ ex ++ " " ++ "-c"). split.
  - assert (E : "$(" ++ n ++ "$(TOOLSET)) -o $@ $< $(" ++ g ++ ") $(DEPFLAGS) $(" ++ k ++ "$(TOOLSET)) -c" =
      "$(" ++ n ++ "$(" ++ "TOOLSET" ++ "))" ++ (" -o " ++ "$" ++ String "@" (" " ++ "$" ++ String "<" (" " ++ "$(" ++ g ++ ")" ++ (" " ++ "$(" ++ "DEPFLAGS" ++ ")" ++ (" " ++ "$(" ++ k ++ "$(" ++ "TOOLSET" ++ "))" ++ " -c"))))))
      by (destruct Hn as [<-|[<-|[]]]; destruct Hg as [<-|[<-|[]]]; destruct Hk as [<-|[<-|[]]]; reflexivity).
    rewrite E. clear E.
    rewrite (refs_typed _ _ n "TOOLSET" ts cc) by (assumption || reflexivity). rewrite (refs_plain _ " -o ") by reflexivity.
    rewrite (refs_auto _ _ "@" out) by auto. rewrite (refs_plain _ " ") by reflexivity. rewrite (refs_auto _ _ "<" src) by auto. rewrite (refs_plain _ " ") by reflexivity.
    rewrite (refs_ref _ [] _ g fl) by assumption. rewrite (refs_plain _ " ") by reflexivity. rewrite (refs_ref _ [] _ "DEPFLAGS" dep) by (assumption || reflexivity). rewrite (refs_plain _ " ") by reflexivity.
    rewrite (refs_typed _ _ k "TOOLSET" ts ex) by (assumption || reflexivity). rewrite <- (append_nil_r " -c"), (refs_plain _ " -c") by reflexivity. cbn [refs]. f_equal. rewrite !append_assoc. reflexivity.
  - refine (words_app _ _ _ _ _ W1 _ eq_refl). cbn [map app]. change (literal "-o" :: ?r) with ([literal "-o"] ++ r)%list.
    refine (words_app _ _ [_] _ _ _ _ eq_refl); [reflexivity|]. refine (words_app _ _ [_] _ _ (safe_words _ W2) _ eq_refl). refine (words_app _ _ [_] _ _ (safe_words _ W3) _ eq_refl).
    refine (words_app _ _ _ _ _ W4 _ eq_refl). refine (words_app _ _ _ _ _ W5 _ eq_refl). refine (words_app _ _ _ _ _ W6 _ eq_refl). reflexivity.
Qed.

Theorem compiled_with : forall vars before t after b c incs f out src dep depw,
  lookup_in vars "BUILDTYPE" = Some b -> assoc b (configs t) = Some c -> names_apart b (map fst (configs t)) -> In (toolset (target_of t)) ["target"; "host"] ->
  Forall plain_define (defines c) -> Forall2 (include_at (lookup_in vars) (target_of t)) (include_dirs c) incs ->
  Forall plain_flag (cflags c) -> Forall plain_flag (cflags_c c) -> Forall plain_flag (cflags_cc c) ->
  In f (objects (target_of t)) -> (forall u, In u after -> ~ In f (objects (target_of u)) /\ (type (target_of u) = None_ \/ f <> binary (target_of u))) ->
  safe out -> safe src -> sh_arguments dep = Some depw ->
  (forall cc ccw ex exw, lookup_in vars ("CC." ++ toolset (target_of t)) = Some cc -> sh_arguments cc = Some ccw -> lookup_in vars ("CFLAGS." ++ toolset (target_of t)) = Some ex -> sh_arguments ex = Some exw ->
    command_words (read_lines (vars, []) (all_lines (before ++ t :: after))) f [("@", out); ("<", src); ("DEPFLAGS", dep)] cmd_cc =
    Some (ccw ++ map literal (["-o"; out; src] ++ map (append "-D") (defines c) ++ map (append "-I") incs ++ cflags c ++ cflags_c c) ++ depw ++ exw ++ [literal "-c"])%list) /\
  (forall cc ccw ex exw, lookup_in vars ("CXX." ++ toolset (target_of t)) = Some cc -> sh_arguments cc = Some ccw -> lookup_in vars ("CXXFLAGS." ++ toolset (target_of t)) = Some ex -> sh_arguments ex = Some exw ->
    command_words (read_lines (vars, []) (all_lines (before ++ t :: after))) f [("@", out); ("<", src); ("DEPFLAGS", dep)] cmd_cxx =
    Some (ccw ++ map literal (["-o"; out; src] ++ map (append "-D") (defines c) ++ map (append "-I") incs ++ cflags c ++ cflags_cc c) ++ depw ++ exw ++ [literal "-c"])%list).
Proof.
  intros v0 before t after b c incs f out src dep depw Hb Hc Ha Ht Hdef Hinc Hcf Hcc Hcxx Hf Hafter So Ss Wd.
  set (s := read_lines (v0, []) (all_lines before)).
  assert (Hs : stable v0 (fst s)) by apply before_stable.
  destruct (object_lines t f Hf) as (rest & E & _). clear rest.
  set (first := (opening t ++ flat_map (config_lines t) (sorted_configs t) ++ [objs_line t])%list) in *.
  set (s1 := read_lines s first).
  set (final := read_lines (v0, []) (all_lines (before ++ t :: after))).
  assert (Ef : final = read_lines (read_lines s (target_lines t)) (all_lines after)).
  { unfold final. rewrite all_lines_app, read_lines_app. change (all_lines (t :: after)) with (target_lines t ++ all_lines after)%list. rewrite read_lines_app. reflexivity. }
  assert (HT : lookup_in (fst s1) "TOOLSET" = Some (toolset (target_of t))) by (apply (first_toolset v0 t Ht); exact Hs).
  assert (H1 : stable v0 (fst s1)).
  { apply (stable_trans _ (fst s)); [exact Hs|]. apply read_stable. apply (first_owned t). }
  assert (T : in_recipe final f "TOOLSET" = Some (toolset (target_of t))).
  { unfold in_recipe. rewrite Ef, after_keeps by exact Hafter. rewrite E, read_lines_app. fold s1.
    assert (G : specific (snd (read_lines s1 ([Assign_for (objects (target_of t)) "TOOLSET" "$(TOOLSET)"; Assign_for (objects (target_of t)) "GYP_CFLAGS" "$(DEFS_$(BUILDTYPE)) $(INCS_$(BUILDTYPE))  $(CFLAGS_$(BUILDTYPE)) $(CFLAGS_C_$(BUILDTYPE))"; Assign_for (objects (target_of t)) "GYP_CXXFLAGS" "$(DEFS_$(BUILDTYPE)) $(INCS_$(BUILDTYPE))  $(CFLAGS_$(BUILDTYPE)) $(CFLAGS_CC_$(BUILDTYPE))"] ++ link_lines t))) f "TOOLSET" = Some (Some (toolset (target_of t)))).
    { apply (toolset_for t f v0 s1 first); [exact H1|exact Ht|exact E| |exact HT|right; exists (objects (target_of t)), "$(TOOLSET)"; split; [left; reflexivity|exact Hf]].
      intros fs text H. cbn [app In] in H. destruct H as [H|[H|[H|H]]]; [congruence|discriminate|discriminate|]. unfold link_lines in H.
      destruct (type (target_of t)); try (destruct H; fail); apply in_app_iff in H; (destruct H as [H|H]; [destruct (link_not_for _ _ _ _ H)|]); cbn [In] in H; decompose [or] H; try discriminate; try contradiction; congruence. }
    rewrite G. reflexivity. }
  assert (FL : forall g last own, (g = "GYP_CFLAGS" /\ last = "CFLAGS_C_" /\ own = cflags_c c) \/ (g = "GYP_CXXFLAGS" /\ last = "CFLAGS_CC_" /\ own = cflags_cc c) ->
    exists x, in_recipe final f g = Some x /\ sh_arguments x = Some (map literal (map (append "-D") (defines c) ++ map (append "-I") incs ++ cflags c ++ own))%list).
  { intros g last own Hg.
    assert (Hl : (last = "CFLAGS_C_" /\ own = cflags_c c) \/ (last = "CFLAGS_CC_" /\ own = cflags_cc c)) by tauto.
    destruct (object_flags v0 t b c incs Hb Hc Ha Hdef Hcf Hcc Hcxx Hinc s f last own Hs Hf Hl) as (x & Vx & Wx). exists x. split; [|exact Wx].
    fold first s1 in Vx.
    unfold in_recipe. rewrite Ef, after_keeps by exact Hafter. rewrite E, read_lines_app. fold s1. cbn [app].
    assert (K : forall s', specific (snd (read_lines s' (link_lines t))) f g = specific (snd s') f g).
    { intros s'. apply specific_keeps. intros fs text H Hi. unfold link_lines in H. destruct (type (target_of t)); try (destruct H; fail); apply in_app_iff in H; (destruct H as [H|H]; [destruct (link_not_for _ _ _ _ H)|]);
      cbn [In] in H; decompose [or] H; try discriminate; try contradiction; destruct Hg as [[-> _]|[-> _]]; discriminate. }
    change (read_lines s1 (?a :: ?b :: ?d :: ?r)) with (read_lines (read_line (read_line (read_line s1 a) b) d) r). rewrite K.
    destruct s1 as [v1 sp1]. cbn [read_line snd fst] in *. rewrite !specific_app.
    destruct Hg as [(-> & -> & _)|(-> & -> & _)].
    - rewrite specific_not by (intros [_ X]; discriminate X). rewrite specific_in by exact Hf. exact Vx.
    - rewrite specific_in by exact Hf. exact Vx. }
  assert (O : forall x, owned x = false -> ~ In x ["TOOLSET"; "GYP_CFLAGS"; "GYP_CXXFLAGS"; "GYP_LDFLAGS"; "LIBS"] -> in_recipe final f x = lookup_in v0 x).
  { intros x Ho Hx. unfold in_recipe, final. rewrite specific_none by (reflexivity || exact Hx). apply (read_stable (all_lines (before ++ t :: after)) (v0, [])); [intros l y; apply lines_owned|exact Ho]. }
  split; intros cc ccw ex exw V1 W1 V2 W2; unfold command_words.
  - destruct (FL "GYP_CFLAGS" "CFLAGS_C_" (cflags_c c)) as (fl & V3 & W3); [left; auto|].
    destruct (compile_command (fun x => match assoc x [("@", out); ("<", src); ("DEPFLAGS", dep)] with Some v => Some v | None => in_recipe final f x end) "CC." "GYP_CFLAGS" "CFLAGS." (toolset (target_of t)) cc ccw out src fl (map literal (map (append "-D") (defines c) ++ map (append "-I") incs ++ cflags c ++ cflags_c c))%list dep depw ex exw) as (x & Vx & Wx);
      try assumption; try reflexivity; try (cbn [In]; auto; fail).
    + transitivity (in_recipe final f ("CC." ++ toolset (target_of t))); [destruct Ht as [<-|[<-|[]]]; reflexivity|]. rewrite O; [exact V1| |]; destruct Ht as [<-|[<-|[]]]; try reflexivity; cbn [In]; intros X; decompose [or] X; try discriminate; contradiction.
    + transitivity (in_recipe final f ("CFLAGS." ++ toolset (target_of t))); [destruct Ht as [<-|[<-|[]]]; reflexivity|]. rewrite O; [exact V2| |]; destruct Ht as [<-|[<-|[]]]; try reflexivity; cbn [In]; intros X; decompose [or] X; try discriminate; contradiction.
    + change cmd_cc with ("$(" ++ "CC." ++ "$(TOOLSET)) -o $@ $< $(" ++ "GYP_CFLAGS" ++ ") $(DEPFLAGS) $(" ++ "CFLAGS." ++ "$(TOOLSET)) -c"). rewrite Vx, Wx. f_equal.
  - destruct (FL "GYP_CXXFLAGS" "CFLAGS_CC_" (cflags_cc c)) as (fl & V3 & W3); [right; auto|].
    destruct (compile_command (fun x => match assoc x [("@", out); ("<", src); ("DEPFLAGS", dep)] with Some v => Some v | None => in_recipe final f x end) "CXX." "GYP_CXXFLAGS" "CXXFLAGS." (toolset (target_of t)) cc ccw out src fl (map literal (map (append "-D") (defines c) ++ map (append "-I") incs ++ cflags c ++ cflags_cc c))%list dep depw ex exw) as (x & Vx & Wx);
      try assumption; try reflexivity; try (cbn [In]; auto; fail).
    + transitivity (in_recipe final f ("CXX." ++ toolset (target_of t))); [destruct Ht as [<-|[<-|[]]]; reflexivity|]. rewrite O; [exact V1| |]; destruct Ht as [<-|[<-|[]]]; try reflexivity; cbn [In]; intros X; decompose [or] X; try discriminate; contradiction.
    + transitivity (in_recipe final f ("CXXFLAGS." ++ toolset (target_of t))); [destruct Ht as [<-|[<-|[]]]; reflexivity|]. rewrite O; [exact V2| |]; destruct Ht as [<-|[<-|[]]]; try reflexivity; cbn [In]; intros X; decompose [or] X; try discriminate; contradiction.
    + change cmd_cxx with ("$(" ++ "CXX." ++ "$(TOOLSET)) -o $@ $< $(" ++ "GYP_CXXFLAGS" ++ ") $(DEPFLAGS) $(" ++ "CXXFLAGS." ++ "$(TOOLSET)) -c"). rewrite Vx, Wx. f_equal.
Qed.
