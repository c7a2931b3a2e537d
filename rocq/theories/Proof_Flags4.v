(** Proofs about compiler and linker flags: the commands. *)
From Verif Require Import Lib Str StrFacts LibFacts Model_Path Model_Memo Spec_Quote Model_Quote Proof_Quote Model_Writer Proof_Suffix Proof_Parts Model_Flags Spec_Flags Proof_Flags Proof_Flags2 Proof_Flags3.
Local Open Scope string_scope.

(** ** Which lines there are *)
Lemma assign_inj : forall a t b u, Assign a t = Assign b u -> a = b /\ t = u.
Proof. intros a t b u H. injection H. auto. Qed.
Lemma config_line : forall t x text, In (Assign x text) (flat_map (config_lines t) (sorted_configs t)) ->
  exists n c, assoc n (configs t) = Some c /\ In n (map fst (configs t)) /\ In (Assign x text) (config_lines t (n, c)).
Proof.
  intros t x text H. apply in_flat_map in H. destruct H as ([n c] & H1 & H2). apply In_sorted in H1. destruct H1 as [H1 H3]. exists n, c. auto.
Qed.
Lemma has_config_line : forall t n c l, assoc n (configs t) = Some c -> In l (config_lines t (n, c)) -> In l (flat_map (config_lines t) (sorted_configs t)).
Proof.
  intros t n c l H Hl. apply in_flat_map. exists (n, c). split; [|exact Hl]. unfold sorted_configs. apply in_flat_map. exists n. split; [|rewrite H; left; reflexivity].
  apply sort_In. apply assoc_In in H. apply (in_map fst) in H. exact H.
Qed.
Lemma config_not_for : forall t fs x text, ~ In (Assign_for fs x text) (flat_map (config_lines t) (sorted_configs t)).
Proof.
  intros t fs x text H. apply in_flat_map in H. destruct H as ([n c] & _ & H). cbn [config_lines In] in H. decompose [or] H; try discriminate; contradiction.
Qed.
Lemma link_not_for : forall t fs x text, ~ In (Assign_for fs x text) (map (fun nc : string * config => Assign ("LDFLAGS_" ++ fst nc) (write_list quote_if_necessary "" (link_flags t (snd nc)))) (sorted_configs t)).
Proof. intros t fs x text H. apply in_map_iff in H. destruct H as (nc & H & _). discriminate. Qed.

Definition opening (t : built) : list assignment := [Assign "TOOLSET" (toolset (target_of t)); Assign "TARGET" (target_name (target_of t))].
Definition objs_line (t : built) : assignment :=
  Assign "OBJS" (write_list quote_if_necessary "" (map (fun c => objectify (target_of t) (absolutify (target_of t) (object_name c))) (compiled (target_of t)))).
Lemma line_kinds : forall t x text, In (Assign x text) (target_lines t) ->
  (x = "TOOLSET" /\ text = toolset (target_of t)) \/ x = "TARGET" \/ x = "OBJS" \/ x = "LIBS" \/ In (Assign x text) (flat_map (config_lines t) (sorted_configs t)) \/
  exists n c, assoc n (configs t) = Some c /\ x = "LDFLAGS_" ++ n /\ text = write_list quote_if_necessary "" (link_flags t c).
Proof.
  intros t x text H. unfold target_lines in H. cbn [In app] in H. destruct H as [H|[H|H]]; [injection H as <- <-; auto|injection H as <- <-; auto|].
  apply in_app_iff in H. destruct H as [H|H].
  - destruct (sources (target_of t) ++ extra_sources (target_of t))%list; [destruct H|]. unfold compile_lines in H. apply in_app_iff in H. destruct H as [H|[H|H]]; [auto 6|injection H as <- _; auto|].
    destruct (compiled (target_of t)); [destruct H|]. cbn [In] in H. decompose [or] H; try discriminate; contradiction.
  - unfold link_lines in H. assert (G : In (Assign x text) (map (fun nc : string * config => Assign ("LDFLAGS_" ++ fst nc) (write_list quote_if_necessary "" (link_flags t (snd nc)))) (sorted_configs t)) \/ x = "LIBS").
    { destruct (type (target_of t)); try (destruct H); apply in_app_iff in H; (destruct H as [H|H]; [left; exact H|]); cbn [In] in H; decompose [or] H; try discriminate; try contradiction; right; congruence. }
    destruct G as [G|G]; [|auto]. apply in_map_iff in G. destruct G as ([n c] & E & G). apply In_sorted in G. destruct (assign_inj _ _ _ _ E) as [<- <-]. right; right; right; right; right. exists n, c. cbn [fst snd]. tauto.
Qed.
Lemma config_owned : forall t x text, In (Assign x text) (flat_map (config_lines t) (sorted_configs t)) -> owned x = true.
Proof.
  intros t x text H. apply config_line in H. destruct H as (n & c & _ & _ & H). cbn [config_lines In] in H.
  decompose [or] H; try contradiction; match goal with E : Assign _ _ = Assign _ _ |- _ => destruct (assign_inj _ _ _ _ E) as [<- _] end; apply owned_pre; cbn [In]; auto 7.
Qed.
Lemma line_owned : forall t x text, In (Assign x text) (target_lines t) -> owned x = true.
Proof.
  intros t x text H. apply line_kinds in H. destruct H as [[-> _]|[->|[->|[->|[H|(n & c & _ & -> & _)]]]]]; try reflexivity; [exact (config_owned _ _ _ H)|]. apply owned_pre. cbn [In]. auto 7.
Qed.
Lemma lines_owned : forall ts l x, In l (all_lines ts) -> sets l x -> owned x = true.
Proof. intros ts l x H [text ->]. apply in_flat_map in H. destruct H as (t & _ & H). exact (line_owned _ _ _ H). Qed.
Lemma line_files : forall t fs x text, In (Assign_for fs x text) (target_lines t) ->
  (fs = objects (target_of t) /\ In x ["TOOLSET"; "GYP_CFLAGS"; "GYP_CXXFLAGS"]) \/ (fs = [binary (target_of t)] /\ type (target_of t) <> None_ /\ In x ["GYP_LDFLAGS"; "LIBS"; "TOOLSET"]).
Proof.
  intros t fs x text H. unfold target_lines in H. cbn [In app] in H. destruct H as [H|[H|H]]; [discriminate|discriminate|].
  apply in_app_iff in H. destruct H as [H|H].
  - left. destruct (sources (target_of t) ++ extra_sources (target_of t))%list; [destruct H|]. unfold compile_lines in H. apply in_app_iff in H. destruct H as [H|[H|H]]; [destruct (config_not_for _ _ _ _ H)|discriminate|].
    destruct (compiled (target_of t)); [destruct H|]. cbn [In] in H. decompose [or] H; try contradiction; match goal with E : Assign_for _ _ _ = Assign_for _ _ _ |- _ => injection E as <- <- _ end; cbn [In]; auto.
  - right. unfold link_lines in H. destruct (type (target_of t)); try (destruct H; fail).
    all: apply in_app_iff in H; destruct H as [H|H]; [destruct (link_not_for _ _ _ _ H)|]; cbn [In] in H; decompose [or] H; try discriminate; try contradiction;
      match goal with E : Assign_for _ _ _ = Assign_for _ _ _ |- _ => injection E as <- <- _ end; (split; [reflexivity|split; [discriminate|cbn [In]; auto]]).
Qed.

(** ** The values of one target's variables *)
Section Target.
  Variables (v0 : variables) (t : built) (b : string) (c : config) (incs rpaths : list string) (builddir : string).
  Hypothesis Hb : lookup_in v0 "BUILDTYPE" = Some b.
  Hypothesis Hc : assoc b (configs t) = Some c.
  Hypothesis Ha : names_apart b (map fst (configs t)).
  Hypothesis Ht : In (toolset (target_of t)) ["target"; "host"].
  Let vals (val : string -> option string) : Prop := exists v, val = lookup_in v /\ stable v0 v.

  Lemma vals_dirs : forall val x, vals val -> In x ["obj"; "builddir"; "srcdir"] -> val x = lookup_in v0 x.
  Proof. intros val x (v & -> & S) H. apply S. destruct H as [<-|[<-|[<-|[]]]]; reflexivity. Qed.

  (** The text of a variable of configuration [b] can only be that of [c]. *)
  Lemma only_text : forall p text text', In (p, text) [("DEFS_", write_list escape_cpp_define "-D" (defines c)); ("CFLAGS_", write_list quote_if_necessary "" (cflags c));
      ("CFLAGS_C_", write_list quote_if_necessary "" (cflags_c c)); ("CFLAGS_CC_", write_list quote_if_necessary "" (cflags_cc c));
      ("INCS_", write_list quote_if_necessary "-I" (map (fun i => sourceify (absolutify (target_of t) i)) (include_dirs c)))] ->
    In (Assign (p ++ b) text') (flat_map (config_lines t) (sorted_configs t)) -> text' = text.
  Proof.
    intros p text text' Hp H. apply config_line in H. destruct H as (n & d & Hd & Hn & H). cbn [config_lines In] in H.
    assert (N : forall q, In q ["C_"; "CC_"] -> n <> q ++ b /\ b <> q ++ n) by (intros q Hq; apply Ha; assumption).
    destruct (N "C_" (or_introl eq_refl)) as [N1 N2]. destruct (N "CC_" (or_intror (or_introl eq_refl))) as [N3 N4]. clear N.
    cbn [In] in Hp.
    decompose [or] Hp; try contradiction; match goal with E : (_, _) = (p, text) |- _ => injection E as <- <- end;
    decompose [or] H; try contradiction; match goal with E : Assign _ _ = Assign _ _ |- _ => injection E; intros E1 E2 end;
    try discriminate E2; cbn [append] in E2, N1, N2, N3, N4; try congruence.
    all: injection E2; intros; subst n; rewrite Hc in Hd; injection Hd as <-; symmetry; exact E1.
  Qed.
  Lemma config_value : forall pre suf s p text x, (forall l y, In l (pre ++ flat_map (config_lines t) (sorted_configs t) ++ suf)%list -> sets l y -> owned y = true) -> stable v0 (fst s) ->
    In (p, text) [("DEFS_", write_list escape_cpp_define "-D" (defines c)); ("CFLAGS_", write_list quote_if_necessary "" (cflags c));
      ("CFLAGS_C_", write_list quote_if_necessary "" (cflags_c c)); ("CFLAGS_CC_", write_list quote_if_necessary "" (cflags_cc c));
      ("INCS_", write_list quote_if_necessary "-I" (map (fun i => sourceify (absolutify (target_of t) i)) (include_dirs c)))] ->
    (forall l, In l (pre ++ suf)%list -> ~ sets l (p ++ b)) -> (forall val, vals val -> read_value val text = Some x) ->
    lookup_in (fst (read_lines s (pre ++ flat_map (config_lines t) (sorted_configs t) ++ suf)%list)) (p ++ b) = Some x.
  Proof.
    intros pre suf s p text x Ho Hs Hp Hn Hx. apply (read_sets v0); [exact Ho|exact Hs| |].
    - intros text' H w Hw. assert (E : text' = text).
      { apply in_app_iff in H. destruct H as [H|H]; [exfalso; apply (Hn (Assign (p ++ b) text')); [apply in_app_iff; left; exact H|eexists; reflexivity]|].
        apply in_app_iff in H. destruct H as [H|H]; [|exfalso; apply (Hn (Assign (p ++ b) text')); [apply in_app_iff; right; exact H|eexists; reflexivity]].
        exact (only_text p text text' Hp H). }
      subst text'. apply Hx. exists w. split; [reflexivity|exact Hw].
    - right. exists text. apply in_app_iff. right. apply in_app_iff. left. apply (has_config_line t b c); [exact Hc|]. cbn [In] in Hp. cbn [config_lines In].
      decompose [or] Hp; try contradiction; match goal with E : (_, _) = (p, text) |- _ => injection E as <- <- end; auto 7.
  Qed.
  Lemma read_toolset : forall val, read_value val (toolset (target_of t)) = Some (toolset (target_of t)).
  Proof. intros val. destruct Ht as [<-|[<-|[]]]; reflexivity. Qed.

  Hypothesis Hdef : Forall plain_define (defines c).
  Hypothesis Hcf : Forall plain_flag (cflags c).
  Hypothesis Hcc : Forall plain_flag (cflags_c c).
  Hypothesis Hcxx : Forall plain_flag (cflags_cc c).
  Hypothesis Hinc : Forall2 (include_at (lookup_in v0) (target_of t)) (include_dirs c) incs.

  Lemma defs_words : exists x, (forall val, vals val -> read_value val (write_list escape_cpp_define "-D" (defines c)) = Some x) /\ sh_arguments x = Some (map (fun d => literal ("-D" ++ d)) (defines c)).
  Proof. apply read_list_value. induction (defines c) as [|d l IH]; cbn [map]; [apply Forall2_nil|]. inversion Hdef; subst. apply Forall2_cons; [apply define_piece; assumption|auto]. Qed.
  Lemma flags_words : forall l, Forall plain_flag l -> exists x, (forall val, vals val -> read_value val (write_list quote_if_necessary "" l) = Some x) /\ sh_arguments x = Some (map literal l).
  Proof. intros l H. apply read_list_value. induction H; cbn [map]; [constructor|constructor; [apply flag_piece; assumption|assumption]]. Qed.
  Lemma incs_words : exists x, (forall val, vals val -> read_value val (write_list quote_if_necessary "-I" (map (fun i => sourceify (absolutify (target_of t) i)) (include_dirs c))) = Some x) /\ sh_arguments x = Some (map (fun i => literal ("-I" ++ i)) incs).
  Proof.
    apply read_list_value. revert Hinc. generalize (include_dirs c). intros l Hl. induction Hl; cbn [map]; [apply Forall2_nil|apply Forall2_cons; [|assumption]]. apply (include_piece (lookup_in v0)); [exact vals_dirs|assumption].
  Qed.

  (** The lines up to the objects *)
  Let first_part : list assignment := (opening t ++ flat_map (config_lines t) (sorted_configs t) ++ [objs_line t])%list.
  Lemma first_owned : forall l y, In l first_part -> sets l y -> owned y = true.
  Proof.
    intros l y H [text ->]. unfold first_part in H. apply in_app_iff in H. destruct H as [H|H].
    - cbn [opening In] in H. decompose [or] H; try contradiction; match goal with E : Assign _ _ = Assign _ _ |- _ => injection E as <- _ end; reflexivity.
    - apply in_app_iff in H. destruct H as [H|[H|[]]]; [exact (config_owned _ _ _ H)|]. injection H as <- _. reflexivity.
  Qed.
  Lemma first_others : forall p l, In p ["DEFS_"; "CFLAGS_"; "CFLAGS_C_"; "CFLAGS_CC_"; "INCS_"] -> In l (opening t ++ [objs_line t])%list -> ~ sets l (p ++ b).
  Proof.
    intros p l Hp H [text ->].
    assert (E : In (p ++ b) ["TOOLSET"; "TARGET"; "OBJS"]).
    { cbn [opening app In] in H. unfold objs_line in H. destruct H as [H|[H|[H|[]]]]; apply assign_inj in H; destruct H as [<- _]; cbn [In]; auto. }
    cbn [In] in Hp. destruct Hp as [<-|[<-|[<-|[<-|[<-|[]]]]]]; cbn [In] in E; destruct E as [E|[E|[E|[]]]]; discriminate E.
  Qed.
  Lemma first_config : forall s p text x, stable v0 (fst s) ->
    In (p, text) [("DEFS_", write_list escape_cpp_define "-D" (defines c)); ("CFLAGS_", write_list quote_if_necessary "" (cflags c));
      ("CFLAGS_C_", write_list quote_if_necessary "" (cflags_c c)); ("CFLAGS_CC_", write_list quote_if_necessary "" (cflags_cc c));
      ("INCS_", write_list quote_if_necessary "-I" (map (fun i => sourceify (absolutify (target_of t) i)) (include_dirs c)))] ->
    (forall val, vals val -> read_value val text = Some x) -> lookup_in (fst (read_lines s first_part)) (p ++ b) = Some x.
  Proof.
    intros s p text x Hs Hp Hx. apply (config_value _ _ _ p text x); [exact first_owned|exact Hs|exact Hp| |exact Hx].
    intros l Hl. apply first_others; [|exact Hl]. cbn [In] in *. decompose [or] Hp; try contradiction; match goal with E : (_, _) = (p, text) |- _ => injection E as <- _ end; auto 6.
  Qed.
  Lemma first_toolset : forall s, stable v0 (fst s) -> lookup_in (fst (read_lines s first_part)) "TOOLSET" = Some (toolset (target_of t)).
  Proof.
    intros s Hs. apply (read_sets v0); [exact first_owned|exact Hs| |right; exists (toolset (target_of t)); left; reflexivity].
    intros text H w _. assert (E : text = toolset (target_of t)); [|subst text; apply read_toolset].
    unfold first_part in H. cbn [opening app In] in H. destruct H as [H|[H|H]]; [congruence|discriminate|]. apply in_app_iff in H. destruct H as [H|[H|[]]]; [|discriminate].
    exfalso. apply config_line in H. destruct H as (n & d & _ & _ & H). cbn [config_lines In] in H. decompose [or] H; try contradiction; discriminate.
  Qed.

  (** What the objects get *)
  Lemma object_lines : forall f, In f (objects (target_of t)) -> exists rest, target_lines t = (first_part ++
      [Assign_for (objects (target_of t)) "TOOLSET" "$(TOOLSET)";
       Assign_for (objects (target_of t)) "GYP_CFLAGS" "$(DEFS_$(BUILDTYPE)) $(INCS_$(BUILDTYPE))  $(CFLAGS_$(BUILDTYPE)) $(CFLAGS_C_$(BUILDTYPE))";
       Assign_for (objects (target_of t)) "GYP_CXXFLAGS" "$(DEFS_$(BUILDTYPE)) $(INCS_$(BUILDTYPE))  $(CFLAGS_$(BUILDTYPE)) $(CFLAGS_CC_$(BUILDTYPE))"] ++ link_lines t)%list /\ rest = link_lines t.
  Proof.
    intros f Hf. exists (link_lines t). split; [|reflexivity]. unfold target_lines, first_part, compile_lines, objs_line. 
    assert (N : compiled (target_of t) <> []) by (intros E; unfold objects in Hf; rewrite E in Hf; destruct Hf).
    assert (M : (sources (target_of t) ++ extra_sources (target_of t))%list <> []) by (intros E; unfold compiled in N; rewrite E in N; apply N; reflexivity).
    destruct (sources (target_of t) ++ extra_sources (target_of t))%list; [contradiction|]. destruct (compiled (target_of t)); [contradiction|].
    cbn [opening app]. rewrite <- !app_assoc. reflexivity.
  Qed.

  Lemma object_flags : forall s f last own, stable v0 (fst s) -> In f (objects (target_of t)) ->
    (last = "CFLAGS_C_" /\ own = cflags_c c) \/ (last = "CFLAGS_CC_" /\ own = cflags_cc c) ->
    exists x, read_value (lookup_in (fst (read_lines s first_part))) ("$(DEFS_$(BUILDTYPE)) $(INCS_$(BUILDTYPE))  $(CFLAGS_$(BUILDTYPE)) $(" ++ last ++ "$(BUILDTYPE))") = Some x /\
      sh_arguments x = Some (map literal (map (append "-D") (defines c) ++ map (append "-I") incs ++ cflags c ++ own))%list.
  Proof.
    intros s f last own Hs Hf Hl.
    destruct defs_words as (x1 & V1 & W1). destruct incs_words as (x2 & V2 & W2). destruct (flags_words _ Hcf) as (x3 & V3 & W3).
    assert (Hown : exists x4, (forall val, vals val -> read_value val (write_list quote_if_necessary "" own) = Some x4) /\ sh_arguments x4 = Some (map literal own)).
    { destruct Hl as [[_ ->]|[_ ->]]; apply flags_words; assumption. }
    destruct Hown as (x4 & V4 & W4). set (v := fst (read_lines s first_part)).
    assert (L1 : lookup_in v ("DEFS_" ++ b) = Some x1) by (refine (first_config s "DEFS_" _ x1 Hs _ V1); cbn [In]; auto 7).
    assert (L2 : lookup_in v ("INCS_" ++ b) = Some x2) by (refine (first_config s "INCS_" _ x2 Hs _ V2); cbn [In]; auto 7).
    assert (L3 : lookup_in v ("CFLAGS_" ++ b) = Some x3) by (refine (first_config s "CFLAGS_" _ x3 Hs _ V3); cbn [In]; auto 7).
    assert (L4 : lookup_in v (last ++ b) = Some x4).
    { destruct Hl as [[-> ->]|[-> ->]]; [refine (first_config s "CFLAGS_C_" _ x4 Hs _ V4)|refine (first_config s "CFLAGS_CC_" _ x4 Hs _ V4)]; cbn [In]; auto 7. }
    assert (LB : lookup_in v "BUILDTYPE" = Some b).
    { unfold v. rewrite (read_stable first_part s first_owned) by reflexivity. rewrite Hs by reflexivity. exact Hb. }
    exists (x1 ++ String " " (x2 ++ String " " (String " " (x3 ++ String " " x4)))). split.
    - assert (J : read_value (lookup_in v) ("$(DEFS_$(BUILDTYPE)) $(INCS_$(BUILDTYPE))  $(CFLAGS_$(BUILDTYPE)) $(" ++ last ++ "$(BUILDTYPE))") =
        refs (lookup_in v) [] "" ("$(DEFS_$(BUILDTYPE)) $(INCS_$(BUILDTYPE))  $(CFLAGS_$(BUILDTYPE)) $(" ++ last ++ "$(BUILDTYPE))")) by (destruct Hl as [[-> _]|[-> _]]; reflexivity).
      rewrite J. clear J.
      assert (E : "$(DEFS_$(BUILDTYPE)) $(INCS_$(BUILDTYPE))  $(CFLAGS_$(BUILDTYPE)) $(" ++ last ++ "$(BUILDTYPE))" =
        "$(" ++ "DEFS_" ++ "$(" ++ "BUILDTYPE" ++ "))" ++ (" " ++ "$(" ++ "INCS_" ++ "$(" ++ "BUILDTYPE" ++ "))" ++ ("  " ++ "$(" ++ "CFLAGS_" ++ "$(" ++ "BUILDTYPE" ++ "))" ++ (" " ++ "$(" ++ last ++ "$(" ++ "BUILDTYPE" ++ "))" ++ "")))) by (destruct Hl as [[-> _]|[-> _]]; reflexivity).
      rewrite E. clear E.
      assert (Nl : all_chars name_char last = true) by (destruct Hl as [[-> _]|[-> _]]; reflexivity).
      rewrite (refs_typed _ _ "DEFS_" "BUILDTYPE" b x1) by (assumption || reflexivity). rewrite (refs_plain _ " ") by reflexivity.
      rewrite (refs_typed _ _ "INCS_" "BUILDTYPE" b x2) by (assumption || reflexivity). rewrite (refs_plain _ "  ") by reflexivity.
      rewrite (refs_typed _ _ "CFLAGS_" "BUILDTYPE" b x3) by (assumption || reflexivity). rewrite (refs_plain _ " ") by reflexivity.
      rewrite (refs_typed _ _ last "BUILDTYPE" b x4) by (assumption || reflexivity). cbn [refs]. f_equal. rewrite !append_assoc. reflexivity.
    - rewrite !map_app. rewrite !map_map. apply arguments_app; [exact W1|]. apply arguments_app; [exact W2|]. rewrite arguments_space. apply arguments_app; assumption.
  Qed.
End Target.
