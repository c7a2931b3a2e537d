(** Proofs about compiler and linker flags: linking. *)
From Verif Require Import Lib Str StrFacts LibFacts Model_Path Model_Memo Spec_Quote Model_Quote Proof_Quote Model_Writer Proof_Suffix Proof_Parts Model_Flags Spec_Flags Proof_Flags Proof_Flags2 Proof_Flags3 Proof_Flags4 Proof_Flags5 Proof_Flags6.
Local Open Scope string_scope.

Definition near (v0 : variables) (val : string -> option string) : Prop := exists v, val = lookup_in v /\ stable v0 v.

Lemma link_flag_words : forall v0 t c bd rp, lookup_in v0 "builddir" = Some bd -> safe bd -> run_paths (deps_of t) bd rp -> Forall plain_flag (ldflags c) -> Forall safe (library_dirs c) ->
  exists x, (forall val, near v0 val -> read_value val (write_list quote_if_necessary "" (link_flags t c)) = Some x) /\ sh_arguments x = Some (map literal (ldflags c ++ rp ++ map (append "-L") (library_dirs c)))%list.
Proof.
  intros v0 t c bd rp Hbd Sbd Hrp Hl Hd. apply read_list_value. unfold link_flags. rewrite !map_app. apply Forall2_app; [|apply Forall2_app].
  - induction Hl; cbn [map]; [apply Forall2_nil|apply Forall2_cons; [apply flag_piece; assumption|assumption]].
  - destruct Hrp as [[(f & Hf & Sf) ->]|[Hn ->]].
    + assert (E : existsb shared (deps_of t) = true) by (apply existsb_exists; exists f; split; [exact Hf|apply shared_iff; exact Sf]). rewrite E. cbn [map].
      apply Forall2_cons; [apply origin_piece|]. apply Forall2_cons; [|apply Forall2_nil]. apply link_piece; [|exact Sbd]. intros val (v & -> & S). rewrite S by reflexivity. exact Hbd.
    + assert (E : existsb shared (deps_of t) = false).
      { destruct (existsb shared (deps_of t)) eqn:E; [|reflexivity]. apply existsb_exists in E. destruct E as (f & Hf & Sf). apply shared_iff in Sf. exfalso. exact (Hn f Hf Sf). }
      rewrite E. apply Forall2_nil.
  - rewrite map_map. induction Hd; cbn [map]; [apply Forall2_nil|apply Forall2_cons; [|assumption]]. change ("" ++ append "-L" x) with ("-L" ++ x). apply prefixed_piece; [reflexivity|assumption].
Qed.
Lemma libs_words : forall v0 t libs, once_each [] (libraries t) libs -> Forall plain_flag libs ->
  exists x, (forall val, near v0 val -> read_value val (write_list quote_if_necessary "" (uniquer string string string_dec (fun y => y) (libraries t))) = Some x) /\ sh_arguments x = Some (map literal libs).
Proof.
  intros v0 t libs H F. unfold uniquer. rewrite (once_uniquer _ _ _ H). cbn [app]. apply read_list_value. clear H. induction F; cbn [map]; [apply Forall2_nil|apply Forall2_cons; [apply flag_piece; assumption|assumption]].
Qed.

Definition ld_lines (t : built) : list assignment :=
  (map (fun nc : string * config => Assign ("LDFLAGS_" ++ fst nc) (write_list quote_if_necessary "" (link_flags t (snd nc)))) (sorted_configs t) ++
   [Assign "LIBS" (write_list quote_if_necessary "" (uniquer string string string_dec (fun x => x) (libraries t)))])%list.
Lemma link_parts : forall t, type (target_of t) <> None_ -> exists a, target_lines t = (a ++ ld_lines t ++ [Assign_for [binary (target_of t)] "GYP_LDFLAGS" "$(LDFLAGS_$(BUILDTYPE))"; Assign_for [binary (target_of t)] "LIBS" "$(LIBS)"; Assign_for [binary (target_of t)] "TOOLSET" "$(TOOLSET)"])%list.
Proof.
  intros t H. unfold target_lines, link_lines, ld_lines.
  exists (Assign "TOOLSET" (toolset (target_of t)) :: Assign "TARGET" (target_name (target_of t)) :: match (sources (target_of t) ++ extra_sources (target_of t))%list with [] => [] | _ => compile_lines t end).
  destruct (type (target_of t)); try contradiction; rewrite <- !app_assoc; reflexivity.
Qed.
Lemma ld_text : forall t b c text, assoc b (configs t) = Some c -> In (Assign ("LDFLAGS_" ++ b) text) (ld_lines t) -> text = write_list quote_if_necessary "" (link_flags t c).
Proof.
  intros t b c text Hc H. apply in_app_iff in H. destruct H as [H|[H|[]]]; [|discriminate]. apply in_map_iff in H. destruct H as ([n d] & E & H). apply In_sorted in H. destruct H as [Hd _].
  apply assign_inj in E. destruct E as [E <-]. cbn [fst snd] in *. apply append_inj_l in E. subst n. rewrite Hc in Hd. injection Hd as <-. reflexivity.
Qed.
Lemma libs_text : forall t text, In (Assign "LIBS" text) (ld_lines t) -> text = write_list quote_if_necessary "" (uniquer string string string_dec (fun x => x) (libraries t)).
Proof. intros t text H. apply in_app_iff in H. destruct H as [H|[H|[]]]; [|congruence]. apply in_map_iff in H. destruct H as ([n d] & E & _). discriminate E. Qed.

Lemma ref_value : forall v x w, all_chars name_char x = true -> lookup_in v x = Some w -> refs (lookup_in v) [] "" ("$(" ++ x ++ ")") = Some w.
Proof. intros v x w N H. rewrite <- (append_nil_r ")"). rewrite (refs_ref _ [] _ x w) by assumption. reflexivity. Qed.

Lemma lit_app : forall s b lb, safe s -> sh_arguments b = Some lb -> sh_arguments (s ++ " " ++ b) = Some (literal s :: lb).
Proof. intros s b lb Hs Hb. exact (words_app s b [literal s] lb _ (safe_words s Hs) Hb eq_refl). Qed.
Lemma lit_end : forall s, safe s -> sh_arguments s = Some [literal s]. Proof. exact safe_words. Qed.

Theorem linked_with : forall vars before t after b c bd rp libs out base inputs inw ld ldw more morew text words,
  lookup_in vars "BUILDTYPE" = Some b -> assoc b (configs t) = Some c -> In (toolset (target_of t)) ["target"; "host"] ->
  lookup_in vars "builddir" = Some bd -> safe bd -> run_paths (deps_of t) bd rp -> Forall plain_flag (ldflags c) -> Forall safe (library_dirs c) ->
  once_each [] (libraries t) libs -> Forall plain_flag libs ->
  (forall u, In u after -> ~ In (binary (target_of t)) (objects (target_of u)) /\ (type (target_of u) = None_ \/ binary (target_of t) <> binary (target_of u))) ->
  safe out -> safe base -> sh_arguments inputs = Some inw ->
  lookup_in vars ("LINK." ++ toolset (target_of t)) = Some ld -> sh_arguments ld = Some ldw -> lookup_in vars ("LDFLAGS." ++ toolset (target_of t)) = Some more -> sh_arguments more = Some morew ->
  link_command t = Some text -> link_words (type (target_of t)) ldw morew inw out base (ldflags c ++ rp ++ map (append "-L") (library_dirs c)) libs = Some words ->
  command_words (read_lines (vars, []) (all_lines (before ++ t :: after))) (binary (target_of t)) [("@", out); ("@F", base); ("LD_INPUTS", inputs); ("INPUTS", inputs)] text = Some words.
Proof.
  intros v0 before t after b c bd rp libs out base inputs inw ld ldw more morew text words Hb Hc Ht Hbd Sbd Hrp Hlf Hld Hlibs Flibs Hafter So Sb Wi Vld Wld Vm Wm Htext Hwords.
  set (f := binary (target_of t)) in *.
  set (s := read_lines (v0, []) (all_lines before)). assert (Hs : stable v0 (fst s)) by apply before_stable.
  assert (Hty : type (target_of t) <> None_) by (intros X; unfold link_command in Htext; rewrite X in Htext; discriminate).
  destruct (link_parts t Hty) as (a & E). fold f in E.
  set (final := read_lines (v0, []) (all_lines (before ++ t :: after))).
  set (s1 := read_lines s a). set (s2 := read_lines s1 (ld_lines t)).
  assert (Ef : final = read_lines (read_lines s (target_lines t)) (all_lines after)).
  { unfold final. rewrite all_lines_app, read_lines_app. change (all_lines (t :: after)) with (target_lines t ++ all_lines after)%list. rewrite read_lines_app. reflexivity. }
  assert (Oa : forall l y, In l a -> sets l y -> owned y = true).
  { intros l y H [tx ->]. apply (line_owned t y tx). rewrite E. apply in_app_iff. left. exact H. }
  assert (Ol : forall l y, In l (ld_lines t) -> sets l y -> owned y = true).
  { intros l y H [tx ->]. apply (line_owned t y tx). rewrite E. apply in_app_iff. right. apply in_app_iff. left. exact H. }
  assert (H1 : stable v0 (fst s1)) by (apply (stable_trans _ (fst s)); [exact Hs|apply read_stable; exact Oa]).
  assert (H2 : stable v0 (fst s2)) by (apply (stable_trans _ (fst s1)); [exact H1|apply read_stable; exact Ol]).
  assert (T2 : lookup_in (fst s2) "TOOLSET" = Some (toolset (target_of t))).
  { unfold s2, s1. rewrite <- read_lines_app. apply (read_sets v0); [|exact Hs| |].
    - intros l y H [tx ->]. apply (line_owned t y tx). rewrite E, app_assoc. apply in_app_iff. left. exact H.
    - intros tx H w _. rewrite (toolset_text t tx); [|rewrite E, app_assoc; apply in_app_iff; left; exact H]. destruct Ht as [<-|[<-|[]]]; reflexivity.
    - right. exists (toolset (target_of t)). assert (I : In (Assign "TOOLSET" (toolset (target_of t))) (target_lines t)) by (left; reflexivity).
      rewrite E, app_assoc in I. apply in_app_iff in I. destruct I as [I|[I|[I|[I|[]]]]]; [exact I|discriminate..]. }
  destruct (link_flag_words v0 t c bd rp Hbd Sbd Hrp Hlf Hld) as (fl & Vfl & Wfl).
  destruct (libs_words v0 t libs Hlibs Flibs) as (lb & Vlb & Wlb).
  assert (LF : lookup_in (fst s2) ("LDFLAGS_" ++ b) = Some fl).
  { apply (read_sets v0); [exact Ol|exact H1| |].
    - intros tx H w Hw. rewrite (ld_text t b c tx Hc H). apply Vfl. exists w. auto.
    - right. exists (write_list quote_if_necessary "" (link_flags t c)). apply in_app_iff. left. apply in_map_iff. exists (b, c). split; [reflexivity|].
      unfold sorted_configs. apply in_flat_map. exists b. split; [|rewrite Hc; left; reflexivity]. apply sort_In. apply assoc_In in Hc. apply (in_map fst) in Hc. exact Hc. }
  assert (LB : lookup_in (fst s2) "LIBS" = Some lb).
  { apply (read_sets v0); [exact Ol|exact H1| |].
    - intros tx H w Hw. rewrite (libs_text t tx H). apply Vlb. exists w. auto.
    - right. eexists. apply in_app_iff. right. left. reflexivity. }
  assert (BT : lookup_in (fst s2) "BUILDTYPE" = Some b) by (rewrite H2 by reflexivity; exact Hb).
  assert (R : forall x w, (x = "GYP_LDFLAGS" /\ w = fl) \/ (x = "LIBS" /\ w = lb) \/ (x = "TOOLSET" /\ w = toolset (target_of t)) -> in_recipe final f x = Some w).
  { intros x w Hx. unfold in_recipe. rewrite Ef, after_keeps by exact Hafter. rewrite E, !read_lines_app. fold s1 s2.
    change (read_lines s2 [?p; ?q; ?r]) with (read_line (read_line (read_line s2 p) q) r). destruct s2 as [v2 sp2]. cbn [read_line snd fst map app] in *. cbn [specific]. rewrite !String.eqb_refl. cbn [andb].
    destruct Hx as [[-> ->]|[[-> ->]|[-> ->]]]; cbn [String.eqb Ascii.eqb Bool.eqb].
    - change (read_value (lookup_in v2) "$(LDFLAGS_$(BUILDTYPE))") with (refs (lookup_in v2) [] "" ("$(" ++ "LDFLAGS_" ++ "$(" ++ "BUILDTYPE" ++ "))" ++ "")). rewrite (refs_typed _ _ "LDFLAGS_" "BUILDTYPE" b fl) by (assumption || reflexivity). reflexivity.
    - change (read_value (lookup_in v2) "$(LIBS)") with (refs (lookup_in v2) [] "" ("$(" ++ "LIBS" ++ ")")). apply ref_value; [reflexivity|exact LB].
    - change (read_value (lookup_in v2) "$(TOOLSET)") with (refs (lookup_in v2) [] "" ("$(" ++ "TOOLSET" ++ ")")). apply ref_value; [reflexivity|exact T2]. }
  assert (O : forall x, owned x = false -> ~ In x ["TOOLSET"; "GYP_CFLAGS"; "GYP_CXXFLAGS"; "GYP_LDFLAGS"; "LIBS"] -> in_recipe final f x = lookup_in v0 x).
  { intros x Ho Hx. unfold in_recipe, final. rewrite specific_none by (reflexivity || exact Hx). apply (read_stable (all_lines (before ++ t :: after)) (v0, [])); [intros l y; apply lines_owned|exact Ho]. }
  unfold command_words. set (val := fun x => match assoc x [("@", out); ("@F", base); ("LD_INPUTS", inputs); ("INPUTS", inputs)] with Some v => Some v | None => in_recipe final f x end).
  assert (V1 : val "TOOLSET" = Some (toolset (target_of t))) by (apply R; auto).
  assert (V2 : val ("LINK." ++ toolset (target_of t)) = Some ld).
  { transitivity (in_recipe final f ("LINK." ++ toolset (target_of t))); [unfold val; destruct Ht as [<-|[<-|[]]]; reflexivity|]. rewrite O; [exact Vld| |]; destruct Ht as [<-|[<-|[]]]; try reflexivity; cbn [In]; intros X; decompose [or] X; try discriminate; contradiction. }
  assert (V3 : val ("LDFLAGS." ++ toolset (target_of t)) = Some more).
  { transitivity (in_recipe final f ("LDFLAGS." ++ toolset (target_of t))); [unfold val; destruct Ht as [<-|[<-|[]]]; reflexivity|]. rewrite O; [exact Vm| |]; destruct Ht as [<-|[<-|[]]]; try reflexivity; cbn [In]; intros X; decompose [or] X; try discriminate; contradiction. }
  assert (V4 : val "GYP_LDFLAGS" = Some fl) by (apply R; auto).
  assert (V5 : val "LIBS" = Some lb) by (apply R; auto).
  assert (V6 : val "@" = Some out) by reflexivity. assert (V7 : val "@F" = Some base) by reflexivity.
  assert (V8 : val "LD_INPUTS" = Some inputs) by reflexivity. assert (V9 : val "INPUTS" = Some inputs) by reflexivity.
  clearbody val. clear R O.
  assert (SB : safe ("-Wl,-soname=" ++ base)) by (apply safe_app; [reflexivity|exact Sb]).
  unfold link_command, link_words in *. destruct (type (target_of t)); try discriminate; injection Htext as <-; injection Hwords as <-.
  - change cmd_link with ("$(" ++ "LINK." ++ "$(" ++ "TOOLSET" ++ "))" ++ (" -o " ++ "$" ++ String "@" (" " ++ "$(" ++ "GYP_LDFLAGS" ++ ")" ++ (" " ++ "$(" ++ "LDFLAGS." ++ "$(" ++ "TOOLSET" ++ "))" ++ (" -Wl,--start-group " ++ "$(" ++ "LD_INPUTS" ++ ")" ++ (" " ++ "$(" ++ "LIBS" ++ ")" ++ (" -Wl,--end-group" ++ ""))))))).
    rewrite (refs_typed _ _ "LINK." "TOOLSET" _ ld) by (eassumption || reflexivity). rewrite (refs_plain _ " -o ") by reflexivity. rewrite (refs_auto _ _ "@" out) by auto. rewrite (refs_plain _ " ") by reflexivity.
    rewrite (refs_ref _ [] _ "GYP_LDFLAGS" fl) by (assumption || reflexivity). rewrite (refs_plain _ " ") by reflexivity. rewrite (refs_typed _ _ "LDFLAGS." "TOOLSET" _ more) by (eassumption || reflexivity).
    rewrite (refs_plain _ " -Wl,--start-group ") by reflexivity. rewrite (refs_ref _ [] _ "LD_INPUTS" inputs) by (assumption || reflexivity). rewrite (refs_plain _ " ") by reflexivity.
    rewrite (refs_ref _ [] _ "LIBS" lb) by (assumption || reflexivity). rewrite (refs_plain _ " -Wl,--end-group") by reflexivity. cbn [refs].
    assert (G : ((((((((((("" ++ ld) ++ " -o ") ++ out) ++ " ") ++ fl) ++ " ") ++ more) ++ " -Wl,--start-group ") ++ inputs) ++ " ") ++ lb) ++ " -Wl,--end-group" =
      ld ++ " " ++ "-o" ++ " " ++ out ++ " " ++ fl ++ " " ++ more ++ " " ++ "-Wl,--start-group" ++ " " ++ inputs ++ " " ++ lb ++ " " ++ "-Wl,--end-group") by (rewrite !append_assoc; reflexivity).
    rewrite G. clear G. rewrite (map_app literal libs). cbn [map app].
    refine (words_app _ _ _ _ _ Wld _ eq_refl). apply lit_app; [split; [discriminate|reflexivity]|]. apply lit_app; [exact So|].
    refine (words_app _ _ _ _ _ Wfl _ eq_refl). refine (words_app _ _ _ _ _ Wm _ eq_refl). apply lit_app; [split; [discriminate|reflexivity]|]. refine (words_app _ _ _ _ _ Wi _ eq_refl). refine (words_app _ _ _ _ _ Wlb _ eq_refl). reflexivity.
  - change cmd_solink with ("$(" ++ "LINK." ++ "$(" ++ "TOOLSET" ++ "))" ++ (" -o " ++ "$" ++ String "@" (" -shared " ++ "$(" ++ "GYP_LDFLAGS" ++ ")" ++ (" " ++ "$(" ++ "LDFLAGS." ++ "$(" ++ "TOOLSET" ++ "))" ++ (" -Wl,-soname=" ++ "$(" ++ "@F" ++ ")" ++ (" -Wl,--whole-archive " ++ "$(" ++ "LD_INPUTS" ++ ")" ++ (" -Wl,--no-whole-archive " ++ "$(" ++ "LIBS" ++ ")" ++ ""))))))).  
    rewrite (refs_typed _ _ "LINK." "TOOLSET" _ ld) by (eassumption || reflexivity). rewrite (refs_plain _ " -o ") by reflexivity. rewrite (refs_auto _ _ "@" out) by auto. rewrite (refs_plain _ " -shared ") by reflexivity.
    rewrite (refs_ref _ [] _ "GYP_LDFLAGS" fl) by (assumption || reflexivity). rewrite (refs_plain _ " ") by reflexivity. rewrite (refs_typed _ _ "LDFLAGS." "TOOLSET" _ more) by (eassumption || reflexivity).
    rewrite (refs_plain _ " -Wl,-soname=") by reflexivity. rewrite (refs_ref _ [] _ "@F" base) by (assumption || reflexivity). rewrite (refs_plain _ " -Wl,--whole-archive ") by reflexivity. rewrite (refs_ref _ [] _ "LD_INPUTS" inputs) by (assumption || reflexivity).
    rewrite (refs_plain _ " -Wl,--no-whole-archive ") by reflexivity. rewrite (refs_ref _ [] _ "LIBS" lb) by (assumption || reflexivity). cbn [refs].
    assert (G : (((((((((((("" ++ ld) ++ " -o ") ++ out) ++ " -shared ") ++ fl) ++ " ") ++ more) ++ " -Wl,-soname=") ++ base) ++ " -Wl,--whole-archive ") ++ inputs) ++ " -Wl,--no-whole-archive ") ++ lb =
      ld ++ " " ++ "-o" ++ " " ++ out ++ " " ++ "-shared" ++ " " ++ fl ++ " " ++ more ++ " " ++ ("-Wl,-soname=" ++ base) ++ " " ++ "-Wl,--whole-archive" ++ " " ++ inputs ++ " " ++ "-Wl,--no-whole-archive" ++ " " ++ lb) by (rewrite !append_assoc; reflexivity).
    rewrite G. clear G. cbn [map app].
    refine (words_app _ _ _ _ _ Wld _ eq_refl). apply lit_app; [split; [discriminate|reflexivity]|]. apply lit_app; [exact So|]. apply lit_app; [split; [discriminate|reflexivity]|].
    refine (words_app _ _ _ _ _ Wfl _ eq_refl). refine (words_app _ _ _ _ _ Wm _ eq_refl). apply lit_app; [exact SB|]. apply lit_app; [split; [discriminate|reflexivity]|]. refine (words_app _ _ _ _ _ Wi _ eq_refl).
    apply lit_app; [split; [discriminate|reflexivity]|]. exact Wlb.
  - change cmd_solink_module with ("$(" ++ "LINK." ++ "$(" ++ "TOOLSET" ++ "))" ++ (" -o " ++ "$" ++ String "@" (" -shared " ++ "$(" ++ "GYP_LDFLAGS" ++ ")" ++ (" " ++ "$(" ++ "LDFLAGS." ++ "$(" ++ "TOOLSET" ++ "))" ++ (" -Wl,-soname=" ++ "$(" ++ "@F" ++ ")" ++ (" -Wl,--start-group " ++ "$(" ++ "INPUTS" ++ ")" ++ (" -Wl,--end-group " ++ "$(" ++ "LIBS" ++ ")" ++ ""))))))).  
    rewrite (refs_typed _ _ "LINK." "TOOLSET" _ ld) by (eassumption || reflexivity). rewrite (refs_plain _ " -o ") by reflexivity. rewrite (refs_auto _ _ "@" out) by auto. rewrite (refs_plain _ " -shared ") by reflexivity.
    rewrite (refs_ref _ [] _ "GYP_LDFLAGS" fl) by (assumption || reflexivity). rewrite (refs_plain _ " ") by reflexivity. rewrite (refs_typed _ _ "LDFLAGS." "TOOLSET" _ more) by (eassumption || reflexivity).
    rewrite (refs_plain _ " -Wl,-soname=") by reflexivity. rewrite (refs_ref _ [] _ "@F" base) by (assumption || reflexivity). rewrite (refs_plain _ " -Wl,--start-group ") by reflexivity. rewrite (refs_ref _ [] _ "INPUTS" inputs) by (assumption || reflexivity).
    rewrite (refs_plain _ " -Wl,--end-group ") by reflexivity. rewrite (refs_ref _ [] _ "LIBS" lb) by (assumption || reflexivity). cbn [refs].
    assert (G : (((((((((((("" ++ ld) ++ " -o ") ++ out) ++ " -shared ") ++ fl) ++ " ") ++ more) ++ " -Wl,-soname=") ++ base) ++ " -Wl,--start-group ") ++ inputs) ++ " -Wl,--end-group ") ++ lb =
      ld ++ " " ++ "-o" ++ " " ++ out ++ " " ++ "-shared" ++ " " ++ fl ++ " " ++ more ++ " " ++ ("-Wl,-soname=" ++ base) ++ " " ++ "-Wl,--start-group" ++ " " ++ inputs ++ " " ++ "-Wl,--end-group" ++ " " ++ lb) by (rewrite !append_assoc; reflexivity).
    rewrite G. clear G. cbn [map app].
    refine (words_app _ _ _ _ _ Wld _ eq_refl). apply lit_app; [split; [discriminate|reflexivity]|]. apply lit_app; [exact So|]. apply lit_app; [split; [discriminate|reflexivity]|].
    refine (words_app _ _ _ _ _ Wfl _ eq_refl). refine (words_app _ _ _ _ _ Wm _ eq_refl). apply lit_app; [exact SB|]. apply lit_app; [split; [discriminate|reflexivity]|]. refine (words_app _ _ _ _ _ Wi _ eq_refl).
    apply lit_app; [split; [discriminate|reflexivity]|]. exact Wlb.
Qed.
