(** Where the product of a target is written to: the whole group. *)
From Verif Require Import Lib LibFacts Str StrFacts Model_Path Spec_Path Model_Value Model_Vcxproj Spec_Vcxproj Model_Cmdline Model_Tools Spec_Tools Model_TopoSort Model_Properties Spec_Properties Proof_Vcxproj Proof_Vcxproj2 Proof_Custom2 Proof_Tools Proof_Tools2 Proof_Tools3 Proof_Properties Proof_Properties2.
From Verif Require Proof_Merge2 Model_Writer Proof_Vcxproj4 Proof_Suffix Proof_Parts Proof_Commands.
Local Open Scope string_scope.

(** ** references *)
Lemma references_plain : forall a s, has_char "$" a = false -> references 0 (a ++ s) = references 0 s.
Proof.
  induction a as [|c a IH]; intros s H; [reflexivity|]. cbn [has_char] in H. destruct (Ascii.eqb_spec c "$") as [->|N]; [discriminate|]. change (String c a ++ s) with (String c (a ++ s)). cbn [references].
  assert (R : name_at (String c (a ++ s)) = None). { unfold name_at. destruct (a ++ s) as [|? [|? ?]]; try reflexivity. destruct (Ascii.eqb_spec c "$"); [contradiction|reflexivity]. }
  rewrite R. exact (IH s H).
Qed.
Lemma references_none : forall a, has_char "$" a = false -> references 0 a = [].
Proof. intros a H. rewrite <- (append_nil_r a). rewrite references_plain by exact H. reflexivity. Qed.
Lemma expand_app_plain : forall env a s, has_char "$" a = false -> expanded env 0 (a ++ s) = a ++ expanded env 0 s.
Proof.
  induction a as [|c a IH]; intros s H; [reflexivity|]. cbn [has_char] in H. destruct (Ascii.eqb_spec c "$") as [->|N]; [discriminate|]. change (String c a ++ s) with (String c (a ++ s)). cbn [expanded].
  assert (R : reference (String c (a ++ s)) = None). { unfold reference. destruct (a ++ s) as [|? ?]; try reflexivity. destruct (Ascii.eqb_spec c "$"); [contradiction|reflexivity]. }
  rewrite R, (IH s H). reflexivity.
Qed.
Lemma has_replace_from : forall c p b s k, has_char c b = false -> has_char c s = false -> has_char c (Model_Writer.replace_from p b k s) = false.
Proof.
  intros c p b. induction s as [|a s IH]; intros k B H; [reflexivity|]. cbn [has_char] in H. apply orb_false_iff in H. destruct H as (H1 & H2). cbn [Model_Writer.replace_from]. destruct k; [|exact (IH k B H2)]. destruct (String.prefix _ _); [rewrite has_char_app, B, (IH _ B H2); reflexivity|]. cbn [has_char]. rewrite H1. exact (IH 0 B H2).
Qed.

(** ** one configuration *)
Section Case.
  Variables (pre cygwin p n e : string) (t : target).
  Hypothesis kinds : In (kind t) ["executable"; "shared_library"; "loadable_module"; "windows_driver"].
  Hypothesis auto : auto_output_file t = true.
  Hypothesis no_dir : product_dir t = None.
  Hypothesis prefix_is : product_prefix t = p.
  Hypothesis name_is : product_name t = Some n.
  Hypothesis ext_is : product_extension t = Some e.
  Hypothesis name_plain : plain_name (p ++ n).
  Hypothesis ext_plain : plain_name e.
  Hypothesis pre_plain : has_char "$" pre = false.
  Hypothesis cygwin_plain : has_char "$" cygwin = false.
  Let file := (p ++ n) ++ "." ++ e.
  Lemma file_plain : plain_name file.
  Proof.
    destruct name_plain as (N1 & N2), ext_plain as (E1 & E2). split.
    - unfold file. intros E. apply N1. destruct (p ++ n); [reflexivity|discriminate E].
    - unfold file. rewrite Proof_Commands.list_ascii_app, forallb_app, N2. change (list_ascii_of_string ("." ++ e)) with ("."%char :: list_ascii_of_string e). cbn [forallb]. rewrite E2. reflexivity.
  Qed.
  Lemma file_not : forall c, name_char c = false -> has_char c file = false.
  Proof. intros c N. apply (name_char_not c file); [exact (proj2 file_plain)|exact N]. Qed.
  Lemma file_dots : file <> "." /\ file <> "..".
  Proof.
    destruct name_plain as (N1 & _), ext_plain as (E1 & _). unfold file. destruct (p ++ n) as [|a [|b r]]; [contradiction| |]; (destruct e as [|x r']; [contradiction|]); split; intros E; try discriminate E; apply (f_equal String.length) in E; cbn in E; try lia; try discriminate E; rewrite ?Proof_Vcxproj4.slen_app in E; cbn in E; lia.
  Qed.
  Lemma output_is : output_file t = ("$(OutDir)\" ++ file, "Link").
  Proof.
    unfold output_file, output_file_map. apply mem_In in kinds. rewrite kinds, auto, no_dir, prefix_is, name_is, ext_is. destruct ext_plain as (E1 & _). destruct (String.eqb_spec e "") as [->|_]; [contradiction|]. rewrite <- append_assoc. fold file.
    assert (D : (if standalone_static_library t then "$(OutDir)" else "$(OutDir)") = "$(OutDir)") by (destruct (standalone_static_library t); reflexivity). rewrite D. f_equal. unfold nt_join.
    assert (R : rooted file = false /\ fst (nt_drive file) = "").
    { pose proof (file_not "/" eq_refl) as F1. pose proof (file_not "\" eq_refl) as F2. pose proof (file_not ":" eq_refl) as F3. destruct file as [|a [|b r]]; [auto| |].
      - cbn in F1, F2. cbn. destruct (is_sep a) eqn:S; [|auto]. apply is_sep_iff in S. destruct S as [-> | ->]; discriminate.
      - cbn [has_char] in F1, F2, F3. cbn [rooted]. split; [destruct (is_sep a) eqn:S; [|auto]; apply is_sep_iff in S; destruct S as [-> | ->]; discriminate|]. cbn [nt_drive]. destruct (Ascii.eqb a ":"), (Ascii.eqb b ":"); try discriminate F3; reflexivity. }
    destruct R as (-> & ->). reflexivity.
  Qed.
  Lemma ext_text : target_ext t = "." ++ e.
  Proof. unfold target_ext. rewrite ext_is. destruct ext_plain as (E1 & _). destruct (String.eqb_spec e ""); [contradiction|reflexivity]. Qed.
  Lemma finalized_shape : forall b user c fin, finalize pre b user t c = inl fin -> lookup user "Link" "OutputFile" = None -> lookup user "Link" "TargetExt" = None -> tool_settings user "" = [] ->
    lookup fin "Link" "OutputFile" = Some (Text ("$(OutDir)\" ++ file)) /\ lookup fin "Link" "TargetExt" = Some (Text ("." ++ e)) /\ imports (tool_settings fin "").
  Proof.
    intros b user c fin E U1 U2 U3. destruct (finalize_steps _ _ _ _ _ _ E) as (f & R). revert R. generalize (map (map_chars code) (if b then filter (fun d => negb (String.eqb d "_HAS_TR1=0")) (get_defines c) else get_defines c)) as defs. intros defs R. split; [|split].
    - destruct (steps_parts pre t c defs f) as (tail & S & T). rewrite S, output_is, ext_text in R. cbn [fst snd] in R.
      match type of R with run_steps ([?a1; ?a2; ?a3; ?a4; ?a5; ?a6; ?a7; ?a8; ?a9] ++ _) _ = _ =>
        apply (steps_text [a1; a2; a3; a4; a5] a6 (a7 :: a8 :: a9 :: tail) user fin ("$(OutDir)\" ++ file) R) end; try reflexivity; try discriminate; [|exact U1].
      cbn [app]. repeat (apply Forall_cons; [first [right; discriminate|left; discriminate]|]). apply tail_elsewhere; [cbn; tauto|exact T].
    - destruct (steps_parts pre t c defs f) as (tail & S & T). rewrite S, output_is, ext_text in R. cbn [fst snd] in R.
      match type of R with run_steps ([?a1; ?a2; ?a3; ?a4; ?a5; ?a6; ?a7; ?a8; ?a9] ++ _) _ = _ =>
        apply (steps_text [a1; a2; a3; a4; a5; a6] a7 (a8 :: a9 :: tail) user fin ("." ++ e) R) end; try reflexivity; try discriminate; [|exact U2].
      cbn [app]. repeat (apply Forall_cons; [first [right; discriminate|left; discriminate]|]). apply tail_elsewhere; [cbn; tauto|exact T].
    - apply (no_tool _ _ _ R); [left; exact U3|]. unfold steps, get_include_dirs. rewrite output_is. 
      repeat first [apply Forall_cons; [first [discriminate | (intros _; cbn; auto)]|] | apply Forall_app; split | apply Forall_nil
        | match goal with |- Forall _ (match precompiled_header c with _ => _ end) => destruct (precompiled_header c) as [[|? ?]|] | |- Forall _ (if ?x then _ else _) => destruct x end].
  Qed.

  Definition default_directories (a : attributes) : Prop :=
    (output_directory a = None \/ output_directory a = Some "$(SolutionDir)$(ConfigurationName)") /\ (intermediate_directory a = None \/ intermediate_directory a = Some "$(OutDir)\obj\$(ProjectName)").
  Lemma out_is : forall a, default_directories a -> out_dir pre a = "$(SolutionDir)$(Configuration)\".
  Proof.
    intros a ([E|E] & _); unfold out_dir, fix_path; rewrite E; (destruct (negb (String.eqb pre "")); vm_compute; reflexivity).
  Qed.
  Lemma int_is : forall a, default_directories a -> In (int_dir pre a) ["$(Configuration)\obj\$(ProjectName)\"; "$(OutDir)obj\$(ProjectName)\"].
  Proof.
    intros a (_ & [E|E]); unfold int_dir, fix_path; rewrite E; [left|right; left]; (destruct (negb (String.eqb pre "")); vm_compute; reflexivity).
  Qed.
  Lemma executable_is : executable_path pre cygwin = [] \/ exists v, executable_path pre cygwin = [("ExecutablePath", v)] /\ references 0 v = ["ExecutablePath"; "MSBuildProjectDirectory"; "MSBuildProjectDirectory"].
  Proof.
    unfold executable_path. destruct (String.eqb cygwin ""); [left; reflexivity|]. right. eexists. split; [reflexivity|]. set (r := fix_path pre cygwin ++ "\bin\").
    assert (H : has_char "$" r = false) by (unfold r; rewrite has_char_app, (has_fix "$" pre cygwin) by (try assumption; repeat split; discriminate); reflexivity).
    assert (P : Model_Writer.replace "cygwin\bin" "python_26" ("$(MSBuildProjectDirectory)\" ++ r) = "$(MSBuildProjectDirectory)\" ++ Model_Writer.replace_from "cygwin\bin" "python_26" 0 r) by reflexivity.
    cbv zeta. rewrite P. set (r2 := Model_Writer.replace_from _ _ _ r). assert (H2 : has_char "$" r2 = false) by (apply has_replace_from; [reflexivity|exact H]).
change ("$(ExecutablePath);" ++ ("$(MSBuildProjectDirectory)\" ++ r) ++ ";" ++ "$(MSBuildProjectDirectory)\" ++ r2) with ("$(ExecutablePath);$(MSBuildProjectDirectory)" ++ (("\" ++ r) ++ (";$(MSBuildProjectDirectory)" ++ ("\" ++ r2)))).
    assert (Q : forall y, references 0 ("$(ExecutablePath);$(MSBuildProjectDirectory)" ++ y) = "ExecutablePath" :: "MSBuildProjectDirectory" :: references 0 y) by reflexivity. rewrite Q, (references_plain ("\" ++ r)) by exact H.
    assert (Q2 : forall y, references 0 (";$(MSBuildProjectDirectory)" ++ y) = "MSBuildProjectDirectory" :: references 0 y) by reflexivity. rewrite Q2, (references_none ("\" ++ r2)) by exact H2. reflexivity.
  Qed.
  Definition shape (g : list (string * string)) : Prop := exists i x ign,
    g = app [("IntDir", i); ("OutDir", "$(SolutionDir)$(Configuration)\"); ("TargetName", p ++ n); ("TargetExt", "." ++ e); ("TargetPath", "$(OutDir)\" ++ file); ("TargetExt", "." ++ e)] (app x ign) /\
    In i ["$(Configuration)\obj\$(ProjectName)\"; "$(OutDir)obj\$(ProjectName)\"] /\
    (x = [] \/ exists v, x = [("ExecutablePath", v)] /\ references 0 v = ["ExecutablePath"; "MSBuildProjectDirectory"; "MSBuildProjectDirectory"]) /\
    (ign = [] \/ exists b, In b ["true"; "false"] /\ ign = [("IgnoreImportLibrary", b)]).
  Lemma globals : forall a fin g, global_properties pre cygwin t a fin = inl g -> default_directories a -> lookup fin "Link" "OutputFile" = Some (Text ("$(OutDir)\" ++ file)) -> lookup fin "Link" "TargetExt" = Some (Text ("." ++ e)) -> imports (tool_settings fin "") -> shape g.
  Proof.
    intros a fin g G D L1 L2 I. unfold global_properties, attribute_properties in G. pose proof (proj2 (mem_In _ _) kinds) as K. rewrite K in G. unfold lookup, tool_settings in L1, L2. destruct (assoc "Link" fin) as [s|]; [|discriminate]. unfold tool_text in G. rewrite L1, L2 in G. change (String.eqb ("$(OutDir)\" ++ file) "") with false in G. change (String.eqb ("." ++ e) "") with false in G. cbv iota in G.
    rewrite (out_name file) in G by (try exact (proj1 file_plain); try exact (proj1 file_dots); try exact (proj2 file_dots); apply file_not; reflexivity). change (String.eqb ("$(OutDir)\" ++ file) "") with false in G. cbv iota in G. rewrite (out_is a D), prefix_is, name_is in G. injection G as <-.
    exists (int_dir pre a), (executable_path pre cygwin). eexists. split; [cbn [app]; reflexivity|]. split; [exact (int_is a D)|]. split; [exact executable_is|]. destruct I as [-> | (b & Ib & ->)]; [left; reflexivity|right; exists b; split; [exact Ib|]]. destruct Ib as [<-|[<-|[]]]; reflexivity.
  Qed.

  (** ** all configurations *)
  Definition names : list string := ["IntDir"; "OutDir"; "TargetName"; "TargetExt"; "TargetPath"; "ExecutablePath"; "IgnoreImportLibrary"].
  Lemma not_names : forall m, mem m names = false -> ~ In m names.
  Proof. intros m H I. apply mem_In in I. congruence. Qed.
  Lemma Ref1 : references 0 "$(Configuration)\obj\$(ProjectName)\" = ["Configuration"; "ProjectName"].
  Proof. vm_compute. reflexivity. Qed.
  Lemma Ref2 : references 0 "$(OutDir)obj\$(ProjectName)\" = ["OutDir"; "ProjectName"].
  Proof. vm_compute. reflexivity. Qed.
  Lemma Ref3 : references 0 "$(SolutionDir)$(Configuration)\" = ["SolutionDir"; "Configuration"].
  Proof. vm_compute. reflexivity. Qed.
  Lemma Ref4 : references 0 ("$(OutDir)\" ++ file) = ["OutDir"].
  Proof.
    change ("$(OutDir)\" ++ file) with ("$(OutDir)" ++ ("\" ++ file)). assert (Q : forall y, references 0 ("$(OutDir)" ++ y) = "OutDir" :: references 0 y) by reflexivity. rewrite Q, references_none; [reflexivity|]. rewrite has_char_app. rewrite (file_not "$" eq_refl). reflexivity.
  Qed.
  Lemma ext_no : has_char "$" ("." ++ e) = false.
  Proof. rewrite has_char_app. rewrite (name_char_not "$" e (proj2 ext_plain) eq_refl). reflexivity. Qed.
  Lemma refers_references : forall s m, refers s m -> In m (references 0 s).
  Proof. intros s m R. apply refers_iff. exact R. Qed.
  Lemma refers_out : forall m, refers "$(SolutionDir)$(Configuration)\" m -> In m ["SolutionDir"; "Configuration"; "ProjectName"; "OutDir"; "ExecutablePath"; "MSBuildProjectDirectory"] /\ (In m names -> m = "OutDir" \/ m = "OutDir" /\ "OutDir" <> "OutDir").
  Proof.
    intros m R. apply refers_references in R. rewrite Ref3 in R. split; [destruct R as [<-|[<-|[]]]; cbn; tauto|]. intros Im. exfalso. apply mem_In in Im. destruct R as [<-|[<-|[]]]; discriminate Im.
  Qed.
  Lemma shape_In : forall g name v, shape g -> In (name, v) g -> In name names /\ (forall m, refers v m -> In m ["SolutionDir"; "Configuration"; "ProjectName"; "OutDir"; "ExecutablePath"; "MSBuildProjectDirectory"] /\ (In m names -> m = name \/ m = "OutDir" /\ name <> "OutDir")) /\ (name = "TargetExt" -> v = "." ++ e).
  Proof.
    intros g name v (i & x & ign & -> & Ii & X & G) I.
    assert (Pl : forall w, has_char "$" w = false -> forall m, refers w m -> False) by (intros w H m R; apply refers_iff in R; rewrite references_none in R by exact H; exact R).
    apply in_app_or in I. destruct I as [[E|[E|[E|[E|[E|[E|[]]]]]]]|I]; try (apply in_app_or in I; destruct I as [I|I]).
    - apply pair_equal_spec in E. destruct E as (<- & <-). split; [cbn; tauto|]. split; [|discriminate]. intros m R. apply refers_references in R. destruct Ii as [<-|[<-|[]]]; [rewrite Ref1 in R|rewrite Ref2 in R]; destruct R as [<-|[<-|[]]]; (split; [cbn; tauto|]); intros Im; try solve [exfalso; revert Im; apply not_names; reflexivity]. right. split; [reflexivity|discriminate].
    - apply pair_equal_spec in E. destruct E as (<- & <-). split; [cbn; tauto|]. split; [|discriminate]. exact refers_out.
    - apply pair_equal_spec in E. destruct E as (<- & <-). split; [cbn; tauto|]. split; [|discriminate]. intros m R. destruct (Pl (p ++ n)) with m; [|exact R]. exact (name_char_not "$" _ (proj2 name_plain) eq_refl).
    - apply pair_equal_spec in E. destruct E as (<- & <-). split; [cbn; tauto|]. split; [|reflexivity]. intros m R. destruct (Pl ("." ++ e) ext_no m R).
    - apply pair_equal_spec in E. destruct E as (<- & <-). split; [cbn; tauto|]. split; [|discriminate]. intros m R. apply refers_references in R. rewrite Ref4 in R. destruct R as [<-|[]]. split; [cbn; tauto|]. intros _. right. split; [reflexivity|discriminate].
    - apply pair_equal_spec in E. destruct E as (<- & <-). split; [cbn; tauto|]. split; [|reflexivity]. intros m R. destruct (Pl ("." ++ e) ext_no m R).
    - destruct X as [-> | (w & -> & X)]; [destruct I|]. destruct I as [E|[]]. apply pair_equal_spec in E. destruct E as (<- & <-). split; [cbn; tauto|]. split; [|discriminate]. intros m R. apply refers_references in R. rewrite X in R. destruct R as [<-|[<-|[<-|[]]]]; (split; [cbn; tauto|]); intros Im; [left; reflexivity| |]; exfalso; revert Im; apply not_names; reflexivity.
    - destruct G as [-> | (b & Ib & ->)]; [destruct I|]. destruct I as [E|[]]. apply pair_equal_spec in E. destruct E as (<- & <-). split; [cbn; tauto|]. split; [|discriminate]. intros m R. destruct (Pl b) with m; [|exact R]. destruct Ib as [<-|[<-|[]]]; reflexivity.
  Qed.
  Lemma shape_once : forall g name, shape g -> name <> "TargetExt" -> NoDup (filter (String.eqb name) (map fst g)).
  Proof.
    intros g name (i & x & ign & -> & _ & X & G) N. rewrite map_app. cbn [map fst]. rewrite filter_app.
    assert (Q : forall l1 l2, filter (String.eqb name) (l1 ++ "TargetExt" :: l2)%list = filter (String.eqb name) (l1 ++ l2)%list) by (intros l1 l2; rewrite !filter_app; cbn [filter]; destruct (String.eqb_spec name "TargetExt"); [contradiction|reflexivity]).
    change ["IntDir"; "OutDir"; "TargetName"; "TargetExt"; "TargetPath"; "TargetExt"] with (["IntDir"; "OutDir"; "TargetName"] ++ "TargetExt" :: ["TargetPath"; "TargetExt"])%list. rewrite Q. change (["IntDir"; "OutDir"; "TargetName"] ++ ["TargetPath"; "TargetExt"])%list with (["IntDir"; "OutDir"; "TargetName"; "TargetPath"] ++ "TargetExt" :: [])%list. rewrite Q. rewrite app_nil_r, <- filter_app. apply NoDup_filter.
    destruct X as [-> | (w & -> & _)]; destruct G as [-> | (b & _ & ->)]; cbn [map fst app]; repeat (apply NoDup_cons; [cbn; intuition discriminate|]); apply NoDup_nil.
  Qed.
  Section All.
    Variable l : list (string * list (string * string)).
    Hypothesis shapes : forall here g, In (here, g) l -> shape g.
    Lemma all_consistent : forall name, consistent l name.
    Proof.
      intros name. destruct (string_dec name "TargetExt") as [->|N].
      - right. exists ("." ++ e). split; [exact (name_char_not "$" e (proj2 ext_plain) eq_refl)|]. split.
        + intros here g I. destruct (shapes _ _ I) as (i & x & ign & -> & _). apply in_or_app. left. right. right. right. left. reflexivity.
        + intros here g v I J. exact (proj2 (proj2 (shape_In g _ _ (shapes _ _ I) J)) eq_refl).
      - left. intros here g I. exact (shape_once g name (shapes _ _ I) N).
    Qed.
    Lemma all_alike : spelled_alike l.
    Proof.
      intros here name value m (g & I & J) M L. assert (IN : In name names) by exact (proj1 (shape_In g _ _ (shapes _ _ I) J)).
      assert (IM : In m (names ++ ["SolutionDir"; "Configuration"; "ProjectName"; "OutDir"; "ExecutablePath"; "MSBuildProjectDirectory"])).
      { apply in_or_app. destruct M as [(h & v & g' & I' & J')|(h & n' & v & (g' & I' & J') & R)]; [left; exact (proj1 (shape_In g' _ _ (shapes _ _ I') J'))|right]. exact (proj1 (proj1 (proj2 (shape_In g' _ _ (shapes _ _ I') J')) m R)). }
      assert (C : forallb (fun a => forallb (fun b => implb (String.eqb (lower_case b) (lower_case a)) (String.eqb b a)) (names ++ ["SolutionDir"; "Configuration"; "ProjectName"; "OutDir"; "ExecutablePath"; "MSBuildProjectDirectory"])) names = true) by (vm_compute; reflexivity).
      rewrite forallb_forall in C. specialize (C name IN). rewrite forallb_forall in C. specialize (C m IM). rewrite L, String.eqb_refl in C. apply String.eqb_eq in C. exact C.
    Qed.
    Lemma all_acyclic : forall c, ~ Relation_Operators.clos_trans string (uses l) c c.
    Proof.
      assert (U : forall x y, uses l x y -> y = "OutDir" /\ x <> "OutDir").
      { intros x y ((h & v & (g & I & J) & R) & (h' & v' & (g' & I' & J')) & N). destruct (proj2 (proj1 (proj2 (shape_In g _ _ (shapes _ _ I) J)) y R) (proj1 (shape_In g' _ _ (shapes _ _ I') J'))) as [->|H]; [contradiction|exact H]. }
      assert (T : forall x y, Relation_Operators.clos_trans string (uses l) x y -> y = "OutDir" /\ x <> "OutDir").
      { intros x y C. induction C as [x y H|x y z _ (IH1 & IH2) _ (IH3 & IH4)]; [exact (U x y H)|]. contradiction. }
      intros c C. destruct (T c c C) as (A & B). contradiction.
    Qed.
  End All.

  Definition built (c : case) : string := case_name c ++ "|" ++ platform_of (case_attributes c).
  Definition nothing_given (u : tools) : Prop := lookup u "Link" "OutputFile" = None /\ lookup u "Link" "TargetExt" = None /\ tool_settings u "" = [].
  Lemma project_cases : forall cases r, project_properties pre cygwin t cases = inl r -> exists l, r = map (fun c => (ct (fst c), snd c)) l /\ map fst l = map built cases /\
    (forall c, In c cases -> exists fin g, finalize pre (case_converted c) (case_user c) t (case_configuration c) = inl fin /\ global_properties pre cygwin t (case_attributes c) fin = inl g /\ In (built c, g) l) /\
    (forall h g, In (h, g) l -> exists c fin, In c cases /\ finalize pre (case_converted c) (case_user c) t (case_configuration c) = inl fin /\ global_properties pre cygwin t (case_attributes c) fin = inl g).
  Proof.
    induction cases as [|c cases IH]; intros r E; cbn [project_properties] in E; [injection E as <-; exists []; split; [reflexivity|split; [reflexivity|split; [intros c []|intros h g []]]]|].
    destruct (finalize _ _ _ _ _) as [fin|] eqn:F; [|discriminate]. destruct (global_properties _ _ _ _ fin) as [g|] eqn:G; [|discriminate]. destruct (project_properties _ _ _ cases) as [r'|]; [|discriminate]. injection E as <-. destruct (IH r' eq_refl) as (l & -> & M & A & B).
    exists ((built c, g) :: l). split; [|split; [|split]].
    - cbn [map fst snd]. f_equal. f_equal. unfold condition, ct, built. rewrite !append_assoc. reflexivity.
    - cbn [map fst]. rewrite M. reflexivity.
    - intros c' [<-|I]; [exists fin, g; split; [exact F|split; [exact G|left; reflexivity]]|]. destruct (A c' I) as (f' & g' & A1 & A2 & A3). exists f', g'. split; [exact A1|split; [exact A2|right; exact A3]].
    - intros h g' [E|I]; [injection E as _ <-; exists c, fin; split; [left; reflexivity|auto]|]. destruct (B h g' I) as (c' & f' & B1 & B2 & B3). exists c', f'. split; [right; exact B1|auto].
  Qed.
  Lemma product : forall cases set_order r, (forall s x, In x (set_order s) <-> In x s) -> NoDup (map built cases) -> (forall c, In c cases -> default_directories (case_attributes c) /\ nothing_given (case_user c)) -> project_properties pre cygwin t cases = inl r ->
    exists es, property_group set_order (length r) (added r) = Sorted es /\
    forall c fin env, In c cases -> finalize pre (case_converted c) (case_user c) t (case_configuration c) = inl fin ->
    let final := evaluate (built c) es env in
    final "OutDir" = env "SolutionDir" ++ env "Configuration" ++ "\" /\ final "TargetName" = p ++ n /\ final "TargetExt" = "." ++ e /\
    final "TargetPath" = env "SolutionDir" ++ env "Configuration" ++ "\\" ++ file /\
    exists text, written (sections fin) "Link" "OutputFile" = Some text /\ expand final text = env "SolutionDir" ++ env "Configuration" ++ "\" ++ file.
  Proof.
    intros cases so r SO ND O E. destruct (project_cases cases r E) as (l & -> & M & A & B).
    assert (Sh : forall h g, In (h, g) l -> shape g).
    { intros h g I. destruct (B h g I) as (c & fin & B1 & B2 & B3). destruct (O c B1) as (D & U1 & U2 & U3). destruct (finalized_shape _ _ _ _ B2 U1 U2 U3) as (L1 & L2 & L3). exact (globals _ _ _ B3 D L1 L2 L3). }
    assert (NDl : NoDup (map fst l)) by (rewrite M; exact ND). rewrite map_length. pose proof (group_cases l so SO) as C. unfold property_group.
    destruct C as [(nm & C & _)|(vs & c & _ & T)]; [|destruct (all_acyclic l Sh c T)]. eexists. split; [rewrite C; reflexivity|]. intros c fin env Ic F. cbv zeta.
    pose proof (group_evaluates l NDl so SO (all_consistent l Sh) (all_alike l Sh) (flat_map (entries_of (length l) (added (map (fun c => (ct (fst c), snd c)) l))) (rev nm))) as G. unfold property_group in G. rewrite C in G. specialize (G eq_refl).
    destruct (A c Ic) as (fin' & g & A1 & A2 & A3). rewrite F in A1. injection A1 as <-. destruct (G (built c) g env A3) as (G1 & G2). clear G. set (final := evaluate (built c) _ env) in *. destruct (O c Ic) as (_ & U1 & U2 & U3). destruct (finalized_shape _ _ _ _ F U1 U2 U3) as (L1 & _).
    pose proof (Sh _ _ A3) as S. assert (NN : forall m, mem m (map lower_case names) = false -> m = lower_case m -> True) by auto. clear NN.
    assert (Fr : forall m, mem (lower_case m) (map lower_case names) = false -> final m = env m).
    { intros m H. apply G2. intros name v I Q. destruct (shape_In g name v S I) as (IN & _). apply (in_map lower_case) in IN. rewrite <- Q in IN. apply mem_In in IN. congruence. }
    destruct S as (i & x & ign & -> & _).
    assert (O1 : final "OutDir" = env "SolutionDir" ++ env "Configuration" ++ "\").
    { rewrite (G1 "OutDir" "$(SolutionDir)$(Configuration)\") by (apply in_or_app; left; right; left; reflexivity). transitivity (final "SolutionDir" ++ final "Configuration" ++ "\"); [reflexivity|]. rewrite !Fr by (vm_compute; reflexivity). reflexivity. }
    assert (X : forall y, has_char "$" y = false -> forall en, expand en ("$(OutDir)" ++ y) = en "OutDir" ++ y). { intros y Y en. transitivity (en "OutDir" ++ expand en y); [reflexivity|]. rewrite expand_plain by exact Y. reflexivity. }
    split; [exact O1|]. split; [|split; [|split]].
    - rewrite (G1 "TargetName" (p ++ n)) by (apply in_or_app; left; right; right; left; reflexivity). apply expand_plain. exact (name_char_not "$" _ (proj2 name_plain) eq_refl).
    - rewrite (G1 "TargetExt" ("." ++ e)) by (apply in_or_app; left; right; right; right; left; reflexivity). apply expand_plain. exact ext_no.
    - rewrite (G1 "TargetPath" ("$(OutDir)\" ++ file)) by (apply in_or_app; left; right; right; right; right; left; reflexivity). change ("$(OutDir)\" ++ file) with ("$(OutDir)" ++ ("\" ++ file)). rewrite X by (rewrite has_char_app, (file_not "$" eq_refl); reflexivity). change (if String.eqb "OutDir" "TargetPath" then env "OutDir" else final "OutDir") with (final "OutDir"). rewrite O1, !append_assoc. reflexivity.
    - eexists. split; [apply written_lookup; [discriminate|exact L1]|]. cbn [formatted]. rewrite convert_out.
      + rewrite X by exact (file_not "$" eq_refl). rewrite O1, !append_assoc. reflexivity.
      + exact (file_not "$" eq_refl).
      + pose proof (file_not "/" eq_refl) as F1. pose proof (file_not "\" eq_refl) as F2. destruct file as [|a r]; [reflexivity|]. cbn [has_char] in F1, F2. cbn [rooted]. destruct (is_sep a) eqn:Sa; [|reflexivity]. apply is_sep_iff in Sa. destruct Sa as [-> | ->]; discriminate.
  Qed.
End Case.
