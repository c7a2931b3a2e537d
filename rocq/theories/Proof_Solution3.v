(** Solutions: the text. *)
From Verif Require Import Lib LibFacts Str StrFacts Model_Path Model_Value Model_Names Model_Solution Spec_Solution Proof_Solution Proof_Solution2.
From Verif Require Model_Vcxproj Model_Writer Proof_Merge2.
Local Open Scope string_scope.

(** ** the lines of projects *)
Lemma entry_line_project : forall st p, entry_line (md5 st) (relative st) (Project p) = project_line st p.
Proof. reflexivity. Qed.
Lemma setting_is : forall k v, setting_line k v = tabs 2 (k ++ " = " ++ v).
Proof. reflexivity. Qed.
Lemma entry_lines_project : forall st guids p, entry_lines (md5 st) (relative st) guids (Project p) = project_block st p (map guids (needs p)).
Proof.
  intros st guids p. unfold entry_lines, project_block. rewrite entry_line_project. destruct (needs p) as [|d ds]; [reflexivity|]. cbn [map]. unfold section. f_equal. f_equal. f_equal. cbn [map app]. f_equal. rewrite map_map. reflexivity.
Qed.
Definition starts (l : string) : bool := String.prefix project_start l.
Lemma starts_project : forall st p, starts (project_line st p) = true.
Proof. reflexivity. Qed.
Lemma starts_tab : forall s, starts (tab ++ s) = false.
Proof. reflexivity. Qed.
Lemma filter_tabs : forall A (f : A -> string) l, filter starts (map (fun x => tab ++ f x) l) = [].
Proof. intros A f l. induction l as [|x l IH]; [reflexivity|]. exact IH. Qed.
Lemma filter_section : forall k h body, filter starts body = [] -> filter starts (section k h body) = [].
Proof. intros k h body H. unfold section. rewrite !filter_app, H. reflexivity. Qed.
Lemma entry_starts : forall st guids e, filter starts (entry_lines (md5 st) (relative st) guids e) = map (project_line st) (project_of e).
Proof.
  intros st guids [p|a b l]; unfold entry_lines; rewrite !filter_app.
  - rewrite entry_line_project. cbn [filter map project_of]. rewrite starts_project. cbn [app]. f_equal. destruct (needs p) as [|d ds]; [reflexivity|]. rewrite filter_section; [reflexivity|]. exact (filter_tabs _ (fun d => tab ++ guids d ++ " = " ++ guids d) (d :: ds)).
  - reflexivity.
Qed.
Lemma entries_start : forall st guids es, filter starts (flat_map (entry_lines (md5 st) (relative st) guids) es) = map (project_line st) (flat_map project_of es).
Proof. intros st guids es. induction es as [|e es IH]; [reflexivity|]. cbn [flat_map]. rewrite filter_app, map_app, IH, entry_starts. reflexivity. Qed.
Lemma config_none : forall ov vs g, filter starts (config_lines ov vs g) = [].
Proof. intros ov vs g. unfold config_lines. induction vs as [|v vs IH]; [reflexivity|]. cbn [flat_map]. rewrite filter_app, IH. reflexivity. Qed.
Lemma configs_none : forall ov vs gs, filter starts (flat_map (config_lines ov vs) gs) = [].
Proof. intros ov vs gs. induction gs as [|g gs IH]; [reflexivity|]. cbn [flat_map]. rewrite filter_app, IH, config_none. reflexivity. Qed.
Lemma nested_none : forall md es, filter starts (flat_map (fun e => map (fun x => setting_line (entry_guid md x) (entry_guid md e)) (children e)) es) = [].
Proof. intros md es. induction es as [|e es IH]; [reflexivity|]. cbn [flat_map]. rewrite filter_app, IH, app_nil_r. exact (filter_tabs _ (fun x => tab ++ entry_guid md x ++ " = " ++ entry_guid md e) (children e)). Qed.
Lemma lines_start : forall st guids variants es, filter starts (solution_lines (md5 st) (relative st) guids ["Microsoft Visual Studio Solution File, Format Version " ++ version st; "# " ++ description st] variants es) = map (project_line st) (flat_map project_of es).
Proof.
  intros st guids variants es. unfold solution_lines. rewrite !filter_app, entries_start.
  rewrite (filter_section "Global" "SolutionConfigurationPlatforms) = preSolution" (map (fun v => setting_line v v) variants) (filter_tabs _ (fun v => tab ++ v ++ " = " ++ v) variants)).
  rewrite (filter_section "Global" "ProjectConfigurationPlatforms) = postSolution" _ (configs_none _ _ _)).
  rewrite (filter_section "Global" "SolutionProperties) = preSolution" [setting_line "HideSolutionNode" "FALSE"] eq_refl).
  assert (X : filter starts (if existsb (fun e => match children e with [] => false | _ => true end) es then section "Global" "NestedProjects) = preSolution" (flat_map (fun e => map (fun x => setting_line (entry_guid (md5 st) x) (entry_guid (md5 st) e)) (children e)) es) else []) = []) by (destruct (existsb _ es); [apply filter_section, nested_none|reflexivity]).
  rewrite X. cbn [filter app starts]. change (starts "Global") with false. change (starts "EndGlobal") with false. cbv iota. rewrite app_nil_r. reflexivity.
Qed.
Lemma holds_l : forall x y part, holds x part -> holds (x ++ y)%list part.
Proof. intros x y part (a & b & ->). exists a, (b ++ y)%list. rewrite <- !app_assoc. reflexivity. Qed.
Lemma holds_r : forall x y part, holds y part -> holds (x ++ y)%list part.
Proof. intros x y part (a & b & ->). exists (x ++ a)%list, b. rewrite <- !app_assoc. reflexivity. Qed.
Lemma holds_entry : forall st guids header variants es e, In e es -> holds (solution_lines (md5 st) (relative st) guids header variants es) (entry_lines (md5 st) (relative st) guids e).
Proof.
  intros st guids header variants es e I. apply in_split in I. destruct I as (a & b & ->). unfold solution_lines. rewrite flat_map_app. cbn [flat_map]. exists (header ++ flat_map (entry_lines (md5 st) (relative st) guids) a)%list. eexists. rewrite <- !app_assoc. reflexivity.
Qed.

(** ** the objects *)
Lemma create_all_ok : forall st dicts p targets, objects_of st dicts p targets -> create_all (md5 st) (file_suffix st) (generator_output st) (cross_compiling st) dicts targets = Some (map (fun q => (q, p q)) targets).
Proof.
  intros st dicts p targets. induction targets as [|q l IH]; intros O; [reflexivity|]. cbn [create_all map]. destruct (O q (or_introl eq_refl)) as (s & A & C). rewrite A, C, IH; [reflexivity|]. intros x I. apply O. right. exact I.
Qed.
Lemma objects_assoc : forall (p : string -> project) targets q, In q targets -> assoc q (map (fun q => (q, p q)) targets) = Some (p q).
Proof.
  intros p targets q. induction targets as [|x l IH]; intros I; [destruct I|]. cbn [map assoc]. destruct (String.eqb q x) eqn:E; [apply String.eqb_eq in E; subst x; reflexivity|]. apply IH. destruct I as [->|I]; [rewrite String.eqb_refl in E; discriminate|exact I].
Qed.
Lemma create_needs : forall md suffix out cross q s p, create md suffix out cross q s = Some p -> needs p = wanted s /\ config_overrides p = overrides cross s.
Proof. intros md suffix out cross q s p H. unfold create in H. destruct (guid_of _ _ _); [|discriminate]. injection H as <-. split; reflexivity. Qed.
Lemma all_known_ok : forall (p : string -> project) targets, (forall q d, In q targets -> In d (needs (p q)) -> In d targets) -> all_known (map (fun q => (q, p q)) targets) = true.
Proof.
  intros p targets H. unfold all_known. apply forallb_forall. intros [q x] I. apply in_map_iff in I. destruct I as (q' & E & I). injection E as <- <-. apply forallb_forall. intros d D. apply mem_In. rewrite map_map. cbn [fst snd] in *. rewrite map_id. exact (H q' d I D).
Qed.

Section Solution.
Variables (st : settings) (o : orders) (dicts : list (string * spec)) (targets : list string) (file : string) (p : string -> project).
Hypothesis W : well_formed st dicts targets file p.
Hypothesis O : fair o.
Let guids d := match assoc d (map (fun q => (q, p q)) targets) with Some p => guid p | None => "" end.
Lemma in_targets : forall q, in_solution targets dicts file q -> In q targets.
Proof.
  destruct W as (_ & _ & _ & CL & _). intros q (root & I & _ & R). induction R as [q|q s d t A D R IH]; [exact I|]. apply IH. exact (CL q s d I A D).
Qed.
Lemma needs_targets : forall q d, In q targets -> In d (needs (p q)) -> In d targets.
Proof.
  destruct W as (_ & _ & OB & CL & _). intros q d I D. destruct (OB q I) as (s & A & C). apply create_needs in C. destruct C as (C & _). rewrite C in D. unfold wanted in D. destruct (external s); [destruct D|]. apply (CL q s d I A). auto.
Qed.
Lemma solution_is : exists qs es, NoDup qs /\ (forall q, In q qs <-> in_solution targets dicts file q) /\
  solution st o targets dicts file = Some (solution_lines (md5 st) (relative st) guids ["Microsoft Visual Studio Solution File, Format Version " ++ version st; "# " ++ description st] (variants_of st o dicts targets) es) /\
  Permutation (flat_map project_of es) (map p qs).
Proof.
  pose proof W as (NE & ND & OB & CL & qs0 & N0 & I0 & AP). destruct O as (OW & OE). set (roots := build_file_targets targets file).
  assert (RI : forall q, In q roots <-> In q targets /\ of_file file q) by (intros q; unfold roots, build_file_targets; rewrite filter_In, (of_file_iff file q NE); tauto).
  destruct (deep_result (walk o) dicts targets roots OW) as (deps & E & N & D).
  - intros q I. destruct (OB q I) as (s & A & _). congruence.
  - intros q d I (s & A & X). exact (CL q s d I A X).
  - intros q I. apply RI in I. tauto.
  - assert (IQ : forall q, In q (roots ++ deps)%list <-> in_solution targets dicts file q).
    { intros q. rewrite in_app_iff, D. split.
      - intros [I|(_ & r & I & R)]; [exists q|exists r]; apply RI in I; destruct I as (I1 & I2); (split; [exact I1|split; [exact I2|]]); [apply itself|exact R].
      - intros (r & I1 & I2 & R). destruct (in_dec String.string_dec q roots) as [J|J]; [auto|]. right. split; [exact J|]. exists r. split; [apply RI; auto|exact R]. }
    assert (NQ : NoDup (roots ++ deps)%list) by (apply NoDup_app_intro; [apply NoDup_filter'; exact ND|exact N|intros x I J; apply D in J; destruct J; contradiction]).
    assert (AQ : apart (roots ++ deps)%list). { destruct AP as (A1 & A2). split; [intros q I; apply A1, I0, IQ, I|]. intros q1 q2 l1 l2 more J1 J2. apply A2; apply I0, IQ; assumption. }
    destruct (gather_ok (map (fun q => (q, p q)) targets) p (flat_solution st) (roots ++ deps)%list) as (es & G & P); [|exact AQ|exact NQ|].
    + intros q I. apply objects_assoc, in_targets, IQ, I.
    + exists (roots ++ deps)%list, (sort_entries (walk_entries o (flat_map all_entries es))). split; [exact NQ|]. split; [exact IQ|]. unfold solution. rewrite (create_all_ok st dicts p targets OB), (all_known_ok p targets needs_targets). fold roots. rewrite E, G. split; [reflexivity|]. rewrite <- P. unfold held. apply Permutation_flat_map. rewrite sort_entries_perm. apply OE.
Qed.
Lemma guids_is : forall d, In d targets -> guids d = guid (p d).
Proof. intros d I. unfold guids. rewrite (objects_assoc p targets d I). reflexivity. Qed.
Lemma projects_ok : exists lines qs, solution st o targets dicts file = Some lines /\ NoDup qs /\ (forall q, In q qs <-> in_solution targets dicts file q) /\
  Permutation (filter (String.prefix project_start) lines) (map (fun q => project_line st (p q)) qs) /\
  forall q s, In q qs -> assoc q dicts = Some s -> holds lines (project_block st (p q) (map (fun d => guid (p d)) (wanted s))).
Proof.
  destruct solution_is as (qs & es & N & I & E & P). eexists. exists qs. split; [exact E|]. split; [exact N|]. split; [exact I|]. split.
  - change (String.prefix project_start) with starts. rewrite lines_start. rewrite (Permutation_map (project_line st) P), map_map. reflexivity.
  - intros q s J A. assert (JP : In (Project (p q)) es). { assert (X : In (p q) (flat_map project_of es)) by (apply (Permutation_in _ (Permutation_sym P)), in_map; exact J). apply in_flat_map in X. destruct X as (e & X1 & X2). destruct e as [p'|]; [|destruct X2]. destruct X2 as [<-|[]]. exact X1. }
    pose proof (holds_entry st guids ["Microsoft Visual Studio Solution File, Format Version " ++ version st; "# " ++ description st] (variants_of st o dicts targets) es (Project (p q)) JP) as H. rewrite entry_lines_project in H. assert (T : In q targets) by (apply in_targets, I, J). destruct W as (_ & _ & OB & _). destruct (OB q T) as (s' & A' & C). assert (s' = s) by congruence. subst s'. pose proof C as C0. apply create_needs in C. destruct C as (C & _). rewrite <- C. rewrite (map_ext_in _ guids); [exact H|]. intros d D. symmetry. apply guids_is. exact (needs_targets q d T D).
Qed.

(** ** configurations *)
Lemma overrides_of : forall qs es, NoDup (map (fun q => guid (p q)) qs) -> Permutation (flat_map project_of es) (map p qs) -> forall q, In q qs ->
  assoc (guid (p q)) (fold_left (fun d x => set_key (guid x) (config_overrides x) d) (flat_map project_of es) []) = Some (config_overrides (p q)).
Proof.
  intros qs es N P q I. assert (N' : NoDup (map guid (flat_map project_of es))) by (apply (Permutation_NoDup (l := map guid (map p qs))); [apply Permutation_map, Permutation_sym, P|rewrite map_map; exact N]).
  assert (I' : In (p q) (flat_map project_of es)) by (apply (Permutation_in _ (Permutation_sym P)), in_map, I). revert N' I'. generalize (flat_map project_of es) as l. generalize (p q) as x. intros x l.
  assert (G : forall l d, (In x l -> NoDup (map guid l) -> assoc (guid x) (fold_left (fun d x => set_key (guid x) (config_overrides x) d) l d) = Some (config_overrides x)) /\ (~ In (guid x) (map guid l) -> assoc (guid x) (fold_left (fun d x => set_key (guid x) (config_overrides x) d) l d) = assoc (guid x) d)).
  { clear. induction l as [|y l IH]; intros d; cbn [fold_left map]; [split; [intros []|reflexivity]|]. split.
    - intros [->|I] N; inversion N as [|? ? N1 N2]; subst.
      + rewrite (proj2 (IH _) N1). apply Proof_Merge2.assoc_set_same.
      + apply (proj1 (IH _)); assumption.
    - intros NI. rewrite (proj2 (IH _)); [|intros X; apply NI; right; exact X]. apply Proof_Merge2.assoc_set_other. intros X. apply NI. left. auto. }
  intros N' I'. apply (proj1 (G l [])); assumption.
Qed.
Lemma holds_config : forall header variants es g v, In g (map guid (flat_map project_of es)) -> In v variants ->
  let ov := fold_left (fun d x => set_key (guid x) (config_overrides x) d) (flat_map project_of es) [] in
  let nv := match assoc g ov with Some o => match assoc v o with Some x => x | None => v end | None => v end in
  In (tabs 2 (v ++ " = " ++ v)) (solution_lines (md5 st) (relative st) guids header variants es) /\
  holds (solution_lines (md5 st) (relative st) guids header variants es) [tabs 2 (g ++ "." ++ v ++ ".ActiveCfg = " ++ nv); tabs 2 (g ++ "." ++ v ++ ".Build.0 = " ++ nv)].
Proof.
  intros header variants es g v G V ov nv. split.
  - unfold solution_lines. apply in_or_app; right. apply in_or_app; right. apply in_or_app; right. apply in_or_app; left. unfold section. apply in_or_app; right. apply in_or_app; left. apply in_map_iff. exists v. split; [reflexivity|exact V].
  - assert (H : holds (flat_map (config_lines ov variants) (sort (map guid (flat_map project_of es)))) [tabs 2 (g ++ "." ++ v ++ ".ActiveCfg = " ++ nv); tabs 2 (g ++ "." ++ v ++ ".Build.0 = " ++ nv)]).
    { assert (G' : In g (sort (map guid (flat_map project_of es)))) by (apply sort_In; exact G). apply in_split in G'. destruct G' as (a & b & ->). apply in_split in V. destruct V as (c & d & ->). rewrite flat_map_app. cbn [flat_map]. unfold config_lines at 2. rewrite flat_map_app. cbn [flat_map]. fold nv.
      exists (flat_map (config_lines ov (c ++ v :: d)) a ++ flat_map (fun v0 => let nv0 := match assoc g ov with Some o0 => match assoc v0 o0 with Some x => x | None => v0 end | None => v0 end in [setting_line (g ++ "." ++ v0 ++ ".ActiveCfg") nv0; setting_line (g ++ "." ++ v0 ++ ".Build.0") nv0]) c)%list. eexists. rewrite <- !app_assoc. cbn [app]. rewrite !setting_is, !append_assoc. cbn [append]. reflexivity. }
    unfold solution_lines. fold ov. unfold section. apply holds_r, holds_r, holds_r, holds_r, holds_l, holds_r, holds_l. exact H.
Qed.
End Solution.
