(** Where the product of a target is written to. *)
From Verif Require Import Lib LibFacts Str StrFacts Model_Path Spec_Path Model_Value Model_Vcxproj Spec_Vcxproj Model_Cmdline Model_Tools Spec_Tools Model_TopoSort Model_Properties Spec_Properties Proof_Vcxproj Proof_Vcxproj2 Proof_Custom2 Proof_Tools Proof_Tools2 Proof_Tools3 Proof_Properties.
From Verif Require Proof_Merge2 Model_Writer Proof_Suffix.
Local Open Scope string_scope.

Definition name_char (a : ascii) : bool := letter_or_digit a || Ascii.eqb a "-" || Ascii.eqb a ".".
Lemma name_char_not : forall c s, forallb name_char (list_ascii_of_string s) = true -> name_char c = false -> has_char c s = false.
Proof.
  intros c s F N. induction s as [|a s IH]; [reflexivity|]. cbn in F. apply andb_true_iff in F. destruct F as (A & F). cbn [has_char]. destruct (Ascii.eqb_spec a c) as [->|_]; [congruence|exact (IH F)].
Qed.
Lemma out_name : forall n, n <> "" -> n <> "." -> n <> ".." -> has_char "/" n = false -> has_char "\" n = false -> forall pre, fix_path pre ("$(OutDir)\" ++ n) = "$(OutDir)\" ++ n.
Proof.
  intros n N1 N2 N3 H1 H2 pre. unfold fix_path. set (s := "$(OutDir)\" ++ n). assert (P : String.prefix "$" s = true) by (unfold s; reflexivity). rewrite P. cbn [negb]. rewrite !Bool.andb_false_r. cbn [andb].
  assert (S1 : has_char "/" s = false) by (unfold s; rewrite has_char_app, H1; reflexivity).
  rewrite Proof_Path2.replace_char_none by exact S1. assert (B : bare s) by (split; [reflexivity|intros a r E; unfold s in E; injection E as _ E; discriminate E]).
  assert (N : nt_normpath s = s).
  { rewrite (normpath_bare s B). unfold s. change ("$(OutDir)\" ++ n) with ("$(OutDir)" ++ String "\" n). rewrite pieces_sep by reflexivity. rewrite (pieces_none n H1 H2). change (pieces "$(OutDir)") with ["$(OutDir)"]. change (["$(OutDir)"] ++ [n])%list with (["$(OutDir)"] ++ [n])%list. rewrite canon_snoc by assumption. reflexivity. }
  unfold normalized_source. rewrite N, Nat.eqb_refl.
  destruct (last_char n) as [E|(t & z & E)]; [contradiction|]. unfold s. rewrite E. rewrite <- append_assoc. apply chop_keep. intros ->. rewrite E, has_char_app in H2. cbn [has_char] in H2. rewrite Ascii.eqb_refl, Bool.orb_true_r in H2. discriminate.
Qed.
Lemma replace_out : forall m n b, has_char "$" n = false -> In m ["$(ConfigurationName)"; "$(InputDir)"; "$(InputExt)"; "$(InputFileName)"; "$(InputName)"; "$(InputPath)"; "$(ParentName)"; "$(PlatformName)"; "$(SafeInputName)"] ->
  Model_Writer.replace m b ("$(OutDir)" ++ n) = "$(OutDir)" ++ n.
Proof.
  intros m n b H I. change ("$(OutDir)" ++ n) with (String "$" ("(OutDir)" ++ n)). assert (Q : has_char "$" ("(OutDir)" ++ n) = false) by exact H. assert (P : String.prefix m (String "$" ("(OutDir)" ++ n)) = false) by (cbn in I; repeat (destruct I as [<-|I]; [reflexivity|]); destruct I).
  assert (M : exists q, m = String "$" q) by (cbn in I; repeat (destruct I as [<-|I]; [eexists; reflexivity|]); destruct I). destruct M as (q & ->). unfold Model_Writer.replace. cbn [Model_Writer.replace_from]. rewrite P. f_equal. exact (Proof_Suffix.replace_none q b _ Q).
Qed.
Lemma sub_plain : forall fuel s, has_char "$" s = false -> sub_macros fuel s = s.
Proof.
  induction fuel as [|fuel IH]; intros s H; [reflexivity|]. destruct s as [|a s]; [reflexivity|]. cbn [has_char] in H. destruct (Ascii.eqb_spec a "$") as [->|N]; [discriminate|]. cbn [sub_macros]. assert (M : macro_here (String a s) = None). { unfold macro_here. assert (P : forall q, String.prefix (String "$" q) (String a s) = false) by (intros q; cbn [String.prefix]; destruct (ascii_dec "$" a); [congruence|reflexivity]). rewrite !P. reflexivity. } rewrite M, (IH s H). reflexivity.
Qed.
Lemma convert_out : forall n, has_char "$" n = false -> rooted n = false -> convert_macros ("$(OutDir)\" ++ n) = "$(OutDir)" ++ n.
Proof.
  intros n H R. unfold convert_macros. change (has_char "$" ("$(OutDir)\" ++ n)) with true. cbn iota. cbn [fold_left fst snd]. change ("$(OutDir)\" ++ n) with ("$(OutDir)" ++ String "\" n). rewrite !replace_out by (exact H || (cbn; tauto)). unfold fix_macro_slashes. change (has_char "$" ("$(OutDir)" ++ String "\" n)) with true. cbn iota.
  change ("$(OutDir)" ++ String "\" n) with (String "$" ("(OutDir)" ++ String "\" n)). cbn [String.length sub_macros]. assert (M : macro_here (String "$" ("(OutDir)" ++ String "\" n)) = Some ("$(OutDir)", String "\" n)).
  { unfold macro_here. change (String "$" ("(OutDir)" ++ String "\" n)) with ("$(OutDir)" ++ String "\" n). generalize (String "\" n) as m. intros m. assert (P1 : String.prefix "$(IntDir)" ("$(OutDir)" ++ m) = false) by reflexivity. assert (P2 : String.prefix "$(OutDir)" ("$(OutDir)" ++ m) = true) by apply Proof_Suffix.prefix_app. rewrite P1, P2. do 2 f_equal. replace (String.length ("$(OutDir)" ++ m) - 9) with (String.length m) by (change (String.length ("$(OutDir)" ++ m)) with (9 + String.length m); lia). change (substring 9 (String.length m) ("$(OutDir)" ++ m)) with (substring 0 (String.length m) m). clear. induction m as [|a m IH]; [reflexivity|]. cbn. rewrite IH. reflexivity. }
  rewrite M. change (rooted (String "\" n)) with true. cbn iota. assert (K : skip_seps (String "\" n) = n) by (cbn [skip_seps is_sep]; change (is_sep "\") with true; cbn iota; destruct n as [|a n]; [reflexivity|]; cbn [rooted] in R; cbn [skip_seps]; rewrite R; reflexivity). rewrite K, sub_plain by exact H. reflexivity.
Qed.

(** ** the settings *)
Lemma append_text_if : forall t tool setting x t', set_or_append t tool setting (Text x) true = inl t' -> setting <> "CompileAsWinRT" -> with_backslashes setting (Text x) = Text x -> lookup t tool setting = None -> lookup t' tool setting = Some (Text x).
Proof.
  intros t tool setting x t' E N B L. unfold set_or_append in E. assert (X : String.eqb setting "CompileAsWinRT" = false) by (apply String.eqb_neq; exact N). rewrite X, B in E. unfold lookup in *. rewrite L in E. injection E as <-. rewrite settings_set_same. apply Proof_Merge2.assoc_set_same.
Qed.
Lemma steps_text : forall l1 s l2 t t' x, run_steps (l1 ++ s :: l2) t = inl t' -> Forall (elsewhere (step_tool s) (step_setting s)) (l1 ++ l2) -> step_value s = Text x -> x <> "" -> only_if_unset s = true -> even_if_empty s = false -> step_setting s <> "CompileAsWinRT" ->
  with_backslashes (step_setting s) (Text x) = Text x -> lookup t (step_tool s) (step_setting s) = None -> lookup t' (step_tool s) (step_setting s) = Some (Text x).
Proof.
  induction l1 as [|y l1 IH]; intros s l2 t t' x E F V NE U K N B L; cbn [app] in *.
  - cbn [run_steps] in E. rewrite K, V, U in E. unfold tool_append in E. cbn [is_set] in E. destruct (String.eqb_spec x ""); [contradiction|]. cbn [negb] in E. destruct (set_or_append t _ _ _ _) as [t1|] eqn:S; [|discriminate]. rewrite (steps_other _ _ _ _ _ E F). exact (append_text_if _ _ _ _ _ S N B L).
  - inversion F as [|? ? F1 F2]; subst. assert (E' : exists t1, run_steps [y] t = inl t1 /\ run_steps (l1 ++ s :: l2) t1 = inl t').
    { cbn [run_steps] in *. destruct ((if even_if_empty y then set_or_append else tool_append) t (step_tool y) (step_setting y) (step_value y) (only_if_unset y)) as [t1|]; [|discriminate]. exists t1. auto. }
    destruct E' as (t1 & E1 & E2). apply (IH s l2 t1 t' x E2 F2 V NE U K N B). rewrite (steps_other _ _ _ _ _ E1 (Forall_cons _ F1 (Forall_nil _))). exact L.
Qed.

(** The settings of no tool. *)
Definition imports (s : settings) : Prop := s = [] \/ exists b, In b ["true"; "false"] /\ s = [("IgnoreImportLibrary", Text b)].
Lemma no_tool : forall l t t', run_steps l t = inl t' -> imports (tool_settings t "") -> Forall (fun s => step_tool s = "" -> step_setting s = "IgnoreImportLibrary" /\ (step_value s = Text "true" \/ step_value s = Text "false") /\ only_if_unset s = false) l -> imports (tool_settings t' "").
Proof.
  induction l as [|s l IH]; intros t t' E I F; cbn [run_steps] in E; [injection E as <-; exact I|]. inversion F as [|? ? F1 F2]; subst.
  assert (K : forall t1, set_or_append t (step_tool s) (step_setting s) (step_value s) (only_if_unset s) = inl t1 -> imports (tool_settings t1 "")).
  { intros t1 S. destruct (string_dec (step_tool s) "") as [T|T].
    - destruct (F1 T) as (A & B & C). rewrite T, A, C in S. unfold set_or_append in S. change (String.eqb "IgnoreImportLibrary" "CompileAsWinRT") with false in S. destruct I as [I|(b & Ib & I)].
      + rewrite I in S. cbn [assoc set_key] in S. destruct B as [B|B]; rewrite B in S; injection S as <-; rewrite settings_set_same; right; eexists; (split; [|reflexivity]); cbn; auto.
      + rewrite I in S. change (assoc "IgnoreImportLibrary" [("IgnoreImportLibrary", Text b)]) with (Some (Text b)) in S. destruct Ib as [<-|[<-|[]]]; cbn in S; discriminate S.
    - assert (N : "" <> step_tool s) by congruence. unfold set_or_append in S. destruct (String.eqb _ "CompileAsWinRT"); [injection S as <-; rewrite settings_set_other by exact N; exact I|]. destruct (assoc _ _) as [o|].
      + destruct (is_set o); [|injection S as <-; rewrite settings_set_other by exact N; exact I]. destruct (only_if_unset s); [injection S as <-; rewrite settings_set_other by exact N; exact I|]. destruct o; [discriminate|]. destruct (with_backslashes _ _); [discriminate|]. injection S as <-. rewrite settings_set_other by exact N. exact I.
      + injection S as <-. rewrite settings_set_other by exact N. exact I. }
  destruct (even_if_empty s).
  - destruct (set_or_append t _ _ _ _) as [t1|]; [|discriminate]. exact (IH _ _ E (K _ eq_refl) F2).
  - unfold tool_append in E. destruct (is_set (step_value s)).
    + destruct (set_or_append t _ _ _ _) as [t1|]; [|discriminate]. exact (IH _ _ E (K _ eq_refl) F2).
    + exact (IH _ _ E I F2).
Qed.
