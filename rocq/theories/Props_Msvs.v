(** C87: what the Visual Studio settings of a .gyp file become. *)
From Coq Require Import ZArith.
From Verif Require Import Lib Str Model_Tools Spec_Tools Model_Msvs Spec_Msvs Proof_Msvs3 Proof_Msvs4 Proof_Msvs5 Props_Tools.
From Verif Require Spec_Args Proof_Args Proof_Msvs2 Model_Writer.
Local Open Scope string_scope.

(** ** the values *)
Theorem C87_labels : forall d out ws tool name mtool mname words number word,
  dictionary d -> convert d = Some (out, ws) -> In (tool, name, mtool, mname, words) documented -> In (number, word) words ->
  given_as d tool name (Text number) -> found out mtool mname = Some (Text word).
Proof. exact labels. Qed.
Print Assumptions C87_labels.
(** These are all the numbers that have a word. *)
Theorem C87_documented : forall tool name a b l k w, says tool name (Becomes a b (Label l)) -> nth_error l k = Some (Some w) ->
  exists words, In (tool, name, a, b, words) documented /\ In (decimal (Z.of_nat k), w) words.
Proof. exact all_documented. Qed.
Print Assumptions C87_documented.
Example C87_documented_witness : says "VCMIDLTool" "EnableErrorChecks" (Becomes "Midl" "EnableErrorChecks" (Label [Some "EnableCustom"; Some "None"; Some "All"])).
Proof. eexists. split; reflexivity. Qed.
Theorem C87_switches : forall d out ws tool name v a b mtool mname,
  dictionary d -> convert d = Some (out, ws) -> given_as d tool name v -> says tool name (Becomes a b Boolean) -> name <> "LinkLibraryDependencies" ->
  place tool name mtool mname -> switch v -> found out mtool mname = Some v.
Proof. exact switches. Qed.
Print Assumptions C87_switches.
Theorem C87_texts : forall d out ws tool name v a b ty mtool mname,
  dictionary d -> convert d = Some (out, ws) -> given_as d tool name v -> says tool name (Becomes a b ty) -> ty = One /\ is_text v \/ ty = Several ->
  place tool name mtool mname -> macro_free v ->
  ((tool, name) = ("VCCLCompilerTool", "AdditionalOptions") -> ~ given_as d "VCCLCompilerTool" "DefaultCharIsUnsigned" (Text "true")) ->
  found out mtool mname = Some v.
Proof. exact texts. Qed.
Print Assumptions C87_texts.
Theorem C87_numbers : forall d out ws tool name s z a b mtool mname,
  dictionary d -> convert d = Some (out, ws) -> given_as d tool name (Text s) -> says tool name (Becomes a b (Integer false)) ->
  Spec_Args.whole_number s z -> place tool name mtool mname -> found out mtool mname = Some (Text (decimal z)).
Proof. exact numbers. Qed.
Print Assumptions C87_numbers.
Theorem C87_culture : forall d out ws s z, dictionary d -> convert d = Some (out, ws) -> given_as d "VCResourceCompilerTool" "Culture" (Text s) ->
  Spec_Args.whole_number s z -> (0 <= z)%Z -> exists digits, found out "ResourceCompile" "Culture" = Some (Text ("0x" ++ digits)) /\ 4 <= String.length digits /\ hexadecimal digits = Some z.
Proof. exact culture. Qed.
Print Assumptions C87_culture.
Theorem C87_new : forall d out ws tool name v mtool mname,
  dictionary d -> convert d = Some (out, ws) -> given_as d tool name v -> says tool name (As_is mtool mname) -> found out mtool mname = Some v.
Proof. exact as_is. Qed.
Print Assumptions C87_new.
Theorem C87_unsigned : forall d out ws,
  dictionary d -> convert d = Some (out, ws) -> given_as d "VCCLCompilerTool" "DefaultCharIsUnsigned" (Text "true") ->
  (forall v, ~ given_as d "VCCLCompilerTool" "AdditionalOptions" v) -> found out "ClCompile" "AdditionalOptions" = Some (Text "/J").
Proof. exact unsigned. Qed.
Print Assumptions C87_unsigned.
(** Options that are given as a text before it are kept. *)
Theorem C87_appended : forall d out ws d1 d2 l1 l2 l3 options, dictionary d -> convert d = Some (out, ws) ->
  d = (d1 ++ ("VCCLCompilerTool", l1 ++ ("AdditionalOptions", Text options) :: l2 ++ ("DefaultCharIsUnsigned", Text "true") :: l3) :: d2)%list ->
  has_char "$" options = false -> found out "ClCompile" "AdditionalOptions" = Some (Text (options ++ " /J")).
Proof. exact appended. Qed.
Print Assumptions C87_appended.
Example C87_appended_witness :
  let d := [("VCCLCompilerTool", [("AdditionalOptions", Text "/bigobj"); ("WarningLevel", Text "3"); ("DefaultCharIsUnsigned", Text "true")])] in
  dictionary d /\ option_map (fun r => found (fst r) "ClCompile" "AdditionalOptions") (convert d) = Some (Some (Text "/bigobj /J")).
Proof. split; [|vm_compute; reflexivity]. split; [constructor; [intros []|constructor]|]. intros tool l [E|[]]. injection E as <- <-. repeat constructor; cbn; intros X; decompose [or] X; try discriminate; contradiction. Qed.
Theorem C87_preprocessed : forall d out ws v, dictionary d -> convert d = Some (out, ws) -> given_as d "VCCLCompilerTool" "GeneratePreprocessedFile" v ->
  forall file bare, In (v, file, bare) [(Text "0", "false", "false"); (Text "1", "true", "false"); (Text "2", "true", "true")] ->
  found out "ClCompile" "PreprocessToFile" = Some (Text file) /\ found out "ClCompile" "PreprocessSuppressLineNumbers" = Some (Text bare).
Proof. exact preprocessed. Qed.
Print Assumptions C87_preprocessed.

(** ** warnings, and what is left out *)
Theorem C87_warnings : forall d out ws w, convert d = Some (out, ws) -> (In w ws <-> reason d w).
Proof. exact Proof_Msvs2.warnings_reason. Qed.
Print Assumptions C87_warnings.
(** The settings that are known, and what sort of value they have. *)
Theorem C87_known : forall tool name s, (exists r, says tool name r /\ sort_of r = s) <-> exists names, In (tool, s, names) known_settings /\ In name names.
Proof. exact known_says. Qed.
Print Assumptions C87_known.
Example C87_known_witness : exists r, says "VCLinkerTool" "DelaySign" r /\ sort_of r = A_switch.
Proof. apply C87_known. eexists. split; [right; right; right; right; right; right; right; right; right; left; reflexivity|right; right; left; reflexivity]. Qed.
Theorem C87_crash : forall d, convert d = None <-> exists tool name v r, given_as d tool name v /\ says tool name r /\ misplaced r v.
Proof. exact Proof_Msvs2.crash_iff. Qed.
Print Assumptions C87_crash.
Theorem C87_silent : forall d out ws tool name v, convert d = Some (out, ws) -> given_as d tool name v ->
  In (Unknown_tool tool) ws \/ In (Unknown_setting tool name) ws \/ In (Bad_value tool name) ws \/
  (exists root r, name = root ++ "_excluded" /\ says tool root r) \/ says tool name Ignored \/ (v <> Text "true" /\ exists t f, says tool name (Flag t f)) \/
  exists r mtool mname, says tool name r /\ goes_to r mtool mname /\ found out mtool mname <> None.
Proof. exact silent. Qed.
Print Assumptions C87_silent.
Theorem C87_only : forall d out ws mtool mname v, convert d = Some (out, ws) -> found out mtool mname = Some v ->
  exists tool name v' r, given_as d tool name v' /\ says tool name r /\ fits r v' /\ goes_to r mtool mname.
Proof. exact only_given. Qed.
Print Assumptions C87_only.
(** What is in the project. *)
Theorem C87_written : forall d user ws pre t c out mtool mname s, convert d = Some (user, ws) -> finalize pre true user t c = inl out ->
  mtool <> "" -> ~ In mname set_by_generator -> found user mtool mname = Some (Text s) -> has_char "$" s = false -> written (sections out) mtool mname = Some s.
Proof. intros d user ws pre t c out mtool mname s _. apply written_text. Qed.
Print Assumptions C87_written.

(** ** the settings of an addon *)
Definition addon_settings : tools :=
  [("VCCLCompilerTool", [("RuntimeLibrary", Text "2"); ("Optimization", Text "3"); ("ExceptionHandling", Text "1"); ("WarnAsError", Text "true"); ("EnableFunctionLevelLinking", Text "true"); ("GeneratePreprocessedFile", Text "1");
    ("DefaultCharIsUnsigned", Text "true"); ("AdditionalIncludeDirectories", Items ["deps\a"; "deps\b"]); ("AdditionalIncludeDirectories_excluded", Items ["x"]); ("ObjectFile", Text "out\a.obj"); ("WarningLevel", Text "7"); ("Speed", Text "1"); ("UseUnicodeResponseFiles", Text "true")]);
   ("VCLinkerTool", [("LinkTimeCodeGeneration", Text "1"); ("OptimizeReferences", Text "2"); ("StackReserveSize", Text "1048576"); ("GenerateManifest", Text "false"); ("MergeSections", Text ".rdata=.text"); ("ImageHasSafeExceptionHandlers", Text "false"); ("Version", Text "1.2")]);
   ("VCLibrarianTool", [("AdditionalOptions", Items ["/LTCG"])]); ("VCFortranTool", [("Level", Text "1")])].
Lemma given_in : forall d tool name v l, assoc tool d = Some l -> assoc name l = Some v -> given_as d tool name v.
Proof. intros d tool name v l A B. exists l. split; [exact (LibFacts.assoc_In _ _ _ _ A)|exact (LibFacts.assoc_In _ _ _ _ B)]. Qed.
Ltac named := cbn [map fst]; repeat (apply NoDup_cons; [intros X; cbn [In] in X; repeat (destruct X as [X|X]; [discriminate X|]); exact X|]); apply NoDup_nil.
Example addon_dictionary : dictionary addon_settings.
Proof.
  split; [named|]. intros tool l [H|[H|[H|[H|[]]]]]; injection H as <- <-; named.
Qed.
Example C87_converted_witness : exists out ws, convert addon_settings = Some (out, ws) /\
  ws = [Bad_value "VCCLCompilerTool" "WarningLevel"; Unknown_setting "VCCLCompilerTool" "Speed"; Unknown_tool "VCFortranTool"] /\
  map (fun p => found out (fst p) (snd p)) [("ClCompile", "RuntimeLibrary"); ("ClCompile", "Optimization"); ("ClCompile", "ExceptionHandling"); ("ClCompile", "TreatWarningAsError"); ("ClCompile", "FunctionLevelLinking"); ("ClCompile", "PreprocessToFile");
    ("ClCompile", "AdditionalOptions"); ("ClCompile", "AdditionalIncludeDirectories"); ("ClCompile", "ObjectFileName"); ("Link", "LinkTimeCodeGeneration"); ("Link", "StackReserveSize"); (""%string, "GenerateManifest"); ("Lib", "AdditionalOptions")] =
  map Some [Text "MultiThreadedDLL"; Text "Full"; Text "Sync"; Text "true"; Text "true"; Text "true"; Text "/J"; Items ["deps\a"; "deps\b"]; Text "out\a.obj"; Text "UseLinkTimeCodeGeneration"; Text "1048576"; Text "false"; Items ["/LTCG"]].
Proof. eexists. eexists. split; [vm_compute; reflexivity|]. split; reflexivity. Qed.
Example C87_labels_witness : exists words, In ("VCCLCompilerTool", "RuntimeLibrary", "ClCompile", "RuntimeLibrary", words) documented /\ In ("2", "MultiThreadedDLL") words /\ given_as addon_settings "VCCLCompilerTool" "RuntimeLibrary" (Text "2").
Proof. eexists. split; [left; reflexivity|]. split; [right; right; left; reflexivity|]. eapply given_in; vm_compute; reflexivity. Qed.
Example C87_switches_witness : given_as addon_settings "VCCLCompilerTool" "WarnAsError" (Text "true") /\ says "VCCLCompilerTool" "WarnAsError" (Becomes "ClCompile" "TreatWarningAsError" Boolean) /\ place "VCCLCompilerTool" "WarnAsError" "ClCompile" "TreatWarningAsError" /\ switch (Text "true").
Proof.
  split; [eapply given_in; vm_compute; reflexivity|]. split; [eexists; split; reflexivity|]. split; [|left; reflexivity]. left. unfold renamed. cbn [In]. auto 20.
Qed.
Example C87_texts_witness : given_as addon_settings "VCLinkerTool" "MergeSections" (Text ".rdata=.text") /\ says "VCLinkerTool" "MergeSections" (Becomes "Link" "MergeSections" One) /\ place "VCLinkerTool" "MergeSections" "Link" "MergeSections" /\ macro_free (Text ".rdata=.text").
Proof.
  split; [eapply given_in; vm_compute; reflexivity|]. split; [eexists; split; reflexivity|]. split; [|reflexivity]. right. split; [|split; [right; left; reflexivity|reflexivity]]. intros a b H. unfold renamed in H. cbn [In] in H. repeat (destruct H as [H|H]; [discriminate H|]). exact H.
Qed.
Definition numbered_settings : tools := [("VCLinkerTool", [("TypeLibraryResourceID", Text " 12")]); ("VCResourceCompilerTool", [("Culture", Text "1033")])].
Example C87_numbers_witness : dictionary numbered_settings /\ given_as numbered_settings "VCLinkerTool" "TypeLibraryResourceID" (Text " 12") /\ says "VCLinkerTool" "TypeLibraryResourceID" (Becomes "Link" "TypeLibraryResourceID" (Integer false)) /\
  Spec_Args.whole_number " 12" 12 /\ place "VCLinkerTool" "TypeLibraryResourceID" "Link" "TypeLibraryResourceID" /\
  exists out, convert numbered_settings = Some (out, []) /\ found out "Link" "TypeLibraryResourceID" = Some (Text "12") /\ found out "ResourceCompile" "Culture" = Some (Text "0x0409").
Proof.
  split; [split; [named|]; intros tool l [H|[H|[]]]; injection H as <- <-; named|]. split; [eapply given_in; vm_compute; reflexivity|]. split; [eexists; split; reflexivity|]. split; [apply Proof_Args.py_int_iff; reflexivity|].
  split; [|eexists; split; [vm_compute; reflexivity|split; reflexivity]]. right. split; [|split; [right; left; reflexivity|reflexivity]]. intros a b H. unfold renamed in H. cbn [In] in H. repeat (destruct H as [H|H]; [discriminate H|]). exact H.
Qed.
Example C87_new_witness : given_as addon_settings "VCLinkerTool" "ImageHasSafeExceptionHandlers" (Text "false") /\ says "VCLinkerTool" "ImageHasSafeExceptionHandlers" (As_is "Link" "ImageHasSafeExceptionHandlers").
Proof. split; [eapply given_in; vm_compute; reflexivity|]. eexists. split; reflexivity. Qed.
Example C87_unsigned_witness : given_as addon_settings "VCCLCompilerTool" "DefaultCharIsUnsigned" (Text "true") /\ forall v, ~ given_as addon_settings "VCCLCompilerTool" "AdditionalOptions" v.
Proof. split; [eapply given_in; vm_compute; reflexivity|]. intros v (l & [H|[H|[H|[H|[]]]]] & I); try discriminate H. injection H as <-. cbn [In] in I. repeat (destruct I as [I|I]; [discriminate I|]). exact I. Qed.
Example C87_crash_witness : convert addon_settings <> None /\ misplaced (Becomes "ClCompile" "TreatWarningAsError" Boolean) (Items ["true"]).
Proof. split; [vm_compute; discriminate|exact I]. Qed.
Example C87_written_witness : exists user ws out, convert addon_settings = Some (user, ws) /\ finalize ".." true user (addon_target []) addon_configuration = inl out /\
  ~ In "RuntimeLibrary" set_by_generator /\ found user "ClCompile" "RuntimeLibrary" = Some (Text "MultiThreadedDLL") /\ written (sections out) "ClCompile" "RuntimeLibrary" = Some "MultiThreadedDLL".
Proof. eexists. eexists. eexists. split; [vm_compute; reflexivity|]. split; [vm_compute; reflexivity|]. split; [cbn; repeat (intros [H|H]; [discriminate H|revert H]); exact (fun x => x)|]. split; vm_compute; reflexivity. Qed.

(** ** what does not hold *)
(** Characters are not unsigned in each project that asks for it.  /J is appended to the
    options, and lost if these are given behind DefaultCharIsUnsigned, as they then
    replace what was there (MSVSSettings.py:255-257, 337-344). *)
Theorem C87_unsigned_refuted : ~ forall d out ws, dictionary d -> convert d = Some (out, ws) -> given_as d "VCCLCompilerTool" "DefaultCharIsUnsigned" (Text "true") ->
  exists s, found out "ClCompile" "AdditionalOptions" = Some (Text s) /\ Model_Writer.contains "/J" s = true.
Proof.
  intros H. destruct (H [("VCCLCompilerTool", [("DefaultCharIsUnsigned", Text "true"); ("AdditionalOptions", Text "/bigobj")])] [("ClCompile", [("AdditionalOptions", Text "/bigobj")])] []) as (s & E & C); [split; [named|]; intros tool l [E|[]]; injection E as <- <-; named|vm_compute; reflexivity|eapply given_in; vm_compute; reflexivity|]. injection E as <-. vm_compute in C. discriminate C.
Qed.
Print Assumptions C87_unsigned_refuted.
(** Options that are given as a list are not passed on where characters are unsigned:
    instead of them the compiler gets one text, the list as Python prints it, with its
    brackets, quotes and commas (MSVSSettings.py:337-344). *)
Theorem C87_options_refuted : ~ forall d out ws option, dictionary d -> convert d = Some (out, ws) -> given_as d "VCCLCompilerTool" "AdditionalOptions" (Items [option]) ->
  found out "ClCompile" "AdditionalOptions" = Some (Items [option]) \/ found out "ClCompile" "AdditionalOptions" = Some (Text (option ++ " /J")).
Proof.
  intros H. destruct (H [("VCCLCompilerTool", [("AdditionalOptions", Items ["/bigobj"]); ("DefaultCharIsUnsigned", Text "true")])] [("ClCompile", [("AdditionalOptions", Text "['/bigobj'] /J")])] [] "/bigobj") as [E|E]; [split; [named|]; intros tool l [E|[]]; injection E as <- <-; named|vm_compute; reflexivity|eapply given_in; vm_compute; reflexivity|discriminate E|discriminate E].
Qed.
Print Assumptions C87_options_refuted.
(** A value that a setting cannot have does not always give a warning.  If it is a list,
    the generator ends in a TypeError (MSVSSettings.py:143-155, 170-176, 203-220). *)
Theorem C87_list_refuted : ~ forall d, dictionary d -> exists out ws, convert d = Some (out, ws).
Proof. intros H. destruct (H [("VCCLCompilerTool", [("WarnAsError", Items ["true"])])]) as (out & ws & E); [split; [named|]; intros tool l [E|[]]; injection E as <- <-; named|]. vm_compute in E. discriminate E. Qed.
Print Assumptions C87_list_refuted.
(** A precompiled header cannot be asked for with the setting that Visual Studio has for
    it: where it is given, the generator ends in a TypeError, as it sets PrecompiledHeader
    itself in every project (msvs.py:3413-3426, 287-297). *)
Theorem C87_precompiled_refuted : ~ forall d user ws pre t c, convert d = Some (user, ws) -> given_as d "VCCLCompilerTool" "UsePrecompiledHeader" (Text "2") -> exists out, finalize pre true user t c = inl out.
Proof.
  intros H. destruct (H [("VCCLCompilerTool", [("UsePrecompiledHeader", Text "2")])] [("ClCompile", [("PrecompiledHeader", Text "Use")])] [] ".." (addon_target []) plain_configuration) as (out & E); [vm_compute; reflexivity|eapply given_in; vm_compute; reflexivity|]. vm_compute in E. discriminate E.
Qed.
Print Assumptions C87_precompiled_refuted.
(** So it is with IgnoreImportLibrary, whatever its value, in each loadable module, which
    every addon is (msvs.py:3432-3435). *)
Theorem C87_importlibrary_refuted : ~ forall v d user ws pre t c, switch v -> kind t = "loadable_module" -> convert d = Some (user, ws) -> given_as d "VCLinkerTool" "IgnoreImportLibrary" v -> exists out, finalize pre true user t c = inl out.
Proof.
  intros H. destruct (H (Text "true") [("VCLinkerTool", [("IgnoreImportLibrary", Text "true")])] [("", [("IgnoreImportLibrary", Text "true")])] [] ".." (addon_target []) plain_configuration) as (out & E); [left; reflexivity|reflexivity|vm_compute; reflexivity|eapply given_in; vm_compute; reflexivity|]. vm_compute in E. discriminate E.
Qed.
Print Assumptions C87_importlibrary_refuted.
(** The linker and the librarian cannot differ in LinkLibraryDependencies: the one that
    is given later decides for both (MSVSSettings.py:1013, 1196). *)
Theorem C87_dependencies_refuted : ~ forall d out ws v, dictionary d -> convert d = Some (out, ws) -> given_as d "VCLinkerTool" "LinkLibraryDependencies" v -> switch v -> found out "ProjectReference" "LinkLibraryDependencies" = Some v.
Proof.
  intros H. assert (E := H [("VCLinkerTool", [("LinkLibraryDependencies", Text "true")]); ("VCLibrarianTool", [("LinkLibraryDependencies", Text "false")])] [("ProjectReference", [("LinkLibraryDependencies", Text "false")])] [] (Text "true")). refine (_ (E _ _ _ _)); [intros X; discriminate X|split; [named|]; intros tool l [Q|[Q|[]]]; injection Q as <- <-; named|vm_compute; reflexivity|eapply given_in; vm_compute; reflexivity|left; reflexivity].
Qed.
Print Assumptions C87_dependencies_refuted.
