(** C86: the properties of Visual Studio projects. *)
From Coq Require Import Relations.
From Verif Require Import Lib Str Model_Vcxproj Spec_Vcxproj Model_TopoSort Model_Tools Spec_Tools Model_Properties Spec_Properties Proof_Tools Proof_Properties Proof_Properties3.
From Verif Require Props_Tools.
Local Open Scope string_scope.

(** [l]: the properties of each configuration and platform, "Release|x64" say. *)
Definition conditional (l : list (string * list (string * string))) : list (string * list (string * string)) :=
  map (fun c => ("'$(Configuration)|$(Platform)'=='" ++ fst c ++ "'", snd c)) l.
(** Properties given for a configuration have the values given, with references to
    others replaced by the values of those, whatever the order they are given in; other
    properties keep the value they had. *)
Theorem C86_properties : forall set_order l es here g env,
  (forall s x, In x (set_order s) <-> In x s) -> NoDup (map fst l) -> (forall name, consistent l name) -> spelled_alike l ->
  property_group set_order (length l) (added (conditional l)) = Sorted es -> In (here, g) l ->
  (forall name v, In (name, v) g -> evaluate here es env name = expand (fun n => if String.eqb n name then env n else evaluate here es env n) v) /\
  (forall n, (forall name v, In (name, v) g -> lower_case n <> lower_case name) -> evaluate here es env n = env n).
Proof. intros so l es here g env SO ND C A E I. exact (group_evaluates l ND so SO C A es E here g env I). Qed.
Print Assumptions C86_properties.

(** Generation fails only if a property refers to itself through others. *)
Theorem C86_group : forall set_order l,
  (forall s x, In x (set_order s) <-> In x s) ->
  (exists es, property_group set_order (length l) (added (conditional l)) = Sorted es) \/
  (exists v c, property_group set_order (length l) (added (conditional l)) = CycleError v /\ clos_trans string (uses l) c c).
Proof.
  intros so l SO. unfold property_group. destruct (group_cases l so SO) as [(nm & C & _)|(v & c & C & T)]; [left; eexists|right; exists v, c; split; [|exact T]].
  - change (conditional l) with (map (fun c => (ct (fst c), snd c)) l). rewrite C. reflexivity.
  - change (conditional l) with (map (fun c => (ct (fst c), snd c)) l). rewrite C. reflexivity.
Qed.
Print Assumptions C86_group.

(** Where the product is written to is what is taken for it: the linker writes the file
    which TargetPath names, in the directory of the configuration. *)
Theorem C86_product : forall pre cygwin t cases set_order r n e,
  (forall s x, In x (set_order s) <-> In x s) ->
  In (kind t) ["executable"; "shared_library"; "loadable_module"; "windows_driver"] -> auto_output_file t = true -> product_dir t = None ->
  product_name t = Some n -> product_extension t = Some e -> plain_name (product_prefix t ++ n) -> plain_name e ->
  has_char "$" pre = false -> has_char "$" cygwin = false ->
  NoDup (map (fun c => case_name c ++ "|" ++ platform_of (case_attributes c)) cases) ->
  (forall c, In c cases ->
    (output_directory (case_attributes c) = None \/ output_directory (case_attributes c) = Some "$(SolutionDir)$(ConfigurationName)") /\
    (intermediate_directory (case_attributes c) = None \/ intermediate_directory (case_attributes c) = Some "$(OutDir)\obj\$(ProjectName)") /\
    assoc "" (case_user c) = None /\ (forall s, assoc "Link" (case_user c) = Some s -> assoc "OutputFile" s = None /\ assoc "TargetExt" s = None)) ->
  project_properties pre cygwin t cases = inl r ->
  exists es, property_group set_order (length r) (added r) = Sorted es /\
  forall c out env, In c cases -> finalize pre (case_converted c) (case_user c) t (case_configuration c) = inl out ->
  let final := evaluate (case_name c ++ "|" ++ platform_of (case_attributes c)) es env in
  let file := (product_prefix t ++ n) ++ "." ++ e in
  final "OutDir" = env "SolutionDir" ++ env "Configuration" ++ "\" /\
  final "TargetName" ++ final "TargetExt" = file /\
  final "TargetPath" = env "SolutionDir" ++ env "Configuration" ++ "\\" ++ file /\
  exists text, written (sections out) "Link" "OutputFile" = Some text /\ expand final text = env "SolutionDir" ++ env "Configuration" ++ "\" ++ file.
Proof.
  intros pre cygwin t cases so r n e SO K A D N E NP EP P C ND O PP.
  destruct (product pre cygwin (product_prefix t) n e t K A D eq_refl N E NP EP P C cases so r SO ND) as (es & G & H); [|exact PP|].
  - intros c I. destruct (O c I) as (O1 & O2 & O3 & O4). split; [split; assumption|]. unfold nothing_given, lookup, tool_settings. rewrite O3. destruct (assoc "Link" (case_user c)) as [s|]; [|auto]. destruct (O4 s eq_refl) as (-> & ->). auto.
  - exists es. split; [exact G|]. intros c out env I F. destruct (H c out env I F) as (H1 & H2 & H3 & H4 & H5). cbv zeta. unfold built in *. rewrite H2, H3. split; [exact H1|]. split; [reflexivity|]. split; [exact H4|exact H5].
Qed.
Print Assumptions C86_product.

(** ** these are met *)
Definition in_order (s : list string) : list string := s.
Definition example_properties : list (string * list (string * string)) :=
  [("Debug|x64", [("AddonDir", "$(AddonRoot)\debug"); ("AddonRoot", "$(SolutionDir)addon"); ("Path", "$(Path);$(AddonDir)")]);
   ("Release|x64", [("AddonDir", "$(AddonRoot)\release"); ("AddonRoot", "$(SolutionDir)addon"); ("Path", "$(Path);$(AddonDir)")])].
Definition example_env : environment := fun n => if String.eqb n "SolutionDir" then "C:\s\" else if String.eqb n "Path" then "C:\bin" else if String.eqb n "Configuration" then "Release" else "".
Example C86_properties_witness : exists es, property_group in_order 2 (added (conditional example_properties)) = Sorted es /\
  NoDup (map fst example_properties) /\ (forall name, consistent example_properties name) /\ spelled_alike example_properties /\
  evaluate "Debug|x64" es example_env "Path" = "C:\bin;C:\s\addon\debug" /\ evaluate "Release|x64" es example_env "Path" = "C:\bin;C:\s\addon\release".
Proof.
  eexists. split; [vm_compute; reflexivity|]. split; [repeat (apply NoDup_cons; [cbn; intuition discriminate|]); apply NoDup_nil|]. split; [|split; [|split; vm_compute; reflexivity]].
  - intros name. left. intros here g [E|[E|[]]]; injection E as <- <-; apply NoDup_filter; cbn [map fst]; repeat (apply NoDup_cons; [cbn; intuition discriminate|]); apply NoDup_nil.
  - intros here name value m (g & I & J) M L.
    assert (IN : In name ["AddonDir"; "AddonRoot"; "Path"]) by (destruct I as [I|[I|[]]]; injection I as <- <-; (destruct J as [J|[J|[J|[]]]]); injection J as <- <-; cbn; tauto).
    assert (IM : In m ["AddonDir"; "AddonRoot"; "Path"; "SolutionDir"]).
    { destruct M as [(h & v & g' & I' & J')|(h & n' & v & (g' & I' & J') & R)].
      - destruct I' as [I'|[I'|[]]]; injection I' as <- <-; (destruct J' as [J'|[J'|[J'|[]]]]); injection J' as <- <-; cbn; tauto.
      - apply refers_references in R. destruct I' as [I'|[I'|[]]]; injection I' as <- <-; (destruct J' as [J'|[J'|[J'|[]]]]); injection J' as <- <-; vm_compute in R; repeat (destruct R as [<-|R]; [cbn; tauto|]); destruct R. }
    revert L. clear - IN IM. cbn [In] in IN, IM. decompose [or] IN; try contradiction; decompose [or] IM; try contradiction; subst; vm_compute; intros L; try reflexivity; discriminate L.
Qed.
Example C86_group_witness : exists v, property_group in_order 1 (added (conditional [("Debug|x64", [("A", "$(B)"); ("B", "x$(C)"); ("C", "$(A)")])])) = CycleError v.
Proof. eexists. vm_compute. reflexivity. Qed.
Definition example_case (name : string) : case :=
  {| case_name := name; case_attributes := {| output_directory := Some "$(SolutionDir)$(ConfigurationName)"; intermediate_directory := Some "$(OutDir)\obj\$(ProjectName)"; platform_of := "x64" |};
     case_converted := true; case_user := Props_Tools.addon_user; case_configuration := Props_Tools.addon_configuration |}.
Example C86_product_witness : exists r es out, project_properties ".." "." (Props_Tools.addon_target []) [example_case "Debug"; example_case "Release"] = inl r /\
  property_group in_order (length r) (added r) = Sorted es /\ finalize ".." true Props_Tools.addon_user (Props_Tools.addon_target []) Props_Tools.addon_configuration = inl out /\
  plain_name ("" ++ "addon") /\ plain_name "node" /\ length es = 10 /\
  evaluate "Release|x64" es example_env "TargetPath" = "C:\s\Release\\addon.node" /\
  exists text, written (sections out) "Link" "OutputFile" = Some text /\ expand (evaluate "Release|x64" es example_env) text = "C:\s\Release\addon.node".
Proof.
  eexists. eexists. eexists. split; [vm_compute; reflexivity|]. split; [vm_compute; reflexivity|]. split; [vm_compute; reflexivity|]. split; [split; [discriminate|vm_compute; reflexivity]|]. split; [split; [discriminate|vm_compute; reflexivity]|]. split; [reflexivity|]. split; [vm_compute; reflexivity|]. eexists. split; vm_compute; reflexivity.
Qed.

(** ** what does not hold *)
Definition example_target (k : string) (auto importlibrary : bool) (dir : option string) : target := {| kind := k; libraries := []; target_sources := []; standalone_static_library := false; auto_output_file := auto;
  product_dir := dir; product_prefix := ""; product_name := Some "addon"; product_extension := None; requires_importlibrary := importlibrary |}.
Definition with_extension (name ext : string) : case :=
  {| case_name := name; case_attributes := {| output_directory := None; intermediate_directory := None; platform_of := "x64" |};
     case_converted := false; case_user := [("Link", [("TargetExt", Text ext)])]; case_configuration := Props_Tools.plain_configuration |}.
(** With two configurations that have different extensions of the product, both get the
    extension that sorts last: each is recorded twice for its configuration, and with
    two records for two configurations a value is taken to be that of both
    (msvs.py:3215-3227, 3308-3311). *)
Theorem C86_extension_refuted : ~ (forall cygwin t cases r es c s ext env,
  project_properties "" cygwin t cases = inl r -> property_group in_order (length r) (added r) = Sorted es -> In c cases ->
  assoc "Link" (case_user c) = Some s -> assoc "TargetExt" s = Some (Text ext) -> has_char "$" ext = false ->
  evaluate (case_name c ++ "|" ++ platform_of (case_attributes c)) es env "TargetExt" = ext).
Proof.
  intros H. set (cs := [with_extension "Debug" ".dbg"; with_extension "Release" ".node"]).
  destruct (project_properties "" "" (example_target "loadable_module" true false None) cs) as [r|] eqn:E; [|vm_compute in E; discriminate E].
  destruct (property_group in_order (length r) (added r)) as [es| |] eqn:G.
  - specialize (H "" (example_target "loadable_module" true false None) cs r es (with_extension "Debug" ".dbg") [("TargetExt", Text ".dbg")] ".dbg" (fun _ => "") E G (or_introl eq_refl) eq_refl eq_refl eq_refl).
    vm_compute in E. injection E as <-. vm_compute in G. injection G as <-. vm_compute in H. discriminate H.
  - vm_compute in E. injection E as <-. vm_compute in G. discriminate G.
  - vm_compute in E. injection E as <-. vm_compute in G. discriminate G.
Qed.
Print Assumptions C86_extension_refuted.
(** For a static library with msvs_auto_output_file 0 and no settings of its own for the
    librarian, generation ends with a KeyError (msvs.py:3175). *)
Theorem C86_librarian_refuted : ~ (forall cygwin t cases, (forall c, In c cases -> case_user c = []) -> forall e, project_properties "" cygwin t cases <> inr (Property e)).
Proof.
  intros H. refine (H "" (example_target "static_library" false false None) [{| case_name := "Release"; case_attributes := {| output_directory := None; intermediate_directory := None; platform_of := "x64" |}; case_converted := true; case_user := []; case_configuration := Props_Tools.plain_configuration |}] _ No_tool _).
  - intros c [<-|[]]. reflexivity.
  - vm_compute. reflexivity.
Qed.
Print Assumptions C86_librarian_refuted.
(** For a loadable module with msvs_requires_importlibrary generation ends with a
    TypeError: IgnoreImportLibrary is set to false, and true is then appended to it
    (msvs.py:3432-3437). *)
Theorem C86_importlibrary_refuted : ~ (forall cygwin t cases, (forall c, In c cases -> case_user c = []) -> length (filter ends_def (target_sources t)) <= 1 -> (forall c, In c cases -> defines (case_configuration c) = []) ->
  forall e, project_properties "" cygwin t cases <> inr (Settings e)).
Proof.
  intros H. refine (H "" (example_target "loadable_module" true true None) [{| case_name := "Release"; case_attributes := {| output_directory := None; intermediate_directory := None; platform_of := "x64" |}; case_converted := true; case_user := []; case_configuration := Props_Tools.plain_configuration |}] _ _ _ Appending _).
  - intros c [<-|[]]. reflexivity.
  - cbn. auto.
  - intros c [<-|[]]. reflexivity.
  - vm_compute. reflexivity.
Qed.
Print Assumptions C86_importlibrary_refuted.
(** MSBuild does not tell upper from lower case in the names of properties.  Where a
    reference is spelled differently from the property it refers to, the property may be
    set behind the one that refers to it, which then misses its value
    (msvs.py:3289-3295). *)
Theorem C86_spelling_refuted : ~ (forall l es here g env name v,
  NoDup (map fst l) -> (forall name, consistent l name) -> property_group in_order (length l) (added (conditional l)) = Sorted es -> In (here, g) l -> In (name, v) g ->
  evaluate here es env name = expand (fun n => if String.eqb (lower_case n) (lower_case name) then env n else evaluate here es env n) v).
Proof.
  intros H. set (g := [("A", "$(b)"); ("B", "x")]). assert (C : property_group in_order 1 (added (conditional [("Release|x64", g)])) = Sorted [("A", None, "$(b)"); ("B", None, "x")]) by (vm_compute; reflexivity).
  specialize (H [("Release|x64", g)] [("A", None, "$(b)"); ("B", None, "x")] "Release|x64" g (fun _ => "") "A" "$(b)"). specialize (H ltac:(apply NoDup_cons; [intros []|apply NoDup_nil])).
  specialize (H ltac:(intros name; left; intros h g' [E|[]]; injection E as _ <-; apply NoDup_filter; repeat (apply NoDup_cons; [cbn; intuition discriminate|]); apply NoDup_nil) C (or_introl eq_refl) (or_introl eq_refl)). vm_compute in H. discriminate H.
Qed.
Print Assumptions C86_spelling_refuted.
(** A relative product_dir: the linker writes the file relative to the project, but
    TargetPath names one relative to the .gyp file (msvs.py:1349-1350, 3177). *)
Theorem C86_product_dir_refuted : ~ (forall pre t a user c out g here text path,
  way pre -> finalize pre true user t c = inl out -> global_properties pre "" t a out = inl g -> In ("TargetPath", path) g -> written (sections out) "Link" "OutputFile" = Some text ->
  has_char "$" path = false -> has_char "$" text = false -> leads here path = leads here text).
Proof.
  intros H. set (t := {| kind := "loadable_module"; libraries := []; target_sources := []; standalone_static_library := false; auto_output_file := true; product_dir := Some "bin"; product_prefix := ""; product_name := Some "addon"; product_extension := Some "node"; requires_importlibrary := false |}).
  destruct (finalize ".." true [] t Props_Tools.plain_configuration) as [out|] eqn:F; [|vm_compute in F; discriminate F].
  destruct (global_properties ".." "" t {| output_directory := None; intermediate_directory := None; platform_of := "x64" |} out) as [g|] eqn:G; [|vm_compute in F; injection F as <-; vm_compute in G; discriminate G].
  specialize (H _ _ _ _ _ _ _ ["build"] "bin\addon.node" "..\bin\addon.node" Props_Tools.addon_way F G). vm_compute in F. injection F as <-. vm_compute in G. injection G as <-.
  specialize (H ltac:(cbn; tauto) ltac:(vm_compute; reflexivity) eq_refl eq_refl). vm_compute in H. discriminate H.
Qed.
Print Assumptions C86_product_dir_refuted.
