(** C85: what the compiler and the linker are told in Visual Studio projects. *)
From Verif Require Import Lib Str Model_Vcxproj Spec_Vcxproj Model_Tools Spec_Tools Proof_Tools3.
Local Open Scope string_scope.

Theorem C85_defines : forall pre converted user t c out,
  finalize pre converted user t c = inl out -> defines c <> [] ->
  Forall (fun d => d <> "" /\ strip d = d /\ d <> "_HAS_TR1=0") (map (String.concat "=") (defines c)) ->
  exists text, written (sections out) "ClCompile" "PreprocessorDefinitions" = Some text /\
    reads_behind user "ClCompile" "PreprocessorDefinitions" text (map sent (map (String.concat "=") (defines c)) ++ ["%(PreprocessorDefinitions)"]).
Proof. exact defines_read. Qed.
Print Assumptions C85_defines.

Theorem C85_directories : forall pre converted user t c out tool name dirs,
  finalize pre converted user t c = inl out -> way pre -> searched c tool name dirs -> dirs <> [] -> Forall directory dirs ->
  exists text found, written (sections out) tool name = Some text /\ Forall2 (stands_for pre) dirs found /\
    reads_behind user tool name text (found ++ [("%(" ++ name ++ ")")%string]).
Proof. exact directories_read. Qed.
Print Assumptions C85_directories.

Theorem C85_libraries : forall pre converted user t c out files,
  finalize pre converted user t c = inl out -> Forall2 library_file (libraries t) files -> Forall tidy files ->
  exists text found, written (sections out) "Link" "AdditionalDependencies" = Some text /\
    Forall2 (fun x f => pieces f = pieces x) (last_ones files) found /\
    reads_behind user "Link" "AdditionalDependencies" text found.
Proof. exact libraries_read. Qed.
Print Assumptions C85_libraries.

(** Options that are given in msvs_settings are passed on, in front of inherited ones. *)
Theorem C85_options : forall pre converted user t c out tool l, finalize pre converted user t c = inl out -> In tool ["ClCompile"; "Link"; "Lib"] ->
  (exists s, assoc tool user = Some s /\ assoc "AdditionalOptions" s = Some (Items l)) -> Forall (fun o => has_char "$" o = false) l ->
  written (sections out) tool "AdditionalOptions" = Some (String.concat " " (l ++ ["%(AdditionalOptions)"])).
Proof. exact options_kept. Qed.
Print Assumptions C85_options.

(** ** an addon *)
Definition plain_configuration : configuration := {| include_dirs := []; system_include_dirs := []; midl_include_dirs := []; resource_include_dirs := None;
  library_dirs := []; defines := []; disabled_warnings := []; precompiled_header := None; msbuild_toolset := None; prebuild := Text ""; postbuild := Text "" |}.
Definition addon_configuration : configuration := {| include_dirs := ["C:/node/include/node"; "src/../include"]; system_include_dirs := ["deps/uv"]; midl_include_dirs := []; resource_include_dirs := None;
  library_dirs := ["C:\node\lib"; "lib"]; defines := [["NODE_GYP_MODULE_NAME"; "addon"]; ["BUILDING_NODE_EXTENSION"]; ["RATE"; "50%;#1"]]; disabled_warnings := ["4351"]; precompiled_header := None; msbuild_toolset := None; prebuild := Text ""; postbuild := Text "" |}.
Definition addon_target (libs : list string) : target := {| kind := "loadable_module"; libraries := libs; target_sources := ["addon.cc"]; standalone_static_library := false; auto_output_file := true;
  product_dir := None; product_prefix := ""; product_name := Some "addon"; product_extension := Some "node"; requires_importlibrary := false |}.
Definition addon_user : tools := [("ClCompile", [("PreprocessorDefinitions", Items ["OWN=1"]); ("Optimization", Text "Full")]); ("Link", [("AdditionalDependencies", Items ["kernel32.lib"])])].
Ltac directory_is := first
  [ split; [cbv; repeat split; repeat constructor|left; split; [repeat split; try discriminate; intros; discriminate|reflexivity]]
  | split; [cbv; repeat split; repeat constructor|right; split; [reflexivity|eexists; eexists; split; [split; [reflexivity|split; [reflexivity|eexists; (left; reflexivity) || (right; reflexivity)]]|vm_compute; discriminate]]] ].
Example addon_way : way "..".
Proof. right. split; [exists []; reflexivity|]. repeat split; try reflexivity; [intros [H|[]]; discriminate H|repeat constructor]. Qed.
Example C85_defines_witness : exists out, finalize ".." true addon_user (addon_target []) addon_configuration = inl out /\
  Forall (fun d => d <> "" /\ strip d = d /\ d <> "_HAS_TR1=0") (map (String.concat "=") (defines addon_configuration)) /\
  exists text, written (sections out) "ClCompile" "PreprocessorDefinitions" = Some text /\ reads text = ["OWN=1"; "NODE_GYP_MODULE_NAME=addon"; "BUILDING_NODE_EXTENSION"; "RATE=50%%;\0431"; "%(PreprocessorDefinitions)"].
Proof.
  eexists. split; [vm_compute; reflexivity|]. split; [repeat (apply Forall_cons; [split; [discriminate|split; [reflexivity|discriminate]]|]); constructor|]. eexists. split; [vm_compute; reflexivity|]. vm_compute. reflexivity.
Qed.
Example C85_directories_witness : exists out, finalize ".." true addon_user (addon_target []) addon_configuration = inl out /\
  Forall directory (include_dirs addon_configuration ++ system_include_dirs addon_configuration) /\ Forall directory (library_dirs addon_configuration) /\
  (exists text, written (sections out) "ClCompile" "AdditionalIncludeDirectories" = Some text /\ reads text = ["C:\node\include\node"; "..\include"; "..\deps\uv"; "%(AdditionalIncludeDirectories)"]) /\
  (exists text, written (sections out) "Link" "AdditionalLibraryDirectories" = Some text /\ reads text = ["C:\node\lib"; "..\lib"; "%(AdditionalLibraryDirectories)"]).
Proof.
  eexists. split; [vm_compute; reflexivity|]. split; [cbn [addon_configuration include_dirs system_include_dirs app]; repeat (apply Forall_cons; [directory_is|]); constructor|]. split; [cbn [addon_configuration library_dirs]; repeat (apply Forall_cons; [directory_is|]); constructor|].
  split; (eexists; split; [vm_compute; reflexivity|vm_compute; reflexivity]).
Qed.
Example C85_libraries_witness : exists out, finalize ".." true addon_user (addon_target ["-lz"; "C:/node/node.lib"; "z.lib"; "-lssl"]) addon_configuration = inl out /\
  Forall2 library_file ["-lz"; "C:/node/node.lib"; "z.lib"; "-lssl"] ["z.lib"; "C:/node/node.lib"; "z.lib"; "ssl.lib"] /\ Forall tidy ["z.lib"; "C:/node/node.lib"; "z.lib"; "ssl.lib"] /\
  exists text, written (sections out) "Link" "AdditionalDependencies" = Some text /\ reads text = ["kernel32.lib"; "C:\node\node.lib"; "z.lib"; "ssl.lib"].
Proof.
  assert (NE : forall n, has_char "." n = false -> forall ext, ~ has_extension n ext).
  { intros n H ext (d & m & x & -> & _). assert (Y : has_char "." (d ++ m ++ "." ++ x) = true). { rewrite !StrFacts.has_char_app. cbn [has_char]. rewrite Ascii.eqb_refl, !Bool.orb_true_r. reflexivity. } congruence. }
  eexists. split; [vm_compute; reflexivity|]. split; [|split].
  - apply Forall2_cons; [exists "z"; split; [left; reflexivity|right; split; [apply NE; reflexivity|reflexivity]]|]. apply Forall2_cons; [exists "C:/node/node.lib"; split; [right; split; [discriminate|reflexivity]|left; split; [|reflexivity]]|].
    + exists ".lib", "C:/node/", "node", "lib". split; [reflexivity|]. split; [right; exists "C:/node"; left; reflexivity|]. split; [intros c [<-|[<-|[]]]; split; reflexivity|]. split; [reflexivity|]. split; [exists "n"%char; split; [discriminate|reflexivity]|reflexivity].
    + apply Forall2_cons; [exists "z.lib"; split; [right; split; [discriminate|reflexivity]|left; split; [|reflexivity]]|].
      * exists ".lib", "", "z", "lib". split; [reflexivity|]. split; [left; reflexivity|]. split; [intros c [<-|[<-|[]]]; split; reflexivity|]. split; [reflexivity|]. split; [exists "z"%char; split; [discriminate|reflexivity]|reflexivity].
      * apply Forall2_cons; [exists "ssl"; split; [left; reflexivity|right; split; [apply NE; reflexivity|reflexivity]]|constructor].
  - repeat (apply Forall_cons; [split; [discriminate|repeat split; reflexivity]|]). constructor.
  - eexists. split; [vm_compute; reflexivity|vm_compute; reflexivity].
Qed.

Example C85_options_witness : exists out, finalize ".." true [("ClCompile", [("AdditionalOptions", Items ["/std:c++20"; "/MP"])])] (addon_target []) addon_configuration = inl out /\
  written (sections out) "ClCompile" "AdditionalOptions" = Some "/std:c++20 /MP %(AdditionalOptions)".
Proof. eexists. split; vm_compute; reflexivity. Qed.

(** ** what does not hold *)
(** Not every definition can be given.  A string for the compiler needs a backslash
    before its quotes; with one, the generator ends in a TypeError, as the number of
    backslashes is divided by two, which is a float in Python 3 (msvs.py:863). *)
Theorem C85_string_refuted : ~ forall pre t c, finalize pre true [] t c <> inr Float_times_str.
Proof.
  intros H. apply (H ".." (addon_target []) {| include_dirs := []; system_include_dirs := []; midl_include_dirs := []; resource_include_dirs := None; library_dirs := [];
    defines := [["VERSION"; "\""1.0\"""]]; disabled_warnings := []; precompiled_header := None; msbuild_toolset := None; prebuild := Text ""; postbuild := Text "" |}). vm_compute. reflexivity.
Qed.
Print Assumptions C85_string_refuted.
(** A library given as -lNAME is not looked for in NAME.lib if it has a version in its
    name: the number behind the last period is taken for an extension (msvs.py:1309). *)
Theorem C85_version_refuted : ~ forall t c out n text, libraries t = ["-l" ++ n] -> finalize ".." true [] t c = inl out ->
  written (sections out) "Link" "AdditionalDependencies" = Some text -> reads text = [n ++ ".lib"].
Proof.
  intros H. assert (E : exists out, finalize ".." true [] (addon_target ["-lfoo-1.2"]) plain_configuration = inl out /\ written (sections out) "Link" "AdditionalDependencies" = Some "foo-1.2") by (eexists; split; [vm_compute; reflexivity|vm_compute; reflexivity]).
  destruct E as (out & E & W). pose proof (H (addon_target ["-lfoo-1.2"]) _ _ "foo-1.2" _ eq_refl E W) as X. vm_compute in X. discriminate X.
Qed.
Print Assumptions C85_version_refuted.
(** A library with a relative path is not found where it is for the .gyp file.  Its path
    is written as it is, and is relative to the project (msvs.py:1289-1313), while those
    of sources and directories are changed. *)
Theorem C85_library_path_refuted : ~ forall pre t c out d text f, way pre -> relative d -> libraries t = [d] -> finalize pre true [] t c = inl out ->
  written (sections out) "Link" "AdditionalDependencies" = Some text -> reads text = [f] -> stands_for pre d f.
Proof.
  intros H. assert (E : exists out, finalize ".." true [] (addon_target ["lib/foo.lib"]) plain_configuration = inl out /\ written (sections out) "Link" "AdditionalDependencies" = Some "lib\foo.lib") by (eexists; split; [vm_compute; reflexivity|vm_compute; reflexivity]).
  destruct E as (out & E & W). assert (R : relative "lib/foo.lib") by (split; [repeat split; try discriminate; intros; discriminate|reflexivity]).
  destruct (H ".." (addon_target ["lib/foo.lib"]) _ _ "lib/foo.lib" _ "lib\foo.lib" addon_way R eq_refl E W eq_refl) as (X & _). pose proof (X R ["build"]) as Y. vm_compute in Y. discriminate Y.
Qed.
Print Assumptions C85_library_path_refuted.
(** The root of a drive cannot be given as a directory.  The backslash at its end is
    dropped, and what is left is the directory one is in on that drive
    (msvs.py:176-177). *)
Theorem C85_root_refuted : ~ forall pre t c out d text f, way pre -> (exists a r, on_drive a r d) -> include_dirs c = [d] -> system_include_dirs c = [] -> finalize pre true [] t c = inl out ->
  written (sections out) "ClCompile" "AdditionalIncludeDirectories" = Some text -> reads text = [f; "%(AdditionalIncludeDirectories)"] -> stands_for pre d f.
Proof.
  intros H. set (c := {| include_dirs := ["D:/"]; system_include_dirs := []; midl_include_dirs := []; resource_include_dirs := None; library_dirs := [];
    defines := []; disabled_warnings := []; precompiled_header := None; msbuild_toolset := None; prebuild := Text ""; postbuild := Text "" |}).
  assert (E : exists out, finalize ".." true [] (addon_target []) c = inl out /\ written (sections out) "ClCompile" "AdditionalIncludeDirectories" = Some "D:;%(AdditionalIncludeDirectories)") by (eexists; split; [vm_compute; reflexivity|vm_compute; reflexivity]).
  destruct E as (out & E & W). assert (O : on_drive "D" "/" "D:/") by (split; [reflexivity|split; [reflexivity|exists ""; left; reflexivity]]).
  destruct (H ".." (addon_target []) c out "D:/" _ "D:" addon_way ltac:(exists "D"%char, "/"; exact O) eq_refl eq_refl E W eq_refl) as (_ & X). destruct (X _ _ O) as (r & (Y & _ & (t & [-> | ->])) & _); discriminate Y.
Qed.
Print Assumptions C85_root_refuted.
(** If the user gives AdditionalDependencies themselves as one text and not as a list,
    the generator ends in a TypeError, even if the target has no libraries to be appended
    to it (msvs.py:3396). *)
Theorem C85_text_refuted : ~ forall pre user t c, libraries t = [] -> finalize pre true user t c <> inr Appending.
Proof. intros H. apply (H ".." [("Link", [("AdditionalDependencies", Text "kernel32.lib")])] (addon_target []) plain_configuration eq_refl). vm_compute. reflexivity. Qed.
Print Assumptions C85_text_refuted.
