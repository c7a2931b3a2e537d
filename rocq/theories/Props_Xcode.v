(** C89: what xcode_settings become on macOS. *)
From Verif Require Import Lib Str.
From Verif Require Import Model_Writer Model_Xcode Spec_Flags Spec_Xcode Proof_Xcode Proof_Xcode1 Proof_Xcode2 Proof_Xcode3 Proof_Xcode4.
Local Open Scope string_scope.

Definition sample_machine : machine :=
  {| sdk := fun n => if String.eqb n "macosx" then Some "/Xcode/MacOSX.sdk" else if String.eqb n "" then Some "/Default.sdk" else None; version := "1500";
     exists_ := fun f => String.eqb f "/Xcode/MacOSX.sdk/usr/lib/libz.tbd"; listed := fun l => "[" ++ String.concat ", " l ++ "]"; crossing := false |}.
Definition sample_settings : settings :=
  [("SDKROOT", Text "macosx"); ("ARCHS", Items ["arm64"]); ("GCC_OPTIMIZATION_LEVEL", Text "3"); ("GCC_ENABLE_CPP_EXCEPTIONS", Text "NO"); ("GCC_ENABLE_CPP_RTTI", Text "NO"); ("GCC_SYMBOLS_PRIVATE_EXTERN", Text "YES");
   ("GCC_CW_ASM_SYNTAX", Text "NO"); ("GCC_STRICT_ALIASING", Text "NO"); ("MACOSX_DEPLOYMENT_TARGET", Text "10.15"); ("CLANG_CXX_LANGUAGE_STANDARD", Text "gnu++17"); ("CLANG_CXX_LIBRARY", Text "libc++"); ("WARNING_CFLAGS", Items ["-Wall"; "-Wendif-labels"]);
   ("OTHER_CFLAGS", Items ["-fno-common"]); ("OTHER_CPLUSPLUSFLAGS", Items ["-Wextra"; "$(inherited)"]); ("OTHER_LDFLAGS", Items ["-Wl,-exported_symbols_list,addon.exp"; "-Ldeps"; "-undefined dynamic_lookup"]);
   ("DYLIB_INSTALL_NAME_BASE", Text "@rpath/x"); ("CLANG_ENABLE_OBJC_ARC", Text "YES"); ("LD_RUNPATH_SEARCH_PATHS", Items ["@loader_path"])].
Definition sample_config : config := {| xcode := sample_settings; framework_dirs := ["$(SDKROOT)/Library/Frameworks"]; arch := None |}.
Definition sample_spec : spec := {| target_name := "libkit"; type := Shared_library; product_name := None; product_prefix := None; product_extension := None; configurations := [("Release", sample_config); ("Debug", sample_config)] |}.
Lemma sample_proper : proper sample_settings.
Proof.
  split.
  - repeat (apply NoDup_cons; [intros X; cbn [In map fst sample_settings] in X; repeat (destruct X as [X|X]; [discriminate X|]); exact X|]). apply NoDup_nil.
  - intros k v I. cbn [In sample_settings] in I. repeat (destruct I as [I|I]; [injection I as <- <-; first [left; split; [apply is_listed; reflexivity|eexists; reflexivity]|right; split; [apply not_listed; reflexivity|eexists; reflexivity]]|]). destruct I.
Qed.
Lemma sample_plain : plain_dirs sample_config.
Proof. intros d [<-|[]]. exists "/Library/Frameworks". split; [reflexivity|right; reflexivity]. Qed.

(** The flags for all compilations are those that the settings ask for, and there is a
    failure if they cannot be had: for another format of debugging information, or for a
    least version of the phone's system without an SDK. *)
Theorem C89_compile : forall m c flags, proper (xcode c) -> plain_dirs c -> (get_cflags m c = Some flags <-> compile_words m c flags).
Proof. exact compile_iff. Qed.
Print Assumptions C89_compile.
Example C89_compile_witness : proper (xcode sample_config) /\ plain_dirs sample_config /\ get_cflags sample_machine sample_config =
  Some ["-isysroot"; "/Xcode/MacOSX.sdk"; "-mpascal-strings"; "-O3"; "-gdwarf-2"; "-fno-strict-aliasing"; "-fvisibility=hidden"; "-mmacosx-version-min=10.15"; "-arch"; "arm64"; "-Wall"; "-Wendif-labels"; "-F/Xcode/MacOSX.sdk/Library/Frameworks"].
Proof. split; [exact sample_proper|]. split; [exact sample_plain|]. vm_compute. reflexivity. Qed.

(** And those for C, C++, Objective-C and Objective-C++. *)
Theorem C89_language : forall m c, proper (xcode c) ->
  (forall flags, get_cflags_c m c = flags <-> c_words (xcode c) flags) /\
  (forall flags, get_cflags_cc m c = flags <-> cxx_words (xcode c) flags) /\
  (forall flags, get_cflags_objc c = flags <-> switched (xcode c) objc_switches flags) /\
  (forall flags, get_cflags_objcc c = flags <-> switched (xcode c) (objc_switches ++ objcc_switches) flags).
Proof. intros m c P. split; [intros f; exact (c_iff m c f P)|]. split; [intros f; exact (cxx_iff m c f P)|]. split; [intros f; exact (objc_iff c f P)|intros f; exact (objcc_iff c f P)]. Qed.
Print Assumptions C89_language.
Example C89_language_witness : get_cflags_c sample_machine sample_config = ["-fno-common"] /\
  get_cflags_cc sample_machine sample_config = ["-std=gnu++17"; "-stdlib=libc++"; "-fno-rtti"; "-fno-exceptions"; "-Wextra"; "-fno-common"] /\ get_cflags_objcc sample_config = ["-fobjc-arc"].
Proof. vm_compute. repeat split. Qed.

(** The file that is made. *)
Theorem C89_product : forall t file, produces t file -> product t = Some file.
Proof. exact produces_product. Qed.
Print Assumptions C89_product.
Example C89_product_witness : produces sample_spec "libkit.dylib" /\
  produces {| target_name := "addon"; type := Loadable_module; product_name := None; product_prefix := None; product_extension := Some "node"; configurations := [] |} "addon.node".
Proof.
  split; (split; [discriminate|]).
  - exists "lib", "kit", ".dylib". split; [reflexivity|]. split; [right; split; reflexivity|]. split; [right; split; [reflexivity|left; split; [discriminate|reflexivity]]|right; split; reflexivity].
  - exists "", "addon", ".node". split; [reflexivity|]. split; [right; split; reflexivity|]. split; [right; split; [reflexivity|right; split; [right; discriminate|reflexivity]]|left; exists "node"; split; reflexivity].
Qed.

(** The flags for the linker. *)
Theorem C89_link : forall m t c dir to_build flags, proper (xcode c) -> plain_dirs c -> link_words m t c dir to_build flags -> get_ldflags m t c dir to_build = Some flags.
Proof. exact link_eq. Qed.
Print Assumptions C89_link.
Lemma sample_agree : forall k v d, In (k, Text v) sample_settings -> agree sample_spec k v d.
Proof.
  intros k v d I. split; [discriminate|]. split; [repeat (apply NoDup_cons; [intros X; cbn in X; repeat (destruct X as [X|X]; [discriminate X|]); exact X|]); apply NoDup_nil|].
  left. intros n c J. cbn [In configurations sample_spec] in J. destruct J as [J|[J|[]]]; injection J as <- <-; (split; [exact (proj1 sample_proper)|exact I]).
Qed.
Lemma sample_link : forall to_build, link_words sample_machine sample_spec sample_config "$(builddir)" to_build
  ["-Wl,-exported_symbols_list," ++ to_build "addon.exp"; "-L" ++ to_build "deps"; "-undefined dynamic_lookup"; "-mmacosx-version-min=10.15"; "-isysroot"; "/Xcode/MacOSX.sdk"; "-arch"; "arm64"; "-L$(builddir)";
   "-install_name"; "@rpath/x/libkit.dylib"; "-Wl,-rpath,@loader_path"; "-F/Xcode/MacOSX.sdk/Library/Frameworks"; "-stdlib=libc++"].
Proof.
  intros to_build. pose proof sample_proper as P. change (xcode sample_config) with sample_settings in *. unfold link_words. cbv zeta.
  exists ["-Wl,-exported_symbols_list,addon.exp"; "-Ldeps"; "-undefined dynamic_lookup"], ["-Wl,-exported_symbols_list," ++ to_build "addon.exp"; "-L" ++ to_build "deps"; "-undefined dynamic_lookup"], [], [], [], ["-mmacosx-version-min=10.15"],
    ["-isysroot"; "/Xcode/MacOSX.sdk"], [], [], ["-arch"; "arm64"], "$(builddir)", ["-install_name"; "@rpath/x/libkit.dylib"], ["@loader_path"], "/Xcode/MacOSX.sdk", ["/Xcode/MacOSX.sdk/Library/Frameworks"], ["-stdlib=libc++"].
  split; [reflexivity|]. split; [apply lists_iff; [exact P|apply is_listed; reflexivity|reflexivity]|]. split.
  { constructor; [|constructor; [|constructor; [|constructor]]].
    - rewrite <- (StrFacts.append_nil_r (to_build "addon.exp")); apply (from_symbols to_build "-Wl," "-exported_symbols_list" "," "addon.exp" ""); [right; reflexivity|left; reflexivity|right; reflexivity| |left; reflexivity].
      split; [discriminate|]. intros a I. cbn [In list_ascii_of_string] in I. repeat (destruct I as [<-|I]; [reflexivity|]). destruct I.
    - apply (from_directory to_build "deps").
    - apply from_other; [|discriminate]. intros w n r W I. cbn [In symbol_lists] in I. destruct W as [->| ->]; repeat (destruct I as [<-|I]; [discriminate|]); destruct I. }
  split; [apply switched_iff; [apply P|vm_compute; reflexivity]|]. split; [apply (worded_iff sample_machine); [exact P|apply not_listed; reflexivity|vm_compute; reflexivity]|]. split; [apply (worded_iff sample_machine); [exact P|apply not_listed; reflexivity|vm_compute; reflexivity]|].
  split; [apply oldest_iff; [exact P|vm_compute; reflexivity]|]. split; [apply (sysroot_iff sample_machine _ (Some "/Xcode/MacOSX.sdk")); [exact P|vm_compute; reflexivity|vm_compute; reflexivity]|]. split; [apply lists_iff; [exact P|apply is_listed; reflexivity|reflexivity]|].
  split; [apply ordering_none; apply lacks_iff; reflexivity|]. split; [apply link_for; [reflexivity|apply built_iff; [exact P|vm_compute; reflexivity]]|]. split; [right; split; [discriminate|reflexivity]|]. split.
  { apply (install_library _ "@rpath/x/libkit.dylib"); [reflexivity| |].
    - apply (installed_dir _ "@rpath/x" "@rpath/x" "libkit.dylib").
      + split; [discriminate|]. split; [apply (sample_agree "SDKROOT" "macosx" ""); left; reflexivity|]. right. split; [|reflexivity]. intros n c J. cbn [In configurations sample_spec] in J. destruct J as [J|[J|[]]]; injection J as <- <-; apply lacks_iff; reflexivity.
      + apply sample_agree. apply assoc_iff; [apply P|reflexivity].
      + exact (tidy_at "rpath" "x" eq_refl).
      + reflexivity.
      + exact (proj1 C89_product_witness).
      + reflexivity.
    - repeat (apply escaped_other; [discriminate|]). apply escaped_nil. }
  split; [apply lists_iff; [exact P|apply is_listed; reflexivity|reflexivity]|]. split; [apply (root_iff sample_machine _ (Some "/Xcode/MacOSX.sdk")); [exact P|vm_compute; reflexivity|reflexivity]|].
  split; [constructor; [apply (in_sdk_below "/Xcode/MacOSX.sdk" "/Library/Frameworks"); reflexivity|constructor]|]. apply (worded_iff sample_machine); [exact P|apply not_listed; reflexivity|vm_compute; reflexivity].
Qed.
Example C89_link_witness : link_words sample_machine sample_spec sample_config "$(builddir)" (append "$(srcdir)/")
  ["-Wl,-exported_symbols_list,$(srcdir)/addon.exp"; "-L$(srcdir)/deps"; "-undefined dynamic_lookup"; "-mmacosx-version-min=10.15"; "-isysroot"; "/Xcode/MacOSX.sdk"; "-arch"; "arm64"; "-L$(builddir)";
   "-install_name"; "@rpath/x/libkit.dylib"; "-Wl,-rpath,@loader_path"; "-F/Xcode/MacOSX.sdk/Library/Frameworks"; "-stdlib=libc++"].
Proof. exact (sample_link (append "$(srcdir)/")). Qed.

(** The libraries. *)
Theorem C89_libraries : forall m t root ls rs, common_root m t root -> Forall2 (linked_as m root) ls rs -> adjust_libraries m t ls = Some rs.
Proof. exact libraries_eq. Qed.
Print Assumptions C89_libraries.
Example C89_libraries_witness : common_root sample_machine sample_spec "/Xcode/MacOSX.sdk" /\
  Forall2 (linked_as sample_machine "/Xcode/MacOSX.sdk") ["$(SDKROOT)/System/Cocoa.framework"; "libcrypto.dylib"; "$(SDKROOT)/usr/lib/libz.dylib"; "$(SDKROOT)/usr/lib/libx.dylib"; "-lpthread"; "deps/libuv.a"]
    ["-framework Cocoa"; "-lcrypto"; "/Xcode/MacOSX.sdk/usr/lib/libz.tbd"; "/Xcode/MacOSX.sdk/usr/lib/libx.dylib"; "-lpthread"; "deps/libuv.a"].
Proof.
  assert (NF : forall s, ends_with ".framework" s = false -> forall q, s <> q ++ ".framework") by (intros s E q ->; rewrite Proof_Parts.ends_app in E; discriminate E).
  assert (ND : forall s, only_dots s = false -> ~ dots_only s) by (intros s E X; apply dots_iff in X; congruence).
  split; [exists "macosx"; split; [apply sample_agree; left; reflexivity|right; split; [discriminate|left; reflexivity]]|].
  constructor; [apply (linked_framework _ _ "$(SDKROOT)/System/" "Cocoa"); [right; exists "$(SDKROOT)/System"; reflexivity|reflexivity|reflexivity|apply ND; reflexivity]|].
  constructor; [apply (linked_library _ _ "crypto" ".dylib"); [discriminate|reflexivity|reflexivity|right; reflexivity]|].
  constructor; [apply (linked_stub sample_machine "/Xcode/MacOSX.sdk" "/usr/lib/" "libz"); [right; exists "/usr/lib"; reflexivity|reflexivity|reflexivity|apply ND; reflexivity|discriminate|reflexivity|reflexivity]|].
  constructor; [apply (linked_sdk sample_machine "/Xcode/MacOSX.sdk" "/usr/lib/libx.dylib"); [reflexivity|apply NF; reflexivity|]|].
  - intros q E. right. assert (q = "/Xcode/MacOSX.sdk/usr/lib/libx") by (apply (f_equal (rsplit1 ".")) in E; assert (X : rsplit1 "." (q ++ ".dylib") = Some (q, "dylib")) by (apply StrFacts.rsplit1_Some; split; reflexivity); rewrite X in E; vm_compute in E; injection E as E; symmetry; exact E). subst q. reflexivity.
  - constructor; [apply linked_plain; [reflexivity|apply NF; reflexivity|intros (n & _ & _ & [X|X]); discriminate X]|]. constructor; [|constructor]. apply linked_plain; [reflexivity|apply NF; reflexivity|]. intros (n & _ & _ & [X|X]); discriminate X.
Qed.

(** Keys for some SDKs only count for nothing, unless the configuration is one for
    phones. *)
Theorem C89_conditional : forall name s k v, (forall a, name <> a ++ "iphoneos") -> (In (k, v) (convert name s) <-> In (k, v) s /\ ~ conditional k).
Proof.
  intros name s k v N. rewrite (convert_plain name s N), filter_In. cbn [fst]. rewrite negb_true_iff. split; intros (A & B); (split; [exact A|]).
  - intros C. apply conditional_iff in C. congruence.
  - destruct (ends_with "]" k) eqn:E; [apply conditional_iff in E; contradiction|reflexivity].
Qed.
Print Assumptions C89_conditional.
Example C89_conditional_witness : convert "Release" [("ARCHS", Items ["arm64"]); ("OTHER_CFLAGS[arch=arm64]", Items ["-O3"])] = [("ARCHS", Items ["arm64"])].
Proof. vm_compute. reflexivity. Qed.

(** OTHER_CFLAGS, WARNING_CFLAGS, OTHER_LDFLAGS and the like may be given as a string, as
    they can be in Xcode, but then each letter becomes a flag of its own: [cflags += "-O3"]
    and [for ldflag in "-O3"] go through the letters (xcode_emulation.py:683, 707, 745,
    912). *)
Theorem C89_string_refuted : exists m c, In ("OTHER_CFLAGS", Text "-O3") (xcode c) /\ get_cflags_c m c = ["-"; "O"; "3"].
Proof. exists sample_machine, {| xcode := [("OTHER_CFLAGS", Text "-O3")]; framework_dirs := []; arch := None |}. split; [left; reflexivity|vm_compute; reflexivity]. Qed.
Print Assumptions C89_string_refuted.
(** Two architectures in ARCHS, for a universal binary, do not give two -arch flags, nor an
    error: everything is built for i386, which is in none of them, with just a warning on
    the console (xcode_emulation.py:664-667, 945-948). *)
Theorem C89_archs_refuted : exists m c flags, In ("ARCHS", Items ["arm64"; "x86_64"]) (xcode c) /\ get_cflags m c = Some flags /\ In "i386" flags /\ ~ In "arm64" flags /\ ~ In "x86_64" flags.
Proof.
  exists sample_machine, {| xcode := [("ARCHS", Items ["arm64"; "x86_64"])]; framework_dirs := []; arch := None |}. eexists. split; [left; reflexivity|]. split; [vm_compute; reflexivity|].
  split; [cbn [In]; repeat (first [left; reflexivity|right])|]. split; intros X; cbn [In] in X; repeat (destruct X as [X|X]; [discriminate X|]); exact X.
Qed.
Print Assumptions C89_archs_refuted.
(** The same happens to one architecture that is given as a string: ARCHS of "arm64" is
    taken for the five architectures "a", "r", "m", "6" and "4", so the target is built for
    i386 (xcode_emulation.py:68, 664-667). *)
Theorem C89_arch_string_refuted : exists m c flags, In ("ARCHS", Text "arm64") (xcode c) /\ get_cflags m c = Some flags /\ In "i386" flags /\ ~ In "arm64" flags.
Proof.
  exists sample_machine, {| xcode := [("ARCHS", Text "arm64")]; framework_dirs := []; arch := None |}. eexists. split; [left; reflexivity|]. split; [vm_compute; reflexivity|].
  split; [cbn [In]; repeat (first [left; reflexivity|right])|]. intros X; cbn [In] in X; repeat (destruct X as [X|X]; [discriminate X|]); exact X.
Qed.
Print Assumptions C89_arch_string_refuted.
(** GetPerTargetSettings is to "only fetch keys whose values are the same across all
    configurations", but a key that the first configuration has and another one lacks is
    kept: only the keys of the others are compared (xcode_emulation.py:1029-1033).  So the
    actions of a release build may run with a setting of the debug build in their
    environment. *)
Theorem C89_per_target_refuted : exists t k v c, In ("Release", c) (configurations t) /\ lacks (xcode c) k /\ In (k, v) (per_target_settings t).
Proof.
  exists {| target_name := "a"; type := Executable; product_name := None; product_prefix := None; product_extension := None;
    configurations := [("Debug", {| xcode := [("GCC_OPTIMIZATION_LEVEL", Text "0")]; framework_dirs := []; arch := None |}); ("Release", {| xcode := []; framework_dirs := []; arch := None |})] |}, "GCC_OPTIMIZATION_LEVEL", (Text "0"), {| xcode := []; framework_dirs := []; arch := None |}.
  split; [right; left; reflexivity|]. split; [intros []|vm_compute; left; reflexivity].
Qed.
Print Assumptions C89_per_target_refuted.
(** A file that is an item of its own in OTHER_LDFLAGS is not found by the linker, which
    runs in another directory: of "-exported_symbols_list", "addon.exp" the second is
    passed on as it is, as only the items "-exported_symbols_list addon.exp" and
    "-Wl,-exported_symbols_list,addon.exp" are recognized (xcode_emulation.py:876-890). *)
Theorem C89_separate_refuted : forall to_build, map (map_linker_flag to_build) ["-exported_symbols_list"; "addon.exp"] = ["-exported_symbols_list"; "addon.exp"].
Proof. intros tb. reflexivity. Qed.
Print Assumptions C89_separate_refuted.
(** Of -sectcreate and more than three words behind it, the last one is taken for the
    file, even if that is in the next flag: the first of the three words takes as many
    commas as it can (xcode_emulation.py:880-890).  In the flag below Info.plist is
    left as it is and b.exp is seen as a file though it belongs to another flag. *)
Theorem C89_section_refuted : exists a b, forall to_build,
  map_linker_flag to_build (a ++ "Info.plist" ++ b ++ "b.exp") = a ++ "Info.plist" ++ b ++ to_build "b.exp" /\ a = "-Wl,-sectcreate,__TEXT,__info_plist," /\ b = ",-order_file,".
Proof.
  exists "-Wl,-sectcreate,__TEXT,__info_plist,", ",-order_file,". intros tb. split; [|split; reflexivity].
  assert (E : match_flag "-sectcreate" 2 ("-Wl,-sectcreate,__TEXT,__info_plist," ++ "Info.plist" ++ ",-order_file," ++ "b.exp") = Some ("-Wl,-sectcreate,__TEXT,__info_plist,Info.plist,-order_file,", "b.exp", "")) by (vm_compute; reflexivity).
  assert (M : forall n, In n symbol_lists -> step tb ("-Wl,-sectcreate,__TEXT,__info_plist," ++ "Info.plist" ++ ",-order_file," ++ "b.exp") (n, 0) = "-Wl,-sectcreate,__TEXT,__info_plist," ++ "Info.plist" ++ ",-order_file," ++ "b.exp").
  { intros n I. unfold step. cbn [fst snd]. cbn [In symbol_lists] in I. destruct I as [<-|[<-|[<-|[]]]]; reflexivity. }
  rewrite map_flag_eq. unfold file_flags. cbn [fold_left]. rewrite !M by (cbn [In symbol_lists]; tauto). unfold step. cbn [fst snd]. rewrite E. rewrite StrFacts.append_nil_r. reflexivity.
Qed.
Print Assumptions C89_section_refuted.
(** Configurations with different SDKs cannot be generated if the target has libraries:
    AdjustLibraries asks for the SDK of the target and not for that of a configuration, so
    there is an AssertionError (xcode_emulation.py:1258, 1051-1055, make.py:1754). *)
Theorem C89_sdks_refuted : exists m t, (forall n c, In (n, c) (configurations t) -> proper (xcode c) /\ exists p, sdk_at m (xcode c) (Some p)) /\ adjust_libraries m t ["-lz"] = None.
Proof.
  exists sample_machine, {| target_name := "a"; type := Executable; product_name := None; product_prefix := None; product_extension := None;
    configurations := [("Debug", {| xcode := [("SDKROOT", Text "macosx")]; framework_dirs := []; arch := None |}); ("Release", {| xcode := [("SDKROOT", Text "/sdk")]; framework_dirs := []; arch := None |})] |}.
  split; [|vm_compute; reflexivity]. intros n c I.
  assert (P : forall x, proper [("SDKROOT", Text x)]) by (intros x; split; [apply NoDup_cons; [intros []|apply NoDup_nil]|]; intros k v [J|[]]; injection J as <- <-; right; split; [apply not_listed; reflexivity|eexists; reflexivity]).
  cbn [In configurations] in I. destruct I as [I|[I|[]]]; injection I as <- <-; (split; [apply P|]); cbn [xcode].
  - exists "/Xcode/MacOSX.sdk". apply sdk_iff; [apply P|reflexivity].
  - exists "/sdk". apply sdk_iff; [apply P|reflexivity].
Qed.
Print Assumptions C89_sdks_refuted.
