(** C96: what compilers and linkers are given on macOS. *)
From Verif Require Import Lib Str LibFacts Model_Path Spec_Quote Model_Writer Model_Flags Spec_Flags Proof_Flags3 Model_FlagsMac Spec_FlagsMac Proof_FlagsMac4.
From Verif Require Model_Xcode Spec_Xcode Proof_Xcode Props_Xcode.
Local Open Scope string_scope.

(** A library with C, C++ and Objective-C sources for two configurations, and a
    program. *)
Definition sample_target (name : string) (k : kind) (srcs : list string) : target :=
  {| qualified := "binding.gyp:" ++ name ++ "#target"; target_name := name; type := k; toolset := "target"; path := ""; dependencies := []; sources := srcs; actions := []; rules := []; copies := [];
     product_prefix := None; product_name := None; product_extension := None; product_dir := None; standalone := false |}.
Definition own (ds : list string) : settings := {| own_defines := ds; own_include_dirs := ["include"]; own_library_dirs := ["/opt/lib"]; xcode_config := Props_Xcode.sample_config |}.
Definition kit : project :=
  {| project_target := sample_target "libkit" Shared_library ["a.cc"; "b.c"; "c.mm"; "d.m"]; settings_of := [("Release", own ["NDEBUG"; "NAME=""it's"""]); ("Debug", own ["DEBUG"])];
     project_libraries := ["$(SDKROOT)/System/Cocoa.framework"; "libcrypto.dylib"; "libcrypto.dylib"] |}.
Definition tool : project := {| project_target := sample_target "tool" Executable ["main.c"]; settings_of := [("Release", own []); ("Debug", own ["DEBUG"])]; project_libraries := ["libcrypto.dylib"] |}.
Definition header : variables :=
  [("BUILDTYPE", Some "Release"); ("srcdir", Some ".."); ("obj", Some "Release/obj"); ("builddir", Some "./Release"); ("CC.target", Some "ccache clang"); ("CFLAGS.target", Some "-pipe"); ("CXX.target", Some "clang++"); ("CXXFLAGS.target", Some "-g");
   ("LINK.target", Some "clang++"); ("LDFLAGS.target", Some "-s")].
Lemma sample_define : forall s, has_char "#" s = false -> has_char "010" s = false -> plain_define s.
Proof. intros s H N. split; [exact N|]. intros a b E. assert (X : has_char "#" ("-D" ++ s) = true) by (rewrite E, !StrFacts.has_char_app; apply orb_true_iff; right; reflexivity). cbn in X. congruence. Qed.
Ltac safe_now := split; [discriminate|vm_compute; reflexivity].
Ltac give_one := first [apply gives_itself; left; safe_now].

(** C96.  Each object is compiled by the compiler for its target's toolset with, and
    only with, the defines and include directories of its target and the flags that
    xcode_settings ask for in the configuration that is built; C, C++, Objective-C and
    Objective-C++ sources with the flags for their language; each flag is given as the
    words it consists of.  Whatever targets were written before or after, as long as
    none of those after makes the same file. *)
Theorem C96_compile : forall m vars before p after ls b s flags fc fcc fo foo wf wc wcc wo woo incs f out src dep depw ts,
  all_lines m (before ++ p :: after)%list = Some ls -> lookup_in vars "BUILDTYPE" = Some b -> assoc b (settings_of p) = Some s -> set_apart b (map fst (settings_of p)) ->
  ts = toolset (project_target p) -> In ts ["target"; "host"] ->
  Spec_Xcode.proper (Model_Xcode.xcode (xcode_config s)) -> Spec_Xcode.plain_dirs (xcode_config s) ->
  Forall plain_define (own_defines s) -> Forall2 (include_at (lookup_in vars) (project_target p)) (own_include_dirs s) incs ->
  Spec_Xcode.compile_words m (xcode_config s) flags -> all_give (lookup_in vars) flags wf ->
  Spec_Xcode.c_words (Model_Xcode.xcode (xcode_config s)) fc -> all_give (lookup_in vars) fc wc ->
  Spec_Xcode.cxx_words (Model_Xcode.xcode (xcode_config s)) fcc -> all_give (lookup_in vars) fcc wcc ->
  Spec_Xcode.switched (Model_Xcode.xcode (xcode_config s)) Spec_Xcode.objc_switches fo -> all_give (lookup_in vars) fo wo ->
  Spec_Xcode.switched (Model_Xcode.xcode (xcode_config s)) (Spec_Xcode.objc_switches ++ Spec_Xcode.objcc_switches) foo -> all_give (lookup_in vars) foo woo ->
  In f (objects (project_target p)) -> (forall q, In q after -> ~ In f (objects (project_target q)) /\ (type (project_target q) = None_ \/ output_binary q <> Some f)) ->
  safe out -> safe src -> sh_arguments dep = Some depw ->
  let common := (map (append "-D") (own_defines s) ++ map (append "-I") incs ++ wf)%list in
  let run := command_words (read_lines (vars, []) ls) f [("@", out); ("<", src); ("DEPFLAGS", dep)] in
  (forall cc ccw ex exw, lookup_in vars ("CC." ++ ts) = Some cc -> sh_arguments cc = Some ccw -> lookup_in vars ("CFLAGS." ++ ts) = Some ex -> sh_arguments ex = Some exw ->
    run cmd_cc = Some (ccw ++ map literal (["-o"; out; src] ++ common ++ wc) ++ depw ++ exw ++ [literal "-c"])%list) /\
  (forall cc ccw ex exw, lookup_in vars ("CXX." ++ ts) = Some cc -> sh_arguments cc = Some ccw -> lookup_in vars ("CXXFLAGS." ++ ts) = Some ex -> sh_arguments ex = Some exw ->
    run cmd_cxx = Some (ccw ++ map literal (["-o"; out; src] ++ common ++ wcc) ++ depw ++ exw ++ [literal "-c"])%list) /\
  (forall cc ccw, lookup_in vars ("CC." ++ ts) = Some cc -> sh_arguments cc = Some ccw -> run cmd_objc = Some (ccw ++ map literal (common ++ wc ++ wo) ++ depw ++ map literal ["-c"; "-o"; out; src])%list) /\
  (forall cc ccw, lookup_in vars ("CXX." ++ ts) = Some cc -> sh_arguments cc = Some ccw -> run cmd_objcxx = Some (ccw ++ map literal (common ++ wcc ++ woo) ++ depw ++ map literal ["-c"; "-o"; out; src])%list).
Proof. exact compiled_mac. Qed.
Print Assumptions C96_compile.
Example C96_compile_witness : exists ls, all_lines Props_Xcode.sample_machine [kit; tool] = Some ls /\ set_apart "Release" (map fst (settings_of kit)) /\ Forall plain_define (own_defines (own ["NDEBUG"; "NAME=""it's"""])) /\
  Forall2 (include_at (lookup_in header) (project_target kit)) ["include"] ["../include"] /\
  all_give (lookup_in header) ["-isysroot"; "/Xcode/MacOSX.sdk"; "-mpascal-strings"; "-O3"] ["-isysroot"; "/Xcode/MacOSX.sdk"; "-mpascal-strings"; "-O3"] /\
  In "$(obj).target/libkit/c.o" (objects (project_target kit)) /\ (~ In "$(obj).target/libkit/c.o" (objects (project_target tool)) /\ output_binary tool <> Some "$(obj).target/libkit/c.o") /\
  command_words (read_lines (header, []) ls) "$(obj).target/libkit/b.o" [("@", "b.o"); ("<", "../b.c"); ("DEPFLAGS", "-MMD")] cmd_cc =
  Some (map literal ["ccache"; "clang"; "-o"; "b.o"; "../b.c"; "-DNDEBUG"; "-DNAME=""it's"""; "-I../include"; "-isysroot"; "/Xcode/MacOSX.sdk"; "-mpascal-strings"; "-O3"; "-gdwarf-2"; "-fno-strict-aliasing"; "-fvisibility=hidden"; "-mmacosx-version-min=10.15";
    "-arch"; "arm64"; "-Wall"; "-Wendif-labels"; "-F/Xcode/MacOSX.sdk/Library/Frameworks"; "-fno-common"; "-MMD"; "-pipe"; "-c"]) /\
  command_words (read_lines (header, []) ls) "$(obj).target/libkit/c.o" [("@", "c.o"); ("<", "../c.mm"); ("DEPFLAGS", "-MMD")] cmd_objcxx =
  Some (map literal ["clang++"; "-DNDEBUG"; "-DNAME=""it's"""; "-I../include"; "-isysroot"; "/Xcode/MacOSX.sdk"; "-mpascal-strings"; "-O3"; "-gdwarf-2"; "-fno-strict-aliasing"; "-fvisibility=hidden"; "-mmacosx-version-min=10.15";
    "-arch"; "arm64"; "-Wall"; "-Wendif-labels"; "-F/Xcode/MacOSX.sdk/Library/Frameworks"; "-std=gnu++17"; "-stdlib=libc++"; "-fno-rtti"; "-fno-exceptions"; "-Wextra"; "-fno-common"; "-fobjc-arc"; "-MMD"; "-c"; "-o"; "c.o"; "../c.mm"]).
Proof.
  destruct (all_lines Props_Xcode.sample_machine [kit; tool]) as [ls|] eqn:E; [|vm_compute in E; discriminate E]. exists ls. split; [reflexivity|].
  split; [intros n p [<-|[<-|[]]] I; cbn [In] in I; decompose [or] I; subst; try contradiction; split; discriminate|]. split; [apply Forall_cons; [apply sample_define; reflexivity|apply Forall_cons; [apply sample_define; reflexivity|apply Forall_nil]]|]. split.
  { apply Forall2_cons; [|apply Forall2_nil]. replace "../include" with (".." ++ "/" ++ normpath (path_join (path (project_target kit)) "include")) by (vm_compute; reflexivity).
    apply include_tree; [safe_now|right; reflexivity|vm_compute; reflexivity|vm_compute; reflexivity|safe_now]. }
  split; [exists [["-isysroot"]; ["/Xcode/MacOSX.sdk"]; ["-mpascal-strings"]; ["-O3"]]; split; [|reflexivity]; repeat (apply Forall2_cons; [give_one|]); apply Forall2_nil|].
  split; [vm_compute; auto|]. split; [split; [vm_compute; intros X; decompose [or] X; try contradiction; discriminate|vm_compute; discriminate]|].
  vm_compute in E. injection E as <-. split; vm_compute; reflexivity.
Qed.

(** There is an object for each C, C++, Objective-C, Objective-C++ and assembly source, and
    no other. *)
Theorem C96_objects : forall t f, In f (objects t) <-> exists s e, In s (sources t ++ extra_sources t)%list /\ In e [".c"; ".cc"; ".cpp"; ".cxx"; ".s"; ".S"; ".m"; ".mm"] /\ (exists a, s = a ++ e) /\ f = object_of t s.
Proof. exact objects_iff. Qed.
Print Assumptions C96_objects.
(** What is made of a target is in its product_dir; without one, programs and everything
    for the target toolset are in the build directory, other libraries are with the objects. *)
Theorem C96_binary : forall p b, type (project_target p) <> None_ -> Model_Xcode.product (spec_of p) = Some b ->
  output_binary p = Some (expand (project_target p) (path_join (match product_dir (project_target p) with Some d => d | None => if orb (match type (project_target p) with Executable => true | _ => false end) (String.eqb (toolset (project_target p)) "target") then "$(builddir)" else path_join ("$(obj)." ++ toolset (project_target p)) (path (project_target p)) end) b)).
Proof. exact binary_at. Qed.
Print Assumptions C96_binary.
Example C96_binary_witness : type (project_target kit) <> None_ /\ Model_Xcode.product (spec_of kit) = Some "libkit.dylib" /\ output_binary kit = Some "$(builddir)/libkit.dylib" /\
  In (object_of (project_target kit) (hd "" (sources (project_target kit)))) (objects (project_target kit)).
Proof. split; [discriminate|]. split; [vm_compute; reflexivity|]. split; [vm_compute; reflexivity|]. vm_compute. left. reflexivity. Qed.

(** Each target is linked by the linker for its toolset, a static library by libtool,
    with the flags that xcode_settings ask for, the directories of its library_dirs and
    its libraries, each once. *)
Theorem C96_link : forall m vars before p after ls b s flags lf given root named wl wt libs f out inputs inw ld ldw more morew text words ts,
  all_lines m (before ++ p :: after)%list = Some ls -> lookup_in vars "BUILDTYPE" = Some b -> assoc b (settings_of p) = Some s ->
  ts = toolset (project_target p) -> In ts ["target"; "host"] -> output_binary p = Some f ->
  Spec_Xcode.proper (Model_Xcode.xcode (xcode_config s)) -> Spec_Xcode.plain_dirs (xcode_config s) ->
  Spec_Xcode.link_words m (spec_of p) (xcode_config s) "$(builddir)" (fun g => sourceify (absolutify (project_target p) g)) flags -> all_give (lookup_in vars) (flags ++ map (append "-L") (own_library_dirs s)) wl ->
  Spec_Xcode.lists (Model_Xcode.xcode (xcode_config s)) "OTHER_LDFLAGS" lf -> all_give (lookup_in vars) lf wt ->
  once_each [] (project_libraries p) given -> Spec_Xcode.common_root m (spec_of p) root -> Forall2 (Spec_Xcode.linked_as m root) given named -> all_give (lookup_in vars) named libs ->
  (forall q, In q after -> ~ In f (objects (project_target q)) /\ (type (project_target q) = None_ \/ output_binary q <> Some f)) ->
  safe out -> sh_arguments inputs = Some inw -> lookup_in vars ("LINK." ++ ts) = Some ld -> sh_arguments ld = Some ldw -> lookup_in vars ("LDFLAGS." ++ ts) = Some more -> sh_arguments more = Some morew ->
  link_command (type (project_target p)) = Some text -> mac_link_words (type (project_target p)) ldw morew inw out wl wt libs = Some words ->
  command_words (read_lines (vars, []) ls) f [("@", out); ("LD_INPUTS", inputs); ("INPUTS", inputs)] text = Some words.
Proof. exact linked_project. Qed.
Print Assumptions C96_link.
Example C96_link_witness : exists ls, all_lines Props_Xcode.sample_machine [kit; tool] = Some ls /\ output_binary kit = Some "$(builddir)/libkit.dylib" /\
  Spec_Xcode.link_words Props_Xcode.sample_machine (spec_of kit) Props_Xcode.sample_config "$(builddir)" (fun g => sourceify (absolutify (project_target kit) g))
    ["-Wl,-exported_symbols_list,$(srcdir)/addon.exp"; "-L$(srcdir)/deps"; "-undefined dynamic_lookup"; "-mmacosx-version-min=10.15"; "-isysroot"; "/Xcode/MacOSX.sdk"; "-arch"; "arm64"; "-L$(builddir)";
     "-install_name"; "@rpath/x/libkit.dylib"; "-Wl,-rpath,@loader_path"; "-F/Xcode/MacOSX.sdk/Library/Frameworks"; "-stdlib=libc++"] /\
  all_give (lookup_in header) ["-Wl,-exported_symbols_list,$(srcdir)/addon.exp"; "-undefined dynamic_lookup"; "-L$(builddir)"; "-L/opt/lib"] ["-Wl,-exported_symbols_list,../addon.exp"; "-undefined"; "dynamic_lookup"; "-L./Release"; "-L/opt/lib"] /\
  once_each [] (project_libraries kit) ["$(SDKROOT)/System/Cocoa.framework"; "libcrypto.dylib"] /\ Spec_Xcode.common_root Props_Xcode.sample_machine (spec_of kit) "/Xcode/MacOSX.sdk" /\
  all_give (lookup_in header) ["-framework Cocoa"; "-lcrypto"] ["-framework"; "Cocoa"; "-lcrypto"] /\
  command_words (read_lines (header, []) ls) "$(builddir)/libkit.dylib" [("@", "libkit.dylib"); ("LD_INPUTS", "a.o b.o"); ("INPUTS", "a.o b.o")] cmd_solink =
  Some (map literal ["clang++"; "-shared"; "-Wl,-exported_symbols_list,../addon.exp"; "-L../deps"; "-undefined"; "dynamic_lookup"; "-mmacosx-version-min=10.15"; "-isysroot"; "/Xcode/MacOSX.sdk"; "-arch"; "arm64"; "-L./Release";
     "-install_name"; "@rpath/x/libkit.dylib"; "-Wl,-rpath,@loader_path"; "-F/Xcode/MacOSX.sdk/Library/Frameworks"; "-stdlib=libc++"; "-L/opt/lib"; "-s"; "-o"; "libkit.dylib"; "a.o"; "b.o"; "-framework"; "Cocoa"; "-lcrypto"]).
Proof.
  destruct (all_lines Props_Xcode.sample_machine [kit; tool]) as [ls|] eqn:E; [|vm_compute in E; discriminate E]. exists ls. split; [reflexivity|]. split; [vm_compute; reflexivity|].
  split; [exact (Props_Xcode.sample_link (fun g => sourceify (absolutify (project_target kit) g)))|]. split.
  { exists [["-Wl,-exported_symbols_list,../addon.exp"]; ["-undefined"; "dynamic_lookup"]; ["-L./Release"]; ["-L/opt/lib"]]. split; [|reflexivity].
    apply Forall2_cons; [refine (gives_place (lookup_in header) "-Wl,-exported_symbols_list," "srcdir" ".." "/addon.exp" _ _ _ _ _); [safe_now|cbn [In]; auto|reflexivity|safe_now|right; safe_now]|].
    apply Forall2_cons; [refine (gives_words (lookup_in header) "-undefined" ["dynamic_lookup"] _); apply Forall_cons; [safe_now|apply Forall_cons; [safe_now|apply Forall_nil]]|].
    apply Forall2_cons; [refine (gives_place (lookup_in header) "-L" "builddir" "./Release" "" _ _ _ _ _); [safe_now|cbn [In]; auto|reflexivity|safe_now|left; reflexivity]|].
    apply Forall2_cons; [give_one|apply Forall2_nil]. }
  split; [cbn [project_libraries kit]; repeat first [apply once_nil | apply once_again; [cbn [In]; solve [auto]|] | apply once_first; [cbn [In]; intros X; decompose [or] X; try contradiction; discriminate|]]|].
  split; [exact (proj1 Props_Xcode.C89_libraries_witness)|]. split.
  { exists [["-framework"; "Cocoa"]; ["-lcrypto"]]. split; [|reflexivity]. apply Forall2_cons; [refine (gives_words (lookup_in header) "-framework" ["Cocoa"] _); apply Forall_cons; [safe_now|apply Forall_cons; [safe_now|apply Forall_nil]]|]. apply Forall2_cons; [give_one|apply Forall2_nil]. }
  vm_compute in E. injection E as <-. vm_compute. reflexivity.
Qed.

(** What the user sets in CFLAGS (or CXXFLAGS) for a toolset is given to the compiler for
    C and C++ sources, but not for Objective-C and Objective-C++ sources: the commands for
    these name neither (make.py:592-596). *)
Theorem C96_objc_refuted : exists m vars ps ls f words,
  all_lines m ps = Some ls /\ lookup_in vars "CFLAGS.target" = Some "-pipe" /\ command_words (read_lines (vars, []) ls) f [("@", "d.o"); ("<", "../d.m"); ("DEPFLAGS", "-MMD")] cmd_objc = Some words /\ ~ In (literal "-pipe") words.
Proof.
  exists Props_Xcode.sample_machine, header, [kit]. destruct (all_lines Props_Xcode.sample_machine [kit]) as [ls|] eqn:E; [|vm_compute in E; discriminate E]. exists ls, "$(obj).target/libkit/d.o".
  destruct (command_words (read_lines (header, []) ls) "$(obj).target/libkit/d.o" [("@", "d.o"); ("<", "../d.m"); ("DEPFLAGS", "-MMD")] cmd_objc) as [w|] eqn:W.
  - exists w. split; [reflexivity|]. split; [reflexivity|]. split; [exact W || reflexivity|]. vm_compute in E. injection E as <-. vm_compute in W. injection W as <-. vm_compute. intros H. decompose [or] H; try discriminate; contradiction.
  - vm_compute in E. injection E as <-. vm_compute in W. discriminate W.
Qed.
Print Assumptions C96_objc_refuted.
