(** C81: what compilers and linkers are given. *)
From Verif Require Import Lib Str LibFacts Model_Path Spec_Quote Model_Writer Model_Flags Spec_Flags Proof_Flags6 Proof_Flags7.
Local Open Scope string_scope.

(** An addon and a library it is linked with, for two configurations. *)
Definition sample_target (name : string) (k : kind) (dir : string) (srcs : list string) : target :=
  {| qualified := "binding.gyp:" ++ name ++ "#target"; target_name := name; type := k; toolset := "target"; path := dir; dependencies := []; sources := srcs; actions := []; rules := []; copies := [];
     product_prefix := None; product_name := None; product_extension := None; product_dir := None; standalone := false |}.
Definition release : config :=
  {| defines := ["NAME=""it's $5"""; "V8"]; include_dirs := ["include"; "../deps"; "/usr/include/x"; "$(obj)/gen"]; cflags := ["-O3"; "-DTEXT=""a b"""]; cflags_c := ["-std=c99"]; cflags_cc := ["-std=gnu++17"];
     ldflags := ["-rdynamic"]; library_dirs := ["/opt/lib"] |}.
Definition debug : config := {| defines := ["DEBUG"]; include_dirs := []; cflags := ["-O0"]; cflags_c := []; cflags_cc := []; ldflags := []; library_dirs := [] |}.
Definition addon_target : built :=
  {| target_of := sample_target "addon" Loadable_module "sub" ["src/a.cc"; "src/b.c"]; configs := [("Release", release); ("Debug", debug)]; libraries := ["-lz"; "-lm"; "-lz"]; deps_of := ["$(obj).target/sub/libkit.so.1"] |}.
Definition kit_target : built :=
  {| target_of := sample_target "kit" Static_library "sub" ["kit.c"]; configs := [("Debug", debug); ("Release", debug)]; libraries := []; deps_of := [] |}.
Definition header : variables :=
  [("BUILDTYPE", Some "Release"); ("srcdir", Some ".."); ("obj", Some "Release/obj"); ("builddir", Some "./Release"); ("CC.target", Some "ccache gcc"); ("CFLAGS.target", Some ""); ("CXX.target", Some "g++"); ("CXXFLAGS.target", Some "-g");
   ("LINK.target", Some "g++"); ("LDFLAGS.target", Some "-s")].

(** C81.  Each object is compiled by the compiler for its target's toolset with, and
    only with, the defines, include directories and flags its target has for the
    configuration that is built, each as one argument and as it is written; C sources
    with the flags for C, C++ sources with those for C++.  Whatever targets were
    written before or after, as long as none of those after makes the same file. *)
Theorem C81_compile : forall vars before t after b c incs f out src dep depw,
  lookup_in vars "BUILDTYPE" = Some b -> assoc b (configs t) = Some c -> names_apart b (map fst (configs t)) -> In (toolset (target_of t)) ["target"; "host"] ->
  Forall plain_define (defines c) -> Forall2 (include_at (lookup_in vars) (target_of t)) (include_dirs c) incs ->
  Forall plain_flag (cflags c) -> Forall plain_flag (cflags_c c) -> Forall plain_flag (cflags_cc c) ->
  In f (objects (target_of t)) -> (forall u, In u after -> ~ In f (objects (target_of u)) /\ (type (target_of u) = None_ \/ f <> binary (target_of u))) ->
  safe out -> safe src -> sh_arguments dep = Some depw ->
  (forall cc ccw ex exw, lookup_in vars ("CC." ++ toolset (target_of t)) = Some cc -> sh_arguments cc = Some ccw -> lookup_in vars ("CFLAGS." ++ toolset (target_of t)) = Some ex -> sh_arguments ex = Some exw ->
    command_words (read_lines (vars, []) (all_lines (before ++ t :: after))) f [("@", out); ("<", src); ("DEPFLAGS", dep)] cmd_cc =
    Some (ccw ++ map literal (["-o"; out; src] ++ map (append "-D") (defines c) ++ map (append "-I") incs ++ cflags c ++ cflags_c c) ++ depw ++ exw ++ [literal "-c"])%list) /\
  (forall cc ccw ex exw, lookup_in vars ("CXX." ++ toolset (target_of t)) = Some cc -> sh_arguments cc = Some ccw -> lookup_in vars ("CXXFLAGS." ++ toolset (target_of t)) = Some ex -> sh_arguments ex = Some exw ->
    command_words (read_lines (vars, []) (all_lines (before ++ t :: after))) f [("@", out); ("<", src); ("DEPFLAGS", dep)] cmd_cxx =
    Some (ccw ++ map literal (["-o"; out; src] ++ map (append "-D") (defines c) ++ map (append "-I") incs ++ cflags c ++ cflags_cc c) ++ depw ++ exw ++ [literal "-c"])%list).
Proof. exact compiled_with. Qed.
Print Assumptions C81_compile.
Example C81_compile_witness : names_apart "Release" (map fst (configs addon_target)) /\ Forall plain_define (defines release) /\
  Forall2 (include_at (lookup_in header) (target_of addon_target)) (include_dirs release) ["../sub/include"; "../deps"; "/usr/include/x"; "Release/obj/gen"] /\ Forall plain_flag (cflags release) /\
  In "$(obj).target/addon/sub/src/a.o" (objects (target_of addon_target)) /\
  command_words (read_lines (header, []) (all_lines [kit_target; addon_target])) "$(obj).target/addon/sub/src/b.o" [("@", "b.o"); ("<", "../sub/src/b.c"); ("DEPFLAGS", "-MMD")] cmd_cc =
  Some (map literal ["ccache"; "gcc"; "-o"; "b.o"; "../sub/src/b.c"; "-DNAME=""it's $5"""; "-DV8"; "-I../sub/include"; "-I../deps"; "-I/usr/include/x"; "-IRelease/obj/gen"; "-O3"; "-DTEXT=""a b"""; "-std=c99"; "-MMD"; "-c"]).
Proof.
  split; [intros n p [<-|[<-|[]]] [<-|[<-|[]]]; split; discriminate|]. split.
  { assert (N : forall s, has_char "#" s = false -> forall a b, s <> a ++ "\#" ++ b).
    { intros s H a b E. rewrite E in H. rewrite StrFacts.has_char_app in H. apply orb_false_iff in H. destruct H as [_ H]. discriminate H. }
    repeat constructor; try apply N; reflexivity. }
  split.
  { apply Forall2_cons; [|apply Forall2_cons; [|apply Forall2_cons; [|apply Forall2_cons; [|apply Forall2_nil]]]].
    - replace "../sub/include" with (".." ++ "/" ++ normpath (path_join (path (target_of addon_target)) "include")) by (vm_compute; reflexivity).
      apply include_tree; [split; [discriminate|vm_compute; reflexivity]|left; split; [discriminate|vm_compute; reflexivity]|vm_compute; reflexivity|vm_compute; reflexivity|split; [discriminate|vm_compute; reflexivity]].
    - replace "../deps" with (".." ++ "/" ++ normpath (path_join (path (target_of addon_target)) "../deps")) at 2 by (vm_compute; reflexivity).
      apply include_tree; [split; [discriminate|vm_compute; reflexivity]|left; split; [discriminate|vm_compute; reflexivity]|vm_compute; reflexivity|vm_compute; reflexivity|split; [discriminate|vm_compute; reflexivity]].
    - replace "/usr/include/x" with (normpath "/usr/include/x") at 2 by (vm_compute; reflexivity). apply include_absolute; [split; [discriminate|vm_compute; reflexivity]|vm_compute; reflexivity].
    - refine (include_built (lookup_in header) (target_of addon_target) "obj" "Release/obj" "/gen" (or_introl eq_refl) _ ltac:(split; [discriminate|vm_compute; reflexivity]) _ _).
      + vm_compute. reflexivity.
      + right. exists "gen". split; [reflexivity|split; [discriminate|reflexivity]].
      + intros a E. destruct a as [|x1 [|x2 [|x3 [|x4 a]]]]; try discriminate E. destruct a; discriminate E. }
  split; [apply Forall_cons; [left; split; [discriminate|vm_compute; reflexivity]|apply Forall_cons; [right; split; vm_compute; reflexivity|apply Forall_nil]]|]. split; [vm_compute; auto|]. vm_compute. reflexivity.
Qed.
(** C81.  Programs, shared libraries and addons are linked with the flags and library
    directories their target has for the configuration that is built, told to find
    the shared libraries they need beside themselves, and with each of the target's
    libraries once. *)
Theorem C81_link : forall vars before t after b c bd rp libs out base inputs inw ld ldw more morew text words,
  lookup_in vars "BUILDTYPE" = Some b -> assoc b (configs t) = Some c -> In (toolset (target_of t)) ["target"; "host"] ->
  lookup_in vars "builddir" = Some bd -> safe bd -> run_paths (deps_of t) bd rp -> Forall plain_flag (ldflags c) -> Forall safe (library_dirs c) ->
  once_each [] (libraries t) libs -> Forall plain_flag libs ->
  (forall u, In u after -> ~ In (binary (target_of t)) (objects (target_of u)) /\ (type (target_of u) = None_ \/ binary (target_of t) <> binary (target_of u))) ->
  safe out -> safe base -> sh_arguments inputs = Some inw ->
  lookup_in vars ("LINK." ++ toolset (target_of t)) = Some ld -> sh_arguments ld = Some ldw -> lookup_in vars ("LDFLAGS." ++ toolset (target_of t)) = Some more -> sh_arguments more = Some morew ->
  link_command t = Some text -> link_words (type (target_of t)) ldw morew inw out base (ldflags c ++ rp ++ map (append "-L") (library_dirs c)) libs = Some words ->
  command_words (read_lines (vars, []) (all_lines (before ++ t :: after))) (binary (target_of t)) [("@", out); ("@F", base); ("LD_INPUTS", inputs); ("INPUTS", inputs)] text = Some words.
Proof. exact linked_with. Qed.
Print Assumptions C81_link.
Example C81_link_witness : run_paths (deps_of addon_target) "./Release" ["-Wl,-rpath=$ORIGIN/"; "-Wl,-rpath-link=./Release/"] /\ once_each [] (libraries addon_target) ["-lz"; "-lm"] /\
  command_words (read_lines (header, []) (all_lines [addon_target; kit_target])) (binary (target_of addon_target)) [("@", "addon.node"); ("@F", "addon.node"); ("INPUTS", "a.o b.o")] cmd_solink_module =
  Some (map literal ["g++"; "-o"; "addon.node"; "-shared"; "-rdynamic"; "-Wl,-rpath=$ORIGIN/"; "-Wl,-rpath-link=./Release/"; "-L/opt/lib"; "-s"; "-Wl,-soname=addon.node"; "-Wl,--start-group"; "a.o"; "b.o"; "-Wl,--end-group"; "-lz"; "-lm"]).
Proof.
  split; [left; split; [|reflexivity]; exists "$(obj).target/sub/libkit.so.1"; split; [left; reflexivity|right; exists "$(obj).target/sub/libkit", "1"; reflexivity]|].
  split; [|vm_compute; reflexivity]. apply once_first; [intros []|]. apply once_first; [intros [X|[]]; discriminate X|]. apply once_again; [cbn [In]; auto|]. apply once_nil.
Qed.

(** The flags of a configuration are kept in variables for the whole Makefile.  If
    a target does not have the configuration that is built (a .gyp file that names no
    configurations has one named Default), its sources are compiled with the flags of
    whichever target came before it. *)
Definition lone_target : built :=
  {| target_of := sample_target "lone" Static_library "" ["lone.c"]; configs := [("Default", debug)]; libraries := []; deps_of := [] |}.
Theorem C81_leak_refuted : exists vars before t f words,
  lookup_in vars "BUILDTYPE" = Some "Release" /\ assoc "Release" (configs t) = None /\ (forall n c, In (n, c) (configs t) -> ~ In "-std=c99" (cflags_c c)) /\ In f (objects (target_of t)) /\
  command_words (read_lines (vars, []) (all_lines (before ++ [t]))) f [("@", "lone.o"); ("<", "../lone.c"); ("DEPFLAGS", "-MMD")] cmd_cc = Some words /\ In (literal "-std=c99") words.
Proof.
  exists header, [addon_target], lone_target, "$(obj).target/lone/lone.o".
  destruct (command_words (read_lines (header, []) (all_lines ([addon_target] ++ [lone_target])%list)) "$(obj).target/lone/lone.o" [("@", "lone.o"); ("<", "../lone.c"); ("DEPFLAGS", "-MMD")] cmd_cc) as [w|] eqn:E; [|vm_compute in E; discriminate E].
  exists w. repeat split; [intros n c [H|[]]; injection H as <- <-; intros []|vm_compute; auto|]. vm_compute in E. injection E as <-. vm_compute. auto 20.
Qed.
Print Assumptions C81_leak_refuted.
(** Of two configurations one of which is named as the other with C_ in front, the
    one with the longer name is built without its own flags: they have the same
    variable. *)
Definition two_configs : built :=
  {| target_of := sample_target "two" Static_library "" ["two.c"];
     configs := [("Debug", debug); ("C_Debug", {| defines := []; include_dirs := []; cflags := ["-Os"]; cflags_c := []; cflags_cc := []; ldflags := []; library_dirs := [] |})]; libraries := []; deps_of := [] |}.
Theorem C81_names_refuted : exists vars t f b c words,
  lookup_in vars "BUILDTYPE" = Some b /\ assoc b (configs t) = Some c /\ In "-Os" (cflags c) /\ In f (objects (target_of t)) /\
  command_words (read_lines (vars, []) (all_lines [t])) f [("@", "two.o"); ("<", "../two.c"); ("DEPFLAGS", "-MMD")] cmd_cc = Some words /\ ~ In (literal "-Os") words.
Proof.
  exists (("BUILDTYPE", Some "C_Debug") :: header), two_configs, "$(obj).target/two/two.o", "C_Debug". eexists.
  destruct (command_words (read_lines ((("BUILDTYPE", Some "C_Debug") :: header), []) (all_lines [two_configs])) "$(obj).target/two/two.o" [("@", "two.o"); ("<", "../two.c"); ("DEPFLAGS", "-MMD")] cmd_cc) as [w|] eqn:E; [|vm_compute in E; discriminate E].
  exists w. split; [reflexivity|]. split; [reflexivity|]. split; [left; reflexivity|]. split; [vm_compute; auto|]. split; [exact E || reflexivity|]. vm_compute in E. injection E as <-. vm_compute. intros H. decompose [or] H; try discriminate; contradiction.
Qed.
Print Assumptions C81_names_refuted.
(** A number sign in a flag ends the variable: that flag is cut and those after it
    are not given at all. *)
Definition numbered : built :=
  {| target_of := sample_target "num" Static_library "" ["num.c"];
     configs := [("Release", {| defines := []; include_dirs := []; cflags := ["-DCOLOR=#fff"; "-fstack-protector"]; cflags_c := []; cflags_cc := []; ldflags := []; library_dirs := [] |})]; libraries := []; deps_of := [] |}.
Theorem C81_number_sign_refuted : exists vars t f b c words,
  lookup_in vars "BUILDTYPE" = Some b /\ assoc b (configs t) = Some c /\ In "-fstack-protector" (cflags c) /\ In f (objects (target_of t)) /\
  command_words (read_lines (vars, []) (all_lines [t])) f [("@", "num.o"); ("<", "../num.c"); ("DEPFLAGS", "-MMD")] cmd_cc = Some words /\ ~ In (literal "-fstack-protector") words.
Proof.
  exists header, numbered, "$(obj).target/num/num.o", "Release". eexists.
  destruct (command_words (read_lines (header, []) (all_lines [numbered])) "$(obj).target/num/num.o" [("@", "num.o"); ("<", "../num.c"); ("DEPFLAGS", "-MMD")] cmd_cc) as [w|] eqn:E; [|vm_compute in E; discriminate E].
  exists w. split; [reflexivity|]. split; [reflexivity|]. split; [right; left; reflexivity|]. split; [vm_compute; auto|]. split; [exact E || reflexivity|]. vm_compute in E. injection E as <-. vm_compute. intros H. decompose [or] H; try discriminate; contradiction.
Qed.
Print Assumptions C81_number_sign_refuted.
(** An include directory with a space in its name becomes two arguments. *)
Definition spaced : built :=
  {| target_of := sample_target "sp" Static_library "" ["sp.c"];
     configs := [("Release", {| defines := []; include_dirs := ["my include"]; cflags := []; cflags_c := []; cflags_cc := []; ldflags := []; library_dirs := [] |})]; libraries := []; deps_of := [] |}.
Theorem C81_include_space_refuted : exists vars t f b c,
  lookup_in vars "BUILDTYPE" = Some b /\ assoc b (configs t) = Some c /\ include_dirs c = ["my include"] /\ In f (objects (target_of t)) /\
  command_words (read_lines (vars, []) (all_lines [t])) f [("@", "sp.o"); ("<", "../sp.c"); ("DEPFLAGS", "-MMD")] cmd_cc = Some (map literal ["ccache"; "gcc"; "-o"; "sp.o"; "../sp.c"; "-I../my"; "include"; "-MMD"; "-c"]).
Proof. exists header, spaced, "$(obj).target/sp/sp.o", "Release". eexists. split; [reflexivity|]. split; [reflexivity|]. split; [reflexivity|]. split; vm_compute; auto. Qed.
Print Assumptions C81_include_space_refuted.
(** As each entry of libraries is only used once, flags around libraries that are
    there twice are lost: here the second library is not linked as a whole. *)
Definition paired : built :=
  {| target_of := sample_target "pair" Executable "" ["pair.c"];
     configs := [("Release", debug)];
     libraries := ["-Wl,--whole-archive"; "-la"; "-Wl,--no-whole-archive"; "-lb"; "-Wl,--whole-archive"; "-lc"; "-Wl,--no-whole-archive"]; deps_of := [] |}.
Theorem C81_libraries_refuted : exists vars t,
  libraries t = ["-Wl,--whole-archive"; "-la"; "-Wl,--no-whole-archive"; "-lb"; "-Wl,--whole-archive"; "-lc"; "-Wl,--no-whole-archive"] /\ link_command t = Some cmd_link /\
  command_words (read_lines (vars, []) (all_lines [t])) (binary (target_of t)) [("@", "pair"); ("LD_INPUTS", "pair.o")] cmd_link =
  Some (map literal ["g++"; "-o"; "pair"; "-s"; "-Wl,--start-group"; "pair.o"; "-Wl,--whole-archive"; "-la"; "-Wl,--no-whole-archive"; "-lb"; "-lc"; "-Wl,--end-group"]).
Proof. exists header, paired. split; [reflexivity|]. split; [reflexivity|]. vm_compute. reflexivity. Qed.
Print Assumptions C81_libraries_refuted.
