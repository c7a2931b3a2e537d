(** What node-gyp configure hands to gyp besides the user's own arguments, from
    the documentation of the command and of the platforms. *)
From Verif Require Import Lib Str Model_Args Spec_Args Model_Configure.
Local Open Scope string_scope.

Definition not_empty (o : option string) (s : string) : Prop := o = Some s /\ s <> "".
Definition empty (o : option string) : Prop := forall s, ~ not_empty o s.
(** The first of some files that can be read. *)
Definition first_readable (p : place) (dir : string) (files : list string) (f : string) : Prop :=
  exists a name b, files = (a ++ name :: b)%list /\ f = resolve p dir name /\ readable p f = true /\ forall n, In n a -> readable p (resolve p dir n) = false.
Definition exports_of (p : place) (f : string) : Prop :=
  ((platform p = "aix" \/ platform p = "os400") /\ first_readable p (node_root p) ["include/node/node.exp"; "out/Release/node.exp"; "out/Debug/node.exp"; "node.exp"] f) \/
  (platform p = "os390" /\ first_readable p (node_root p) ["out/Release/lib.target/libnode.x"; "out/Debug/lib.target/libnode.x"; "out/Release/obj.target/libnode.x"; "out/Debug/obj.target/libnode.x"; "lib/libnode.x"] f).
Definition zoslib_of (p : place) (f : string) : Prop :=
  platform p = "os390" /\
  ((exists d, not_empty (zoslib_includes p) d /\ first_readable p d ["zos-base.h"] f) \/
   (empty (zoslib_includes p) /\ first_readable p (node_root p) ["include/node/zoslib/zos-base.h"; "include/zoslib/zos-base.h"; "zoslib/include/zos-base.h"; "install/include/node/zoslib/zos-base.h"] f)).
(** Every backslash twice. *)
Inductive doubled : string -> string -> Prop :=
| db_end : doubled "" ""
| db_backslash s t : doubled s t -> doubled (String "\" s) (String "\" (String "\" t))
| db_other a s t : a <> "\"%char -> doubled s t -> doubled (String a s) (String a t).
Definition arch_part (p : place) (s : string) : Prop := (empty (nodedir p) /\ s = "<(target_arch)") \/ ((exists d, not_empty (nodedir p) d) /\ s = "$(Configuration)").
Definition engine_of (p : place) (e : string) : Prop :=
  not_empty (node_engine p) e \/ (empty (node_engine p) /\ (not_empty (js_engine p) e \/ (empty (js_engine p) /\ e = "v8"))).
(** The variables. *)
Inductive configured (p : place) : string -> string -> Prop :=
| cf_library : configured p "library" "shared_library"
| cf_visibility : configured p "visibility" "default"
| cf_headers : configured p "node_root_dir" (node_dir p)
| cf_exports f : exports_of p f -> configured p "node_exp_file" f
| cf_zoslib h : zoslib_of p h -> dirname p h <> "" -> configured p "zoslib_include_dir" (dirname p h)
| cf_own_dir : configured p "node_gyp_dir" (own_dir p)
| cf_lib a : platform p <> "win32" -> arch_part p a -> configured p "node_lib_file" (join p [node_dir p; a; release_name p ++ ".lib"])
| cf_lib_windows a t : platform p = "win32" -> arch_part p a -> doubled (join p [node_dir p; a; release_name p ++ ".lib"]) t -> configured p "node_lib_file" t
| cf_module : configured p "module_root_dir" (cwd p)
| cf_engine e : engine_of p e -> configured p "node_engine" e.
(** The files included: those of the package that exist, then node-gyp's and node's. *)
Definition package_files (p : place) (l : list string) : Prop :=
  exists a b, l = (config_gypi p :: a ++ b)%list /\
    (exists_file p (resolve p (cwd p) "config.gypi") = true -> a = [resolve p (cwd p) "config.gypi"]) /\
    (exists_file p (resolve p (cwd p) "config.gypi") = false -> a = []) /\
    (exists_file p (resolve p (cwd p) "common.gypi") = true -> b = [resolve p (cwd p) "common.gypi"]) /\
    (exists_file p (resolve p (cwd p) "common.gypi") = false -> b = []).
Definition headers_gypi (p : place) (f : string) : Prop :=
  (exists_file p (resolve p (node_dir p) "include/node/common.gypi") = true /\ f = resolve p (node_dir p) "include/node/common.gypi") \/
  (exists_file p (resolve p (node_dir p) "include/node/common.gypi") = false /\ f = resolve p (node_dir p) "common.gypi").
(** It stops where the file of exported symbols or the headers of zoslib are
    needed and not found. *)
Definition cannot_configure (p : place) : Prop :=
  (In (platform p) ["aix"; "os400"; "os390"] /\ forall f, ~ exports_of p f) \/ (platform p = "os390" /\ major_16 p = true /\ forall f, ~ zoslib_of p f).
(** Full paths. *)
Definition full (s : string) : Prop := exists a t, s = String a t /\ a <> "-"%char.

(** What becomes of the run [r0] that the user's own arguments [argv], which say
    [es], would make: node-gyp's variables and directories take the place of the
    user's, its files come besides theirs, and the rest is as they asked. *)
Definition handed (p : place) (argv : list string) (es : list event) (r0 r : run) : Prop :=
  run_files r = "binding.gyp" :: run_files r0 /\
  (In "-f" argv \/ In "--format" argv -> run_formats r = run_formats r0) /\
  (~ (In "-f" argv \/ In "--format" argv) ->
     (platform p = "win32" -> run_formats r = values Format es ++ ["msvs"])%list /\ (platform p <> "win32" -> run_formats r = values Format es ++ ["make"])%list) /\
  (exists own common, package_files p own /\ headers_gypi p common /\ run_includes r = run_includes r0 ++ own ++ [resolve p (own_dir p) "addon.gypi"; common])%list /\
  (forall k v, assoc k (run_defines r) = Some v <->
     (exists t, configured p k t /\ defines_as (k ++ "=" ++ t) k v) \/ ((forall t, ~ configured p k t) /\ assoc k (run_defines r0) = Some v)) /\
  (forall k v, assoc k (run_flags r) = Some v <-> (k = "output_dir" /\ v = Text ".") \/ (k <> "output_dir" /\ assoc k (run_flags r0) = Some v)) /\
  run_depth r = Some "." /\
  (forall t, chosen Toplevel es t -> run_toplevel r = Some t) /\
  ((forall t, ~ chosen Toplevel es t) -> run_toplevel r = Some ".") /\
  (platform p = "win32" -> run_output r = Some (resolve p (cwd p) "build")) /\
  (platform p <> "win32" -> run_output r = Some "build") /\
  run_parallel r = false /\
  run_config_dir r = run_config_dir r0 /\ run_circular_check r = run_circular_check r0 /\ run_check r = run_check r0 /\ run_debug r = run_debug r0 /\
  run_suffix r = run_suffix r0 /\ run_roots r = run_roots r0 /\ run_configs r = run_configs r0.
