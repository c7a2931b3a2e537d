(** Model of the command line that lib/configure.js writes for gyp. *)
From Verif Require Import Lib Str.
Local Open Scope string_scope.

(** What it depends on besides the arguments: process.platform; path.resolve and
    path.join; which files there are; which can be read; the directory of the
    headers; the options nodedir and node_engine and process.jsEngine; the name
    and major version of the release; ZOSLIB_INCLUDES; where node is; the
    current directory and that of node-gyp; the path of build/config.gypi. *)
Record place := { platform : string; resolve : string -> string -> string; join : list string -> string; dirname : string -> string;
  exists_file : string -> bool; readable : string -> bool;
  node_dir : string; nodedir : option string; node_engine : option string; js_engine : option string; release_name : string; major_16 : bool;
  zoslib_includes : option string; node_root : string; cwd : string; own_dir : string; config_gypi : string }.
Definition win (p : place) : bool := String.eqb (platform p) "win32".
Definition given_text (s : option string) : option string := match s with Some (String _ _) => s | _ => None end.
(** 119-149: the include files of the package, besides build/config.gypi.
    Simplification: stat fails only because there is no such file; other errors
    are thrown. *)
Definition package_configs (p : place) : list string :=
  (config_gypi p :: filter (exists_file p) (map (resolve p (cwd p)) ["config.gypi"; "common.gypi"]))%list.
(** lib/util.js:41-55 (findAccessibleSync) *)
Definition find_accessible (p : place) (dir : string) (candidates : list string) : option string :=
  find (readable p) (map (resolve p dir) candidates).
Definition exports_platform (p : place) : bool := String.eqb (platform p) "aix" || String.eqb (platform p) "os390" || String.eqb (platform p) "os400".
(** 169-208 *)
Definition exports_file (p : place) : option string :=
  if String.eqb (platform p) "os390" then
    find_accessible p (node_root p) ["out/Release/lib.target/libnode.x"; "out/Debug/lib.target/libnode.x"; "out/Release/obj.target/libnode.x"; "out/Debug/obj.target/libnode.x"; "lib/libnode.x"]
  else find_accessible p (node_root p) ["include/node/node.exp"; "out/Release/node.exp"; "out/Debug/node.exp"; "node.exp"].
(** 210-246 *)
Definition zoslib_header (p : place) : option string :=
  match given_text (zoslib_includes p) with
  | Some d => find_accessible p d ["zos-base.h"]
  | None => find_accessible p (node_root p) ["include/node/zoslib/zos-base.h"; "include/zoslib/zos-base.h"; "zoslib/include/zos-base.h"; "install/include/node/zoslib/zos-base.h"]
  end.
(** s.replace(/\\/g, '\\\\') *)
Fixpoint double_backslashes (s : string) : string :=
  match s with EmptyString => "" | String a s' => if Ascii.eqb a "\" then String a (String a (double_backslashes s')) else String a (double_backslashes s') end.
(** 249-256 *)
Definition common_gypi (p : place) : string :=
  if exists_file p (resolve p (node_dir p) "include/node/common.gypi") then resolve p (node_dir p) "include/node/common.gypi" else resolve p (node_dir p) "common.gypi".
(** 265-267, 282-287 *)
Definition lib_file (p : place) : string :=
  let f := join p [node_dir p; match given_text (nodedir p) with None => "<(target_arch)" | Some _ => "$(Configuration)" end; release_name p ++ ".lib"] in
  if win p then double_backslashes f else f.
(** 151-162 *)
Definition format_arguments (p : place) (argv : list string) : list string :=
  if mem "-f" argv || mem "--format" argv then [] else ["-f"; if win p then "msvs" else "make"].
(** 258-263, 269-298 *)
Definition own_arguments (p : place) (exports zoslib : list string) : list string :=
  (["-I"; resolve p (own_dir p) "addon.gypi"; "-I"; common_gypi p; "-Dlibrary=shared_library"; "-Dvisibility=default"; "-Dnode_root_dir=" ++ node_dir p]%string
   ++ exports ++ zoslib
   ++ ["-Dnode_gyp_dir=" ++ own_dir p; "-Dnode_lib_file=" ++ lib_file p; "-Dmodule_root_dir=" ++ cwd p;
       "-Dnode_engine=" ++ match given_text (node_engine p) with Some e => e | None => match given_text (js_engine p) with Some e => e | None => "v8" end end;
       "--depth=."; "--no-parallel"; "--generator-output"; if win p then resolve p (cwd p) "build" else "build"; "-Goutput_dir=."]%string)%list.
(** 151-304: the arguments of gyp, without the script itself; None where an error
    is thrown instead. *)
Definition configure_arguments (p : place) (argv : list string) : option (list string) :=
  let rest exports zoslib := (("binding.gyp" :: argv) ++ format_arguments p argv ++ flat_map (fun c => ["-I"; c]) (package_configs p) ++ own_arguments p exports zoslib)%list in
  if exports_platform p then
    match exports_file p with
    | None => None
    | Some f =>
      if String.eqb (platform p) "os390" then
        match zoslib_header p with
        | Some h => Some (rest ["-Dnode_exp_file=" ++ f] (match given_text (Some (dirname p h)) with Some d => ["-Dzoslib_include_dir=" ++ d] | None => [] end))
        | None => if major_16 p then None else Some (rest ["-Dnode_exp_file=" ++ f] [])
        end
      else Some (rest ["-Dnode_exp_file=" ++ f] [])
    end
  else Some (rest [] []).
