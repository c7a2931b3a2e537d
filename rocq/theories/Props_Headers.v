From Verif Require Import Lib Str Model_Args Spec_Args Model_Configure Proof_Configure Model_Headers Spec_Headers Proof_Headers.
Local Open Scope string_scope.

(** C69.  An addon is compiled against the headers in the directory named with
    --nodedir (a leading ~ being the home directory), or in the prefix of a node
    built to look there when node_version.h there gives the version wanted;
    otherwise, and only then, that version is installed, and not unpacked again
    when it is there already unless a tarball is given; if that version is not
    one, nothing is built.  Assumes a home directory without dollar signs. *)
Theorem C69_headers : forall p, has_char "$" (home p) = false ->
  (forall d, get_node_dir p = In_directory d <-> exists n, named p n /\ at_home (home p) n d) /\
  (forall v e d, get_node_dir p = Install v e d <-> (forall n, ~ named p n) /\ version_ok p = true /\ v = version p /\ (e = true <-> tarball p = false) /\ d = installed p) /\
  (get_node_dir p = Invalid_version <-> (forall n, ~ named p n) /\ version_ok p = false).
Proof. exact headers_are. Qed.
Print Assumptions C69_headers.
Example C69_headers_witness : has_char "$" (home example_headers) = false /\ get_node_dir example_headers = In_directory "/usr" /\ get_node_dir (nodedir_headers "/home/me" "~/node") = In_directory "/home/me/node".
Proof. vm_compute. repeat split; reflexivity. Qed.
Example C69_other_version_witness : get_node_dir {| opt_nodedir := None; use_prefix := true; node_prefix := "/usr"; prefix_header := "/usr/include/node/node_version.h"; read := fun _ => Some example_header; home := "/home/me"; version := "20.11.10"; version_ok := true; tarball := false; installed := "/c/20.11.10" |} = Install "20.11.10" true "/c/20.11.10".
Proof. reflexivity. Qed.

(** C69.  What node_version.h says is read line by line: the first line that
    defines each of the three numbers. *)
Theorem C69_version : forall text v, header_version text = Some v <-> text_version text v.
Proof. exact version_iff. Qed.
Print Assumptions C69_version.
Example C69_version_witness : header_version example_header = Some "20.11.1".
Proof. reflexivity. Qed.

(** C69.  Not so with dollar signs in the home directory: it is the replacement
    text of String.replace, so /srv/a$$b becomes /srv/a$b (configure.js:66). *)
Theorem C69_dollar_refuted : ~ (forall p n, opt_nodedir p = Some n -> n <> "" -> exists d, get_node_dir p = In_directory d /\ at_home (home p) n d).
Proof. exact dollar_home. Qed.
Print Assumptions C69_dollar_refuted.

(** C69.  The home directory of another user is not understood: --nodedir=~you/node
    is taken for /home/meyou/node (configure.js:66). *)
Theorem C69_user_refuted : ~ (forall p n, opt_nodedir p = Some ("~" ++ n) -> n <> "" -> (forall r, n <> "/" ++ r) -> get_node_dir p <> In_directory (home p ++ n)).
Proof. exact other_home. Qed.
Print Assumptions C69_user_refuted.

(** C69.  On Windows Visual Studio is needed unless a make format is asked for
    with -f or --format as a word of its own, or with --format=; elsewhere never. *)
Theorem C69_visual_studio : forall p argv, looks_for_vs p argv = true <-> win p = true /\
  ~ (exists a f b, argv = (a ++ f :: b)%list /\ starts_with "--format=make" f) /\ ~ (exists a f v b, argv = (a ++ f :: v :: b)%list /\ (f = "-f" \/ f = "--format") /\ starts_with "make" v).
Proof. exact looks_iff. Qed.
Print Assumptions C69_visual_studio.
Example C69_visual_studio_witness : using_make_from ["--"; "-f"; "make-linux"] = true /\ using_make_from ["-f"; "msvs"] = false.
Proof. split; reflexivity. Qed.

(** C69.  Visual Studio is demanded although gyp will write a Makefile, if the
    format is joined to the option as in -fmake (configure.js:95-109). *)
Theorem C69_joined_refuted : ~ (forall p argv default env r, win p = true -> gyp default env argv = Some r -> run_formats r = ["make"] -> looks_for_vs p argv = false).
Proof. exact joined_format. Qed.
Print Assumptions C69_joined_refuted.

(** C69.  The directory node is in is found from where node-gyp is, inside the npm
    that comes with node, and else from where the executable is. *)
Theorem C69_node_directory : forall script windows exec root, find_node_directory script windows exec = Some root <->
  (exists c p, skipn 4 script = c :: p /\ ((c = "deps" /\ root = p) \/ (c = "node_modules" /\ ((windows = true /\ root = p) \/ (windows = false /\ root = tl p))))) \/
  ((forall p, skipn 4 script <> "deps" :: p /\ skipn 4 script <> "node_modules" :: p) /\
   exists c p, tl exec = c :: p /\ ((c = "bin" /\ root = p) \/ ((c = "Release" \/ c = "Debug") /\ ((windows = true /\ root = p) \/ (windows = false /\ root = tl p))))).
Proof. exact located. Qed.
Print Assumptions C69_node_directory.
(** C69.  In particular for each way node is laid out, whatever the root. *)
Theorem C69_layouts : forall root windows exec,
  find_node_directory ("lib" :: "node-gyp" :: "node_modules" :: "npm" :: "deps" :: root) windows exec = Some root /\
  find_node_directory ("lib" :: "node-gyp" :: "node_modules" :: "npm" :: "node_modules" :: "lib" :: root) false exec = Some root /\
  find_node_directory ("lib" :: "node-gyp" :: "node_modules" :: "npm" :: "node_modules" :: root) true exec = Some root.
Proof. exact layouts. Qed.
Print Assumptions C69_layouts.
Example C69_layouts_witness : find_node_directory ["lib"; "node-gyp"; "node_modules"; "app"; "home"] false ["node"; "bin"; "local"; "usr"] = Some ["local"; "usr"].
Proof. reflexivity. Qed.

(** C69.  A copy of npm in a project's node_modules is taken for the one that
    comes with node: with /p/app/node_modules/npm and /usr/bin/node the directory
    found is /p, where node is not (find-node-directory.js:19-27). *)
Theorem C69_local_npm_refuted : ~ (forall script root name found, find_node_directory script false (name :: "bin" :: root) = Some found -> found = root).
Proof. exact local_npm. Qed.
Print Assumptions C69_local_npm_refuted.
