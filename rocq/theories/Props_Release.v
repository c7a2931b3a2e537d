(** C59, C60: which version is meant, where its files come from and go to, and
    what is removed. *)
From Coq Require Import ZArith.
From Verif Require Import Lib LibFacts Str Js Spec_Text Model_Release Spec_Release Proof_Release Proof_Release2 Proof_Release3 Proof_Release4.
Local Open Scope string_scope.

(** A text is read as a version just if it names it, and then as that one. *)
Theorem C59_parse : forall s sv, parse s = Some sv <-> names_version s (major sv) (minor sv) (patch sv) (prerelease sv).
Proof. exact parse_spec. Qed.
Print Assumptions C59_parse.

(** The version is the one asked for; there is an error just if that is none. *)
Theorem C59_version : forall argv o dv dr,
  match process_release argv o dv dr with
  | Invalid v => asked argv (target o) dv v /\ ~ names_a_version v
  | Release r => exists s x y z pre, asked argv (target o) dv s /\ names_version s x y z pre /\ r_version r = version_text x y z pre
  end.
Proof. exact release_version. Qed.
Print Assumptions C59_version.
Example C59_version_witness : (exists r, process_release [" v18.0.0-rc.1+build.7"] {| target := "16.0.0"; dist_url := ""; disturl := ""; mirror := "" |} "v20.1.0" None = Release r /\ r_version r = "18.0.0-rc.1") /\
  (exists r, process_release ["--silent"] {| target := "16.0.0"; dist_url := ""; disturl := ""; mirror := "" |} "v20.1.0" None = Release r /\ r_version r = "16.0.0") /\
  process_release [] {| target := "16"; dist_url := ""; disturl := ""; mirror := "" |} "v20.1.0" None = Invalid "16".
Proof. split; [|split]; [eexists; split; vm_compute; reflexivity|eexists; split; vm_compute; reflexivity|vm_compute; reflexivity]. Qed.

(** What is fetched, unless the running node itself says where. *)
Theorem C59_urls : forall argv o dv dr r s x y z pre st, process_release argv o dv dr = Release r -> asked argv (target o) dv s -> names_version s x y z pre ->
  (forall rel, ~ own o dv dr x y z pre rel) -> site_of (dist_url o) (disturl o) (mirror o) st ->
  base_url r = st ++ "/v" ++ version_text x y z pre ++ "/" /\ shasums_url r = base_url r ++ "SHASUMS256.txt" /\
  (headers_alone x y z pre -> tarball_url r = base_url r ++ name r ++ "-v" ++ version_text x y z pre ++ "-headers.tar.gz") /\
  (~ headers_alone x y z pre -> tarball_url r = base_url r ++ name r ++ "-v" ++ version_text x y z pre ++ ".tar.gz") /\
  (web_address st -> ~ contains "/win-" st -> has_char "/" (name r) = false -> forall key arch, In (key, arch) [("ia32", "x86"); ("x64", "x64"); ("arm64", "arm64")] ->
    assoc key (libs r) = Some (base_url r ++ lib_of x (name r) arch, lib_of x (name r) arch)).
Proof. exact release_urls. Qed.
Print Assumptions C59_urls.
Example C59_urls_witness : exists r, process_release ["18.0.0"] {| target := ""; dist_url := ""; disturl := "http://mirror.org/dist//"; mirror := "http://other.org" |} "v20.1.0" None = Release r /\
  base_url r = "http://mirror.org/dist/v18.0.0/" /\ shasums_url r = "http://mirror.org/dist/v18.0.0/SHASUMS256.txt" /\ tarball_url r = "http://mirror.org/dist/v18.0.0/node-v18.0.0-headers.tar.gz" /\
  assoc "arm64" (libs r) = Some ("http://mirror.org/dist/v18.0.0/win-arm64/node.lib", "win-arm64/node.lib").
Proof. eexists. split; [vm_compute; reflexivity|]. repeat split. Qed.

Theorem C59_name : forall argv o dv dr r s x y z pre, process_release argv o dv dr = Release r -> asked argv (target o) dv s -> names_version s x y z pre ->
  (dr = None \/ ~ names_version dv x y z pre) -> name r = if ((1 <=? x) && (x <=? 3))%N then "iojs" else "node".
Proof. exact release_name. Qed.
Print Assumptions C59_name.
Example C59_name_witness : exists r, process_release ["3.3.1"] no_options "v20.1.0" None = Release r /\ name r = "iojs" /\ ~ names_version "v20.1.0" 3 3 1 [].
Proof. eexists. split; [vm_compute; reflexivity|]. split; [reflexivity|]. intros X. apply parse_names in X. vm_compute in X. discriminate. Qed.

(** What is fetched when it does. *)
Theorem C59_running : forall argv o dv dr r s x y z pre rel d f, process_release argv o dv dr = Release r -> asked argv (target o) dv s -> names_version s x y z pre ->
  own o dv dr x y z pre rel -> headers_url rel = d ++ "/" ++ f -> has_char "/" f = false ->
  base_url r = d ++ "/" /\ tarball_url r = headers_url rel /\ shasums_url r = d ++ "/SHASUMS256.txt" /\
  (web_address d -> ~ contains "/win-" d -> forall key arch, In (key, arch) [("ia32", "x86"); ("x64", "x64"); ("arm64", "arm64")] ->
    (lib_url rel = "" -> has_char "/" (name r) = false -> assoc key (libs r) = Some (base_url r ++ lib_of x (name r) arch, lib_of x (name r) arch)) /\
    (forall a file, lib_url rel = d ++ "/win-" ++ a ++ "/" ++ file -> In a ["x86"; "x64"] \/ (a = "arm64" /\ x <> 3%N) -> has_char "/" file = false -> file <> "" ->
      assoc key (libs r) = Some (base_url r ++ "win-" ++ arch ++ "/" ++ file, "win-" ++ arch ++ "/" ++ file))).
Proof. exact release_own. Qed.
Print Assumptions C59_running.
Example C59_running_witness : let rel := {| r_name := "node"; headers_url := "https://nodejs.org/download/rc/v20.1.0-rc.2/node-v20.1.0-rc.2-headers.tar.gz"; lib_url := "https://nodejs.org/download/rc/v20.1.0-rc.2/win-x64/node.lib" |} in
  own no_options "v20.1.0-rc.2" (Some rel) 20 1 0 ["rc"; "2"] rel /\
  exists r, process_release [] no_options "v20.1.0-rc.2" (Some rel) = Release r /\ shasums_url r = "https://nodejs.org/download/rc/v20.1.0-rc.2/SHASUMS256.txt" /\
    assoc "ia32" (libs r) = Some ("https://nodejs.org/download/rc/v20.1.0-rc.2/win-x86/node.lib", "win-x86/node.lib").
Proof.
  intros rel. split; [|eexists; split; [vm_compute; reflexivity|split; reflexivity]]. split; [reflexivity|]. split; [discriminate|]. split; [|repeat split].
  apply (names_exact "v20.1.0-rc.2" {| major := 20; minor := 1; patch := 0; prerelease := ["rc"; "2"] |}). vm_compute. reflexivity.
Qed.

(** A mirror whose own address has /win-x64/ in it gets that part replaced. *)
Theorem C59_mirror_refuted : exists argv o dv r, process_release argv o dv None = Release r /\ web_address (mirror o) /\ dist_url o = "" /\ disturl o = "" /\ site_of "" "" (mirror o) (mirror o) /\
  assoc "ia32" (libs r) = Some ("https://example.com/win-x86/dist/v18.0.0/", "../../../win-x86/dist/v18.0.0") /\ base_url r = "https://example.com/win-x64/dist/v18.0.0/".
Proof. exact mirror_breaks. Qed.
Print Assumptions C59_mirror_refuted.

(** Different releases are kept in different directories. *)
Theorem C59_directories : forall argv o dv dr r argv' o' dv' dr' r', process_release argv o dv dr = Release r -> process_release argv' o' dv' dr' = Release r' ->
  plain_name (name r) -> plain_name (name r') -> version_dir r = version_dir r' -> name r = name r' /\ r_version r = r_version r'.
Proof. exact dirs_differ. Qed.
Print Assumptions C59_directories.
Example C59_directories_witness : exists r r', process_release ["3.3.1"] no_options "v20.1.0" None = Release r /\ process_release ["3.3.1"] no_options "v3.3.1" (Some {| r_name := "node"; headers_url := ""; lib_url := "" |}) = Release r' /\
  plain_name (name r) /\ plain_name (name r') /\ version_dir r = "iojs-3.3.1" /\ version_dir r' = "3.3.1".
Proof.
  do 2 eexists. split; [vm_compute; reflexivity|]. split; [vm_compute; reflexivity|]. assert (P : forall s, s = "iojs" \/ s = "node" -> plain_name s).
  { intros s [-> | ->]; (split; [reflexivity|]; intros a t [= <- _]; unfold digit; cbn; intuition discriminate). }
  split; [apply P; auto|]. split; [apply P; auto|]. split; reflexivity.
Qed.

(** From 0.8.0 on every version but a pre version is installed, in its
    directory, and no other. *)
Theorem C59_minimum : forall argv o dv dr s x y z pre, asked argv (target o) dv s -> names_version s x y z pre ->
  exists r, process_release argv o dv dr = Release r /\ forall d, installs argv o dv dr = Some d <-> installable x y z pre /\ d = version_dir r.
Proof. exact installs_iff. Qed.
Print Assumptions C59_minimum.
Example C59_minimum_witness : installable 0 8 0 [] /\ ~ installable 0 8 0 ["rc"; "1"] /\ ~ installable 0 7 9 [] /\ installs ["0.8.0"] no_options "v20.1.0" None = Some "0.8.0" /\ installs ["0.7.9"] no_options "v20.1.0" None = None /\
  installs ["20.0.0-pre"] no_options "v20.1.0" None = None.
Proof.
  split; [split; [right; right; split; [reflexivity|right; reflexivity]|discriminate]|]. split; [intros [[H|[H|[_ [H|H]]]] _]; discriminate|]. split; [intros [[H|[H|[H _]]] _]; discriminate|]. split; [|split]; vm_compute; reflexivity.
Qed.

(** The second attempt, in a directory that can be written, installs the same
    version unless it was named by the arguments. *)
Theorem C59_fallback : forall argv o dv dr, (forall a rest, argv = a :: rest -> ~ names_a_version a) -> ~ In noretry argv -> installs_in_fallback argv o dv dr = installs argv o dv dr.
Proof. exact fallback_same. Qed.
Print Assumptions C59_fallback.
Example C59_fallback_witness : installs_in_fallback ["x"] {| target := "16.0.0"; dist_url := ""; disturl := ""; mirror := "" |} "v20.1.0" None = Some "16.0.0" /\ ~ names_a_version "x".
Proof. split; [vm_compute; reflexivity|]. apply parse_None. reflexivity. Qed.
Theorem C59_fallback_refuted : exists argv o dv dr d d', installs argv o dv dr = Some d /\ installs_in_fallback argv o dv dr = Some d' /\ d <> d' /\ ~ In noretry argv.
Proof. exact fallback_loses. Qed.
Print Assumptions C59_fallback_refuted.

(** Removing a version removes what is in its directory and nothing else, and
    says so when there is nothing. *)
Theorem C60_remove : forall dev argv t f v x y z pre, (argv = v :: tl argv /\ v <> "" \/ (argv = [] \/ hd "" argv = "") /\ v = t) -> names_version v x y z pre ->
  let p := (dev ++ [version_text x y z pre])%list in
  match remove dev argv t f with
  | NoVersion => False
  | Already => forall q, In q f -> ~ under p q
  | Removed f' => (exists q, In q f /\ under p q) /\ forall q, In q f' <-> In q f /\ ~ under p q
  end.
Proof. exact remove_version. Qed.
Print Assumptions C60_remove.
Example C60_remove_witness : remove ["gyp"] ["v18.0.0"] "" [["gyp"; "18.0.0"; "include"]; ["gyp"; "18.0.0"]; ["gyp"; "18.0.00"]; ["gyp"]] = Removed [["gyp"; "18.0.00"]; ["gyp"]] /\
  remove ["gyp"] [] "16.0.0" [["gyp"; "18.0.0"]] = Already /\ remove ["gyp"] [] "" [] = NoVersion.
Proof. repeat split. Qed.

(** It undoes installing. *)
Theorem C60_undoes : forall dev argv o dv dr f v x y z pre r, (argv = v :: tl argv \/ argv = [] /\ v = target o) -> names_version v x y z pre ->
  process_release argv o dv dr = Release r -> name r = "node" -> installs argv o dv dr = Some (version_dir r) -> In (dev ++ [version_dir r])%list f ->
  exists f', remove dev argv (target o) f = Removed f' /\ forall q, In q f' <-> In q f /\ ~ under (dev ++ [version_dir r])%list q.
Proof. exact remove_undoes. Qed.
Print Assumptions C60_undoes.
Example C60_undoes_witness : exists r, process_release ["v18.0.0"] no_options "v20.1.0" None = Release r /\ name r = "node" /\ installs ["v18.0.0"] no_options "v20.1.0" None = Some (version_dir r) /\ names_version "v18.0.0" 18 0 0 [].
Proof. eexists. split; [vm_compute; reflexivity|]. split; [reflexivity|]. split; [vm_compute; reflexivity|]. apply (names_exact "v18.0.0" {| major := 18; minor := 0; patch := 0; prerelease := [] |}). vm_compute. reflexivity. Qed.

(** It does not for io.js, and an argument that is no version is used as a path:
    it can lead out of the directory of node-gyp. *)
Theorem C60_iojs_refuted : exists dev argv o dv d, installs argv o dv None = Some d /\ remove dev argv (target o) [(dev ++ [d])%list] = Already.
Proof. exact remove_iojs. Qed.
Print Assumptions C60_iojs_refuted.
Theorem C60_outside_refuted : exists dev argv f f' q, remove dev argv "" f = Removed f' /\ In q f /\ ~ In q f' /\ ~ under dev q.
Proof. exact remove_parent. Qed.
Print Assumptions C60_outside_refuted.
