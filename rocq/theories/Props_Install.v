(** C37: the development files of a version. *)
From Coq Require Import ZArith NArith.
From Verif Require Import Lib Str Js Model_Value Spec_Vs Model_Install Spec_Install Proof_Install Proof_Install2 Proof_Install3.
Local Open Scope string_scope.

(** When "install" reports success, the directory has the version file, every
    header of an archive that came from the given file or was downloaded whole
    with the listed checksum, and on Windows the import library, checked the
    same way.  (Windows also fetches just a missing library: then the other
    files are as before.) *)
Theorem C37_installed : forall sha untar r w s t s', (0 < needed r)%Z -> undisturbed w -> lib_path r <> tar_name r -> install sha untar r w s = (t, Some Done, s') ->
  exists d, s' = Some d /\ marked_with d (needed r) /\
    ((exists bytes, verified_source sha r w bytes /\ holds_headers untar d bytes) \/
     (win r = true /\ ensure r = true /\ exists d0 n, s = Some d0 /\ marked_with d0 n /\ (needed r <= n)%Z /\ forall p, p <> lib_place r -> p <> "installVersion" -> assoc p d = assoc p d0)) /\
    (win r = true -> exists lib, verified_lib sha r w lib /\ assoc (lib_place r) d = Some lib).
Proof. exact installed_spec. Qed.
Print Assumptions C37_installed.

(** A run that fails leaves no directory, or the one there was; a run that
    skips, or goes elsewhere, changes nothing, and skips only if the directory
    says it is complete. *)
Theorem C37_failed : forall sha untar r w s t o s', (0 < needed r)%Z -> install sha untar r w s = (t, Some o, s') ->
  (o = Threw -> s' = None \/ s' = s) /\ (o = ElseWhere -> s' = s) /\
  (o = Skipped -> s' = s /\ t = [] /\ ensure r = true /\ exists d n, s = Some d /\ marked_with d n /\ (needed r <= n)%Z).
Proof. exact failed_spec. Qed.
Print Assumptions C37_failed.

(** A complete directory is not touched by "install --ensure". *)
Theorem C37_skips : forall sha untar r w d n, ensure r = true -> fails w StatDev = None -> fails w ReadVersion = None -> fails w StatLib = None -> (0 < n)%Z -> marked_with d n -> (needed r <= n)%Z ->
  (win r = true -> exists lib, assoc (arch r ++ "/node.lib") d = Some lib) -> install sha untar r w (Some d) = ([], Some Skipped, Some d).
Proof. exact skips_spec. Qed.
Print Assumptions C37_skips.

(** If no call fails, the archive is served whole and listed once, with its
    checksum, in a proper list, the run succeeds or has nothing to do. *)
Theorem C37_succeeds : forall sha untar r w bytes lib es s, smooth w -> provides r w bytes -> sound_archive untar bytes -> sums_answer w = Answer 200 (shasums es) true -> proper_list es -> lists_only es (tar_name r) (sha bytes) ->
  (win r = true -> lib_answer w = Answer 200 lib true /\ lists_only es (lib_path r) (sha lib)) ->
  (exists t s', install sha untar r w s = (t, Some Done, s')) \/ (ensure r = true /\ install sha untar r w s = ([], Some Skipped, s)).
Proof. exact succeeds. Qed.
Print Assumptions C37_succeeds.

(** After any history, a directory that "--ensure" would accept holds the
    headers of a genuine archive. *)
Theorem C37_history : forall sha untar genuine s, history sha untar genuine s -> forall d, s = Some d -> marked d -> exists bytes, genuine bytes /\ holds_headers untar d bytes.
Proof. exact history_spec. Qed.
Print Assumptions C37_history.

(** ** What does not hold *)

(** Killed after installVersion is written and before the checksums are
    compared, the process leaves an unverified archive that "--ensure" accepts. *)
Theorem C37_killed_before_comparison_refuted : ~ (forall sha untar genuine r w s t o s' d, (forall d, s = Some d -> ~ marked d) -> honest sha genuine r w -> install sha untar r w s = (t, o, s') -> In (Some d) t -> marked d ->
  exists bytes, genuine bytes /\ holds_headers untar d bytes).
Proof. exact Story.killed_before_comparison. Qed.
Print Assumptions C37_killed_before_comparison_refuted.
(** Installing again over a complete directory and being killed leaves half a
    header, still marked. *)
Theorem C37_killed_reinstalling_refuted : ~ (forall sha untar genuine r w s t s' d, (forall d, s = Some d -> exists bytes, genuine bytes /\ holds_headers untar d bytes) -> honest sha genuine r w -> install sha untar r w s = (t, Some Done, s') -> In (Some d) t -> marked d ->
  exists bytes, genuine bytes /\ holds_headers untar d bytes).
Proof. exact Story.killed_reinstalling. Qed.
Print Assumptions C37_killed_reinstalling_refuted.
(** On Windows the version file may be copied before the headers. *)
Theorem C37_killed_copying_refuted : ~ (forall sha untar genuine r w t s' d, honest sha genuine r w -> install sha untar r w None = (t, Some Done, s') -> In (Some d) t -> marked d -> exists bytes, genuine bytes /\ holds_headers untar d bytes).
Proof. exact Story.killed_copying. Qed.
Print Assumptions C37_killed_copying_refuted.
(** A failed installation does not leave things as they were. *)
Theorem C37_failure_removes_refuted : ~ (forall sha untar genuine r w s t s', honest sha genuine r w -> install sha untar r w s = (t, Some Threw, s') -> s' = s).
Proof. exact Story.failure_removes. Qed.
Print Assumptions C37_failure_removes_refuted.
(** A checksum behind a line that is not understood is not seen, and a genuine
    archive refused. *)
Theorem C37_hidden_checksum_refuted : ~ (forall sha untar r w bytes text s t s', smooth w -> win r = false -> local_tarball r = None -> tar_answer w = Answer 200 bytes true -> sound_archive untar bytes -> sums_answer w = Answer 200 text true ->
  listed text (tar_name r) (sha bytes) -> (forall x, listed text (tar_name r) x -> x = sha bytes) -> install sha untar r w s <> (t, Some Threw, s')).
Proof. exact Story.hidden_checksum. Qed.
Print Assumptions C37_hidden_checksum_refuted.
(** Headers left by an earlier installation stay. *)
Theorem C37_left_overs_refuted : ~ (forall sha untar genuine r w s t d p c, honest sha genuine r w -> install sha untar r w s = (t, Some Done, Some d) -> is_header p -> assoc p d = Some c -> exists bytes, genuine bytes /\ archived untar bytes p c).
Proof. exact Story.left_overs. Qed.
Print Assumptions C37_left_overs_refuted.
(** A file in use on Windows keeps its old content. *)
Theorem C37_busy_refuted : ~ (forall sha untar r w s t s', install sha untar r w s = (t, Some Done, s') -> (forall d, Permutation (list_order w d) d) -> ensure r = true -> exists d bytes, s' = Some d /\ verified_source sha r w bytes /\ holds_headers untar d bytes).
Proof. exact Story.busy_kept. Qed.
Print Assumptions C37_busy_refuted.
(** The library looked for is always "node.lib", the one written is named after
    the release: io.js is never found complete on Windows. *)
Theorem C37_iojs_refuted : ~ (forall sha untar r w s t d, smooth w -> ensure r = true -> (0 < needed r)%Z -> install sha untar r w s = (t, Some Done, Some d) -> exists s', install sha untar r w (Some d) = ([], Some Skipped, s')).
Proof. exact Story.iojs_again. Qed.
Print Assumptions C37_iojs_refuted.

(** Cases that meet the hypotheses. *)
Example C37_witness :
  (exists t, install Story.sha Story.untar (Story.ask true false) (Story.serve "good" Story.text Story.quiet) (Some [("installVersion", "9"); (Story.header, "wrong")]) =
     (t, Some Done, Some [("installVersion", "11" ++ String "010" ""); (Story.header, "right"); ("include/node/v8.h", "right too")])) /\
  (exists t, install Story.sha Story.untar (Story.ask true true) (Story.serve "good" Story.text Story.quiet) None =
     (t, Some Done, Some [(Story.header, "right"); ("include/node/v8.h", "right too"); ("x64/node.lib", "lib"); ("installVersion", "11" ++ String "010" "")])) /\
  (exists t, install Story.sha Story.untar (Story.ask false false) (Story.serve "bad" Story.text Story.quiet) None = (t, Some Threw, None)) /\
  honest Story.sha (eq "good") (Story.ask true false) (Story.serve "good" Story.text Story.quiet) /\ history Story.sha Story.untar (eq "good") (Some Story.right_dir) /\ marked Story.right_dir /\
  proper_list [("good", "node-v1-headers.tar.gz"); ("lib", "win-x64/node.lib"); ("lib", "win-x64/iojs.lib")].
Proof.
  split; [eexists; vm_compute; reflexivity|]. split; [eexists; vm_compute; reflexivity|]. split; [eexists; vm_compute; reflexivity|]. split; [apply (Story.honest_serve true false "good"); auto|]. split; [apply Story.a_history|]. split; [apply marked_iff; reflexivity|apply Story.proper].
Qed.
