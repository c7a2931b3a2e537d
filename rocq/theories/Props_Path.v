(** Properties of path computations (C26, C53, C54). *)
From Verif Require Import Lib Str Model_Names Model_Path Spec_Path Proof_Path Proof_Path2.
Local Open Scope string_scope.

(** C26: joining the relative path onto the directory it is relative to, and
    normalising, gives the (real) path; the result is never absolute.
    Whatever the file system says realpath is. *)
Theorem C26_relative_path : forall realpath path relative_to p r,
  place_ok p -> place_ok r -> realpath path = absolute p -> realpath relative_to = absolute r ->
  normpath (path_join (realpath relative_to) (relative_path realpath path relative_to)) = realpath path /\
  isabs (relative_path realpath path relative_to) = false.
Proof. exact relative_path_final. Qed.
Print Assumptions C26_relative_path.

Example C26_witness :
  place_ok ["y"; "x"; "w"] /\ plain_realpath ["w"] "x/./y" = absolute ["y"; "x"; "w"] /\
  relative_path (plain_realpath ["w"]) "x/./y" "x/z/q" = "../../y" /\
  relative_path (plain_realpath []) "/" "/a/b" = "../../" /\
  relative_path (plain_realpath []) "/a" "/" = "../a".
Proof. split; [apply place_okb_ok; reflexivity|]. repeat split. Qed.

(** C26: without symbolic links the result, walked from [relative_to], leads to
    where [path] leads from the current directory. *)
Theorem C26_relative_path_leads : forall cwd path relative_to, place_ok cwd ->
  locate (locate cwd relative_to) (relative_path (plain_realpath cwd) path relative_to) = locate cwd path /\
  isabs (relative_path (plain_realpath cwd) path relative_to) = false.
Proof. exact relative_path_plain. Qed.
Print Assumptions C26_relative_path_leads.

(** C26: the inverse of a relative path leads back to the top. *)
Theorem C26_invert_leads_back : forall cwd path top, place_ok cwd ->
  locate (locate (locate cwd top) path) (invert_relative_path (plain_realpath cwd) path top) = locate cwd top.
Proof. exact invert_back. Qed.
Print Assumptions C26_invert_leads_back.

(** C26: the docstring's claim (with the "." that normpath really returns) for
    paths without "..". *)
Theorem C26_invert_normalises : forall cwd path, place_ok cwd -> path <> "" -> isabs path = false ->
  (forall c, In c (split_char slash path) -> c <> "..") ->
  normpath (path_join path (invert_relative_path (plain_realpath cwd) path ".")) = ".".
Proof. exact invert_docstring. Qed.
Print Assumptions C26_invert_normalises.

Example C26_invert_witness :
  place_ok ["w"] /\ (forall c, In c (split_char slash "out/./Default/") -> c <> "..") /\
  invert_relative_path (plain_realpath ["w"]) "out/./Default/" "." = "../..".
Proof.
  split; [apply place_okb_ok; reflexivity|]. split; [|reflexivity].
  intros c [<-|[<-|[<-|[<-|[]]]]]; discriminate.
Qed.

(** C26: the docstring's claim for all relative paths is false of the code. *)
Theorem C26_invert_docstring_refuted : exists cwd path, place_ok cwd /\ path <> "" /\ isabs path = false /\
  normpath (path_join path (invert_relative_path (plain_realpath cwd) path ".")) <> ".".
Proof. exact invert_docstring_up. Qed.
Print Assumptions C26_invert_docstring_refuted.

(** C26: UnrelativePath and FixIfRelativePath keep the place. *)
Theorem C26_unrelative : forall cwd path relative_to,
  locate cwd (unrelative_path path relative_to) = locate (locate cwd (dirname relative_to)) path.
Proof. exact unrelative_spec. Qed.
Print Assumptions C26_unrelative.

Theorem C26_fix_if_relative : forall cwd path relative_to, place_ok cwd ->
  locate (locate cwd relative_to) (fix_if_relative_path (plain_realpath cwd) path relative_to) = locate cwd path.
Proof. exact fix_if_relative_spec. Qed.
Print Assumptions C26_fix_if_relative.

(** C53: a path moved from one build file into another still denotes the same
    file (and keeps its trailing slash); protected items are untouched. *)
Theorem C53_make_path_relative : forall cwd to_file fro_file item, place_ok cwd ->
  (protected item -> make_path_relative (plain_realpath cwd) to_file fro_file item = item) /\
  (~ protected item ->
   (forall x, In x cwd -> has_char backslash x = false) -> has_char backslash fro_file = false -> has_char backslash item = false ->
   locate (locate cwd (dirname to_file)) (make_path_relative (plain_realpath cwd) to_file fro_file item) =
   locate (locate cwd (dirname fro_file)) item /\
   ends_slash (make_path_relative (plain_realpath cwd) to_file fro_file item) = ends_slash item).
Proof. exact make_path_relative_final. Qed.
Print Assumptions C53_make_path_relative.

Example C53_witness :
  place_ok ["w"] /\ ~ protected "src/a.cc" /\
  make_path_relative (plain_realpath ["w"]) "a/x.gyp" "b/c/y.gypi" "src/a.cc" = "../b/c/src/a.cc" /\
  make_path_relative (plain_realpath ["w"]) "a/x.gyp" "b/c/y.gypi" "../inc/" = "../b/inc/" /\
  make_path_relative (plain_realpath ["w"]) "a/x.gyp" "b/c/y.gypi" "<(VAR)/z" = "<(VAR)/z".
Proof. split; [apply place_okb_ok; reflexivity|]. split; [rewrite <- exception_iff; discriminate|]. repeat split. Qed.

(** C53 for items with a backslash (a legal file-name character on POSIX): false
    of the code. *)
Theorem C53_backslash_refuted : exists cwd to_file fro_file item, place_ok cwd /\ ~ protected item /\
  locate (locate cwd (dirname to_file)) (make_path_relative (plain_realpath cwd) to_file fro_file item) <>
  locate (locate cwd (dirname fro_file)) item.
Proof. exact make_path_relative_backslash. Qed.
Print Assumptions C53_backslash_refuted.

(** C54: a dependency FILE:TARGET#TOOLSET written in a build file resolves to the
    file it names from that build file's directory; name and toolset as
    written, with the given default toolset. *)
Theorem C54_resolve_target : forall cwd file pf name ts target toolset, place_ok cwd -> file <> "" -> pf <> "" ->
  parse_qualified_target target = (Some pf, name, ts) ->
  exists f, resolve_target (plain_realpath cwd) file target toolset =
    (f, name, match ts with None | Some EmptyString => toolset | Some s => s end) /\
    locate cwd f = locate (locate cwd (dirname file)) pf /\
    (isabs f = isabs (normpath (path_join (dirname file) pf))).
Proof. exact resolve_file. Qed.
Print Assumptions C54_resolve_target.

(** C54: references to the same file resolve to the same spelling, from
    whatever build file and however written, unless one is absolute. *)
Theorem C54_resolve_canonical : forall cwd file1 pf1 n1 t1 file2 pf2 n2 t2 target1 target2 toolset1 toolset2 f1 f2,
  file1 <> "" -> pf1 <> "" -> file2 <> "" -> pf2 <> "" ->
  parse_qualified_target target1 = (Some pf1, n1, t1) -> parse_qualified_target target2 = (Some pf2, n2, t2) ->
  fst (fst (resolve_target (plain_realpath cwd) file1 target1 toolset1)) = f1 ->
  fst (fst (resolve_target (plain_realpath cwd) file2 target2 toolset2)) = f2 ->
  isabs f1 = false -> isabs f2 = false -> place_ok cwd ->
  locate (locate cwd (dirname file1)) pf1 = locate (locate cwd (dirname file2)) pf2 -> f1 = f2.
Proof. exact resolve_canonical. Qed.
Print Assumptions C54_resolve_canonical.

Example C54_witness :
  resolve_target (plain_realpath ["w"]) "a/x.gyp" "../b/y.gyp:t" "target" = ("b/y.gyp", "t", "target") /\
  resolve_target (plain_realpath ["w"]) "c/d/z.gyp" "../../../w/b/./y.gyp:t#host" "target" = ("b/y.gyp", "t", "host") /\
  resolve_target (plain_realpath ["w"]) "c/d/z.gyp" "t" "target" = ("c/d/z.gyp", "t", "target").
Proof. repeat split. Qed.

(** C54 with absolute references included: false of the code (one target gets
    two names). *)
Theorem C54_absolute_refuted : exists cwd file target1 target2 toolset, place_ok cwd /\
  (exists p1 n1 p2 n2, parse_qualified_target target1 = (Some p1, n1, None) /\ parse_qualified_target target2 = (Some p2, n2, None) /\
     n1 = n2 /\ locate (locate cwd (dirname file)) p1 = locate (locate cwd (dirname file)) p2) /\
  resolve_target (plain_realpath cwd) file target1 toolset <> resolve_target (plain_realpath cwd) file target2 toolset.
Proof. exact resolve_absolute_differs. Qed.
Print Assumptions C54_absolute_refuted.
