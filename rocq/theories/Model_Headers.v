(** Model of lib/configure.js:16-117 (which headers are used, and whether Visual
    Studio is looked for) and of lib/find-node-directory.js. *)
From Verif Require Import Lib Str Model_Args Model_Configure.
Local Open Scope string_scope.

(** The lines of a text, for ^ with the flag m.  Simplification: ASCII, so \n and \r. *)
Definition line_end (a : ascii) : bool := Ascii.eqb a "010" || Ascii.eqb a "013".
Fixpoint lines (s : string) : list string :=
  match s with
  | EmptyString => [""]
  | String a s' => match lines s' with l :: ls => if line_end a then "" :: l :: ls else String a l :: ls | [] => [] end
  end.
Fixpoint strip_prefix (p s : string) : option string :=
  match p, s with
  | EmptyString, _ => Some s
  | String a p', String b s' => if Ascii.eqb a b then strip_prefix p' s' else None
  | _, EmptyString => None
  end.
Fixpoint leading_digits (s : string) : string := match s with String a s' => if is_digit a then String a (leading_digits s') else "" | EmptyString => "" end.
(** configure.js:16-18: /^#define NAME (\d+)/m, the group *)
Definition line_number (name line : string) : option string :=
  match strip_prefix ("#define " ++ name ++ " ") line with
  | Some r => match leading_digits r with EmptyString => None | d => Some d end
  | None => None
  end.
Fixpoint first_number (name : string) (ls : list string) : option string :=
  match ls with [] => None | l :: ls' => match line_number name l with Some d => Some d | None => first_number name ls' end end.
(** configure.js:40-47 *)
Definition header_version (text : string) : option string :=
  match first_number "NODE_MAJOR_VERSION" (lines text), first_number "NODE_MINOR_VERSION" (lines text), first_number "NODE_PATCH_VERSION" (lines text) with
  | Some a, Some b, Some c => Some (a ++ "." ++ b ++ "." ++ c)
  | _, _, _ => None
  end.

(** s.replace(/^~/, home): in the replacement two dollar signs stand for one,
    dollar-ampersand for the match, dollar-backquote for what is before it
    (nothing) and dollar-quote for what is behind it. *)
Fixpoint replacement (rest home : string) : string :=
  match home with
  | String "$" (String a h) =>
    if Ascii.eqb a "$" then String "$" (replacement rest h)
    else if Ascii.eqb a "&" then String "~" (replacement rest h)
    else if Ascii.eqb a "096" then replacement rest h
    else if Ascii.eqb a "039" then rest ++ replacement rest h
    else String "$" (String a (replacement rest h))
  | String a h => String a (replacement rest h)
  | EmptyString => ""
  end.
Definition expand_home (home d : string) : string := match d with String "~" rest => replacement rest home ++ rest | _ => d end.

(** configure.js:30-86 (getNodeDir).  [read] is readFileSync; [prefix_header] the
    path of node_version.h under node_prefix; [installed] path.resolve(gyp.devDir,
    release.versionDir). *)
Record header_place := { opt_nodedir : option string; use_prefix : bool; node_prefix : string; prefix_header : string; read : string -> option string;
  home : string; version : string; version_ok : bool; tarball : bool; installed : string }.
Inductive headers := In_directory (d : string) | Install (version : string) (ensure : bool) (d : string) | Invalid_version.
Definition get_node_dir (p : header_place) : headers :=
  let nodedir :=
    match given_text (opt_nodedir p) with
    | Some d => Some d
    | None =>
      if use_prefix p then
        match match read p (prefix_header p) with Some t => header_version t | None => None end with
        | Some v => if String.eqb v (version p) then given_text (Some (node_prefix p)) else None
        | None => None
        end
      else None
    end in
  match nodedir with
  | Some d => In_directory (expand_home (home p) d)
  | None => if version_ok p then Install (version p) (negb (tarball p)) (installed p) else Invalid_version
  end.

(** configure.js:95-109 (usingMakeGenerator), going through the arguments from
    the end; [next] is argv[i + 1]. *)
Fixpoint using_make_from (argv : list string) : bool :=
  match argv with
  | [] => false
  | a :: rest =>
    using_make_from rest ||
    (if String.eqb a "-f" || String.eqb a "--format" then match rest with f :: _ => prefix_of "make" f | [] => false end else prefix_of "--format=make" a)
  end.
Definition looks_for_vs (p : place) (argv : list string) : bool := win p && negb (using_make_from argv).

(** find-node-directory.js.  Paths are absolute and given by their names from the
    innermost outwards; path.basename of the root directory is empty. *)
Definition base (p : list string) : string := match p with c :: _ => c | [] => "" end.
Definition up (n : nat) (p : list string) : list string := skipn n p.
Definition find_node_directory (script : list string) (windows : bool) (exec_path : list string) : option (list string) :=
  let npm_parent := up 4 script in
  if String.eqb (base npm_parent) "deps" then Some (up 1 npm_parent)
  else if String.eqb (base npm_parent) "node_modules" then Some (if windows then up 1 npm_parent else up 2 npm_parent)
  else
    let node_dir := up 1 exec_path in
    if String.eqb (base node_dir) "bin" then Some (up 1 node_dir)
    else if String.eqb (base node_dir) "Release" || String.eqb (base node_dir) "Debug" then Some (if windows then up 1 node_dir else up 2 node_dir)
    else None.
