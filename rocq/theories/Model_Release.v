(** Model of lib/process-release.js, of the version handling at lib/install.js:19-46
    and 374-400 (eaccesFallback), and of lib/remove.js.

    semver (a dependency) is modelled as far as it is used: semver.parse in
    strict mode, .version, .major, and semver.satisfies for the one range.
    Strings are those of JavaScript with only ASCII white space; options and
    arguments are strings; an empty string counts as absent, as in JavaScript.
    Simplifications: url.resolve and url.parse are modelled for URLs of the form
    scheme://host/path in normal form, without query or fragment; path is the
    POSIX one. *)
From Coq Require Import ZArith.
From Verif Require Import Lib Str Js Model_Value.
From Verif Require Model_Text Model_Expand.
Local Open Scope string_scope.

(** ** semver *)

Record semver := { major : N; minor : N; patch : N; prerelease : list string }.

Definition is_digit (a : ascii) : bool := (N.leb 48 (N_of_ascii a) && N.leb (N_of_ascii a) 57)%N.
Definition id_char (a : ascii) : bool :=
  is_digit a || (N.leb 65 (N_of_ascii a) && N.leb (N_of_ascii a) 90) || (N.leb 97 (N_of_ascii a) && N.leb (N_of_ascii a) 122) || Ascii.eqb a "-".
Fixpoint all_chars (f : ascii -> bool) (s : string) : bool := match s with EmptyString => true | String a s' => f a && all_chars f s' end.
(** s.split(c) for a character *)
Fixpoint split_on (c : ascii) (s : string) : list string :=
  match s with
  | EmptyString => [""]
  | String a s' => if Ascii.eqb a c then "" :: split_on c s' else match split_on c s' with [] => [String a ""] | l :: ls => String a l :: ls end
  end.
(** What comes before the first [c], and after it. *)
Fixpoint split_first (c : ascii) (s : string) : string * option string :=
  match s with
  | EmptyString => ("", None)
  | String a s' => if Ascii.eqb a c then ("", Some s') else let '(x, y) := split_first c s' in (String a x, y)
  end.
(** 0|[1-9]\d* *)
Definition numeric (s : string) : bool := Model_Text.is_str_canonical_int s && negb (has_char "-" s).
Definition max_safe : N := 9007199254740991.
(** A number of the main version: numeric and not above MAX_SAFE_INTEGER. *)
Definition number (s : string) : option N := if numeric s then let n := Z.to_N (Model_Expand.int_of s) in if N.leb n max_safe then Some n else None else None.
(** A part of the prerelease: a number, or letters, digits and dashes of which
    one is not a digit. *)
Definition pre_id (s : string) : bool := numeric s || (negb (String.eqb s "") && all_chars id_char s && negb (all_chars is_digit s)).
Definition build_id (s : string) : bool := negb (String.eqb s "") && all_chars id_char s.
Definition parse_main (s : string) (pre : list string) : option semver :=
  match split_on "." s with
  | [a; b; c] => match number a, number b, number c with Some x, Some y, Some z => Some {| major := x; minor := y; patch := z; prerelease := pre |} | _, _, _ => None end
  | _ => None
  end.
(** semver.parse: v?MAIN(-PRE)?(\+BUILD)?, at most 256 characters *)
Definition parse (s : string) : option semver :=
  if (256 <? String.length s)%nat then None else
  let t := match js_trim s with String "v" t => t | t => t end in
  let '(front, build) := split_first "+" t in
  if match build with Some b => forallb build_id (split_on "." b) | None => true end then
    let '(main, pre) := split_first "-" front in
    match pre with
    | Some p => if forallb pre_id (split_on "." p) then parse_main main (split_on "." p) else None
    | None => parse_main main []
    end
  else None.
(** A number in decimal, most significant digit first *)
Definition decimal (n : N) : string := Model_Text.int_str (Z.of_N n).
Fixpoint join (sep : string) (l : list string) : string := match l with [] => "" | [x] => x | x :: l' => x ++ sep ++ join sep l' end.
(** .version *)
Definition version (v : semver) : string :=
  decimal (major v) ++ "." ++ decimal (minor v) ++ "." ++ decimal (patch v) ++ match prerelease v with [] => "" | p => "-" ++ join "." p end.
(** semver.satisfies(v, '>= 3.0.0 || ~0.12.10 || ~0.10.42'): never for a
    prerelease *)
Definition has_headers (v : semver) : bool :=
  match prerelease v with
  | [] => (N.leb 3 (major v)) || ((N.eqb (major v) 0) && (N.eqb (minor v) 12) && (N.leb 10 (patch v))) || ((N.eqb (major v) 0) && (N.eqb (minor v) 10) && (N.leb 42 (patch v)))
  | _ => false
  end%N.

(** ** URLs *)

(** url.resolve(base, rel) *)
Definition resolve (base rel : string) : string := match rsplit1 slash base with Some (l, _) => l ++ "/" ++ rel | None => rel end.
(** The path of a URL: what follows the host, from its slash on *)
Fixpoint after_scheme (s : string) : string :=
  match s with
  | EmptyString => ""
  | String a s' => match s with String ":" (String "/" (String "/" t)) => t | _ => after_scheme s' end
  end.
Definition url_path (u : string) : string := match split_first "/" (after_scheme u) with (_, Some p) => "/" ++ p | (_, None) => "/" end.
(** path.relative(a, b) on absolute paths *)
Definition components (p : string) : list string := filter (fun x => negb (String.eqb x "")) (split_on "/" p).
Fixpoint drop_common (a b : list string) : list string * list string :=
  match a, b with
  | x :: a', y :: b' => if String.eqb x y then drop_common a' b' else (a, b)
  | _, _ => (a, b)
  end.
Definition relative (a b : string) : string := let '(x, y) := drop_common (components a) (components b) in join "/" (map (fun _ => "..") x ++ y)%list.

(** What comes after [p] in [s], if [s] starts with it. *)
Fixpoint after_prefix (p s : string) : option string :=
  match p, s with
  | EmptyString, _ => Some s
  | String a p', String b s' => if Ascii.eqb a b then after_prefix p' s' else None
  | _, EmptyString => None
  end.
(** The first of [archs] such that [s] starts with /win-<arch>/, and what
    follows. *)
Fixpoint bits_here (archs : list string) (s : string) : option string :=
  match archs with
  | [] => None
  | a :: archs' => match after_prefix ("/win-" ++ a ++ "/") s with Some t => Some t | None => bits_here archs' s end
  end.
(** s.replace(/\/win-(...)\//, '/win-' + arch + '/'): None if nothing matches *)
Fixpoint replace_bits (archs : list string) (arch s : string) : option string :=
  match bits_here archs s with
  | Some t => Some ("/win-" ++ arch ++ "/" ++ t)
  | None => match s with EmptyString => None | String a s' => option_map (String a) (replace_bits archs arch s') end
  end.
(** process-release.js:12-13 *)
Definition bits : list string := ["x86"; "x64"; "arm64"].
Definition bits3 : list string := ["x86"; "ia32"; "x64"].
(** process-release.js:128-143 *)
Definition resolve_lib_url (name default_url arch : string) (major : N) : string :=
  let base := resolve default_url "" in
  let has_lib_url := match replace_bits bits arch default_url with Some _ => true | None => false end
    || (N.eqb major 3 && match replace_bits bits3 arch default_url with Some _ => true | None => false end) in
  if has_lib_url then match replace_bits (if N.eqb major 3 then bits3 else bits) arch default_url with Some u => u | None => default_url end
  else if N.leb 1 major then resolve base ("win-" ++ arch ++ "/" ++ name ++ ".lib")
  else resolve base ((if String.eqb arch "x86" then "" else arch ++ "/") ++ name ++ ".lib").

(** ** process-release.js:19-122 *)

(** gyp.opts.target, gyp.opts['dist-url'], gyp.opts.disturl,
    process.env.NODEJS_ORG_MIRROR *)
Record options := { target : string; dist_url : string; disturl : string; mirror : string }.
(** process.release *)
Record node_release := { r_name : string; headers_url : string; lib_url : string }.
(** The parts of the result that are used: for each of ia32, x64 and arm64 the
    URL of the library and its path. *)
Record release := { r_version : string; r_semver : semver; name : string; base_url : string; tarball_url : string; shasums_url : string; version_dir : string;
  libs : list (string * (string * string)) }.
Inductive result := Invalid (v : string) | Release (r : release).

(** a || b *)
Definition or (a b : string) : string := match a with EmptyString => b | _ => a end.
(** name.replace(/io\.js/, 'iojs') *)
Fixpoint no_dot (s : string) : string :=
  match s with
  | EmptyString => ""
  | String a s' => match after_prefix "io.js" s with Some t => "iojs" ++ t | None => String a (no_dot s') end
  end.
(** process-release.js:20 *)
Definition chosen (argv : list string) (o : options) (default_version : string) : string :=
  match argv with
  | a :: _ => match parse a with Some _ => or a (or (target o) default_version) | None => or (target o) default_version end
  | [] => or (target o) default_version
  end.

(** process-release.js:102-121 *)
Definition make_release (sv : semver) (nm base lib_base tarball : string) : result :=
  let lib arch := let u := resolve_lib_url nm lib_base arch (major sv) in (u, relative (url_path base) (url_path u)) in
  Release {| r_version := version sv; r_semver := sv; name := nm; base_url := base; tarball_url := tarball; shasums_url := resolve base "SHASUMS256.txt";
    version_dir := (if String.eqb nm "node" then "" else nm ++ "-") ++ version sv;
    libs := [("ia32", lib "x86"); ("x64", lib "x64"); ("arm64", lib "arm64")] |}.

Definition process_release (argv : list string) (o : options) (default_version : string) (default_release : option node_release) : result :=
  let v := chosen argv o default_version in
  match parse v with
  | None => Invalid v
  | Some sv =>
    let ver := version sv in
    let is_default := match parse default_version with Some d => String.eqb ver (version d) | None => false end in
    let rel := if is_default then default_release else None in
    let nm := match rel with
              | Some r => no_dot (r_name r)
              | None => if N.leb 1 (major sv) && N.ltb (major sv) 4 then "iojs" else "node"
              end in
    let override := or (dist_url o) (or (disturl o) (mirror o)) in
    let dist_base := (match override with EmptyString => "https://nodejs.org/dist" | u => rstrip "/" u end) ++ "/v" ++ ver ++ "/" in
    let mk := make_release sv nm in
    let old := mk dist_base dist_base (resolve dist_base (nm ++ "-v" ++ ver ++ (if has_headers sv then "-headers" else "") ++ ".tar.gz")) in
    match rel, override with
    | Some r, EmptyString =>
      match headers_url r with
      | EmptyString => old
      | h => mk (resolve h "") (or (lib_url r) (resolve h "")) h
      end
    | _, _ => old
    end
  end.

(** ** install.js: the version that is installed *)

(** install.js:19-46: [Some dir] to be installed, None if there is an error or
    nothing to do.  semver.lt(v, '0.8.0') compares the numbers, a prerelease
    coming before its release. *)
Definition too_old (v : semver) : bool :=
  N.eqb (major v) 0 && (N.ltb (minor v) 8 || (N.eqb (minor v) 8 && N.eqb (patch v) 0 && match prerelease v with [] => false | _ => true end)).
Definition installs (argv : list string) (o : options) (default_version : string) (default_release : option node_release) : option string :=
  match process_release argv o default_version default_release with
  | Invalid _ => None
  | Release r =>
    if too_old (r_semver r) then None
    else match prerelease (r_semver r) with
         | p :: _ => if String.eqb p "pre" then None else Some (version_dir r)
         | [] => Some (version_dir r)
         end
  end.
(** install.js:374-400: after EACCES, install is called again with one more
    argument in front, in another directory. *)
Definition noretry : string := "--node_gyp_internal_noretry".
Definition installs_in_fallback argv o default_version default_release := if mem noretry argv then None else installs (noretry :: argv) o default_version default_release.

(** ** lib/remove.js *)

(** path.resolve(dir, name) with [dir] absolute: the components of the path *)
Fixpoint normalize (stack comps : list string) : list string :=
  match comps with
  | [] => rev stack
  | x :: cs => if String.eqb x "" || String.eqb x "." then normalize stack cs else if String.eqb x ".." then normalize (tl stack) cs else normalize (x :: stack) cs
  end.
Definition resolve_path (dir : list string) (p : string) : list string :=
  match p with
  | String a _ => if Ascii.eqb a "/" then normalize [] (split_on "/" p) else normalize (rev dir) (split_on "/" p)
  | EmptyString => dir
  end.
(** A file system: the paths there are. *)
Definition fs := list (list string).
Fixpoint below (p q : list string) : bool := match p, q with [] , _ => true | x :: p', y :: q' => String.eqb x y && below p' q' | _, [] => false end.
Inductive removed := NoVersion | Already | Removed (f : fs).
Definition remove (dev_dir : list string) (argv : list string) (target : string) (f : fs) : removed :=
  match or (match argv with a :: _ => a | [] => "" end) target with
  | EmptyString => NoVersion
  | v =>
    let v := match parse v with Some sv => version sv | None => v end in
    let p := resolve_path dev_dir v in
    if existsb (fun q => below p q) f then Removed (filter (fun q => negb (below p q)) f) else Already
  end.
