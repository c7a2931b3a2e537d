(** Model of the path functions node-gyp computes with: Python's posixpath
    (Lib/posixpath.py, a library the code calls; POSIX only, the Windows
    branches of node-gyp's callers are not modelled) and
    gyp/pylib/gyp/common.py:78-218, gyp/pylib/gyp/input.py:2173-2210. *)
From Verif Require Import Lib Str Model_Names.
Local Open Scope string_scope.

(** ** posixpath *)

(** [s.split(c)] for a single character; never empty. *)
Fixpoint split_char (c : ascii) (s : string) : list string :=
  match s with
  | EmptyString => [""]
  | String a s' =>
    if Ascii.eqb a c then "" :: split_char c s'
    else match split_char c s' with
         | x :: xs => String a x :: xs
         | [] => [String a ""]      (* unreachable *)
         end
  end.

Definition dot : string := ".".
Definition dotdot : string := "..".
Definition sep : string := "/".

(** [p.startswith("/")], i.e. posixpath.isabs. *)
Definition isabs (p : string) : bool :=
  match p with String a _ => Ascii.eqb a slash | EmptyString => false end.

(** [p.endswith("/")]. *)
Fixpoint ends_slash (p : string) : bool :=
  match p with
  | EmptyString => false
  | String a EmptyString => Ascii.eqb a slash
  | String _ p' => ends_slash p'
  end.

(** posixpath.join with one further argument. *)
Definition path_join (a b : string) : string :=
  if isabs b then b
  else if String.eqb a "" || ends_slash a then a ++ b
  else a ++ sep ++ b.
(** [os.path.join( *l)] for a non-empty list. *)
Definition path_join_list (l : list string) : string :=
  match l with [] => "" | a :: l' => fold_left path_join l' a end.

(** posixpath.dirname. *)
Definition dirname (p : string) : string := fst (path_split p).

(** posixpath.normpath, its loop; [acc] is new_comps, last first. *)
Fixpoint norm_comps (absolute : bool) (acc : list string) (comps : list string) : list string :=
  match comps with
  | [] => acc
  | c :: comps' =>
    if String.eqb c "" || String.eqb c dot then norm_comps absolute acc comps'
    else if negb (String.eqb c dotdot)
            || (negb absolute && match acc with [] => true | _ => false end)
            || match acc with a :: _ => String.eqb a dotdot | [] => false end
         then norm_comps absolute (c :: acc) comps'
         else norm_comps absolute (tl acc) comps'
  end.

(** Number of slashes kept at the front. *)
Definition initial_slashes (p : string) : string :=
  match p with
  | String a q =>
    if Ascii.eqb a slash then
      match q with
      | String b r =>
        if Ascii.eqb b slash then (if isabs r then sep else sep ++ sep) else sep
      | EmptyString => sep
      end
    else ""
  | EmptyString => ""
  end.

Definition normpath (p : string) : string :=
  match p with
  | EmptyString => dot
  | _ =>
    let new_comps := rev (norm_comps (isabs p) [] (split_char slash p)) in
    match initial_slashes p ++ String.concat sep new_comps with
    | EmptyString => dot
    | r => r
    end
  end.

(** ** common.py:138-178 [RelativePath] *)

(** len(os.path.commonprefix([a, b])) on two lists. *)
Fixpoint common_prefix_length (a b : list string) : nat :=
  match a, b with
  | x :: a', y :: b' => if String.eqb x y then S (common_prefix_length a' b') else 0
  | _, _ => 0
  end.

(** [realpath] is os.path.realpath, which looks at the file system; it is a
    parameter.  follow_path_symlink=True (the default). *)
Definition relative_path (realpath : string -> string) (path relative_to : string) : string :=
  let path_split := split_char slash (realpath path) in
  let relative_to_split := split_char slash (realpath relative_to) in
  let prefix_len := common_prefix_length path_split relative_to_split in
  let relative_split := (repeat dotdot (length relative_to_split - prefix_len) ++ skipn prefix_len path_split)%list in
  match relative_split with
  | [] => ""
  | _ => path_join_list relative_split
  end.

(** common.py:181-192 [InvertRelativePath]; toplevel_dir defaults to ".". *)
Definition invert_relative_path (realpath : string -> string) (path toplevel_dir : string) : string :=
  match path with
  | EmptyString => path
  | _ => relative_path realpath toplevel_dir (path_join toplevel_dir path)
  end.

(** common.py:195-199 [FixIfRelativePath]. *)
Definition fix_if_relative_path (realpath : string -> string) (path relative_to : string) : string :=
  if isabs path then path else relative_path realpath path relative_to.

(** common.py:202-207 [UnrelativePath]. *)
Definition unrelative_path (path relative_to : string) : string :=
  normpath (path_join (dirname relative_to) path).

(** common.py:78-108 [ResolveTarget]; [None]/[""] build files are falsy. *)
Definition resolve_target (realpath : string -> string) (file target toolset : string)
  : string * string * string :=
  let '(parsed_file, name, parsed_toolset) := parse_qualified_target target in
  let file' :=
    match parsed_file with
    | None | Some EmptyString => file
    | Some pf =>
      match file with
      | EmptyString => pf
      | _ =>
        let f := normpath (path_join (dirname file) pf) in
        if isabs f then f else relative_path realpath f dot
      end
    end in
  let toolset' := match parsed_toolset with None | Some EmptyString => toolset | Some s => s end in
  (file', name, toolset').

(** ** input.py:2173-2210 [MakePathRelative] *)

(** exception_re: an optional single or double quote, then one of - / $ < > ^,
    at the start. *)
Definition exception_char (a : ascii) : bool :=
  existsb (Ascii.eqb a) ["-"; "/"; "$"; "<"; ">"; "^"]%char.
Definition exception_match (item : string) : bool :=
  match item with
  | EmptyString => false
  | String a rest =>
    exception_char a ||
    (existsb (Ascii.eqb a) [""""; "'"]%char &&
     match rest with String b _ => exception_char b | EmptyString => false end)
  end.

(** [s.replace(a, b)] for single characters. *)
Fixpoint replace_char (a b : ascii) (s : string) : string :=
  match s with
  | EmptyString => ""
  | String c s' => String (if Ascii.eqb c a then b else c) (replace_char a b s')
  end.
Definition backslash : ascii := "\"%char.

Definition make_path_relative (realpath : string -> string) (to_file fro_file item : string) : string :=
  if String.eqb to_file fro_file || exception_match item then item
  else
    let ret := replace_char backslash slash
                 (normpath (path_join (relative_path realpath (dirname fro_file) (dirname to_file)) item)) in
    if ends_slash item then ret ++ sep else ret.
