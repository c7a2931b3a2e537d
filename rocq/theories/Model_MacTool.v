(** Model of gyp/pylib/gyp/mac_tool.py: filter-libtool, by which the Makefiles make static
    libraries on macOS (gyp/pylib/gyp/generator/make.py:211), and flock, with that of
    gyp/pylib/gyp/flock_tool.py.

    The commands that are run are parameters: their exit codes, negative for a signal, and
    what they write to standard error.  Simplifications: that is given as its lines, so
    splitlines (279) is left out, as is its decoding (278), which fails if it is not
    UTF-8; only ASCII blanks are blanks; locks and their files are left out. *)
From Coq Require Import ZArith.
From Verif Require Import Lib Str.
Local Open Scope string_scope.

(** ** the regular expressions, 263-270 *)
Fixpoint strip (p s : string) : option string :=
  match p with
  | "" => Some s
  | String a p' => match s with String b s' => if Ascii.eqb a b then strip p' s' else None | "" => None end
  end.
Fixpoint tails (s : string) : list string := s :: match s with "" => [] | String _ s' => tails s' end.
Definition ends (suffix s : string) : bool := existsb (String.eqb suffix) (tails s).
Definition blank (c : ascii) : bool := let n := nat_of_ascii c in (Nat.leb 9 n && Nat.leb n 13) || (Nat.leb 28 n && Nat.leb n 32).
(** \S* before a blank *)
Fixpoint skip_word (s : string) : string := match s with String c s' => if blank c then s else skip_word s' | "" => "" end.
(** file: .* has no symbols *)
Definition file_part (s : string) : bool := match strip "file: " s with Some r => ends " has no symbols" r | None => false end.
(** 263-265: libtool_re.match; what comes first, .*, is any part of the line *)
Definition libtool_re (line : string) : bool :=
  existsb (fun t =>
    match strip "libtool: " t with
    | None => false
    | Some r =>
      match strip "for architecture: " r with
      | Some r' => match strip " " (skip_word r') with Some q => file_part q | None => false end
      | None => false
      end || file_part r
    end) (tails line).
(** 266-270: libtool_re5.match *)
Definition libtool_re5 (line : string) : bool :=
  existsb (fun t =>
    match strip "libtool: warning for library: " t with
    | None => false
    | Some r => ends " the table of contents is empty (no object file members in the library define global symbols)" r
    end) (tails line).

(** ** filter-libtool *)
(** 285-288: the file to touch *)
Fixpoint output_of (cmd : list string) : option string :=
  match cmd with
  | a :: rest =>
    match rest with
    | b :: _ => if String.eqb a "-o" && ends ".a" b then Some b else output_of rest
    | [] => None
    end
  | [] => None
  end.
(** What is written to standard error, what is touched, and the value, or an exception. *)
Record result := { printed : list string; touched : list string; value : option Z }.
(** 260-289; [can_touch] tells if os.utime succeeds *)
Definition filter_libtool (can_touch : string -> bool) (cmd : list string) (err : list string) (returncode : Z) : result :=
  let shown := filter (fun line => negb (libtool_re line) && negb (libtool_re5 line)) err in
  if Z.eqb returncode 0 then
    match output_of cmd with
    | Some f => if can_touch f then {| printed := shown; touched := [f]; value := Some returncode |} else {| printed := shown; touched := []; value := None |}
    | None => {| printed := shown; touched := []; value := Some returncode |}
    end
  else {| printed := shown; touched := []; value := Some returncode |}.
(** 26-30: main, and sys.exit with a number; an exception ends with 1 *)
Definition exit_status (value : option Z) : Z := match value with Some code => Z.modulo code 256 | None => 1%Z end.
Definition mac_filter_libtool (can_touch : string -> bool) (cmd err : list string) (returncode : Z) : list string * list string * Z :=
  let r := filter_libtool can_touch cmd err returncode in (printed r, touched r, exit_status (value r)).

(** ** flock, once the lock is held *)
(** mac_tool.py:253-258 and 26-30 *)
Definition mac_flock (returncode : Z) : Z := exit_status (Some returncode).
(** flock_tool.py:16-18, 30, 51, 55: neither Dispatch nor main returns the value, and
    sys.exit(None) exits with 0. *)
Definition flock_tool (returncode : Z) : Z := 0%Z.
