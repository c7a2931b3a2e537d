(** What it means that the development files of a version are installed. *)
From Coq Require Import ZArith NArith.
From Verif Require Import Lib Str Js Spec_Vs Model_Install.
Local Open Scope string_scope.

(** Header files and gypi files. *)
Definition is_header (p : string) : Prop :=
  exists folder stem ext, p = folder ++ stem ++ ext /\ (folder = "" \/ exists f, folder = f ++ "/") /\ has_char slash stem = false /\ stem <> "" /\ (ext = ".h" \/ ext = ".gypi").

(** A line of a text, and what it says: a checksum, white space, a file name,
    perhaps with "./" before it. *)
Definition newline_char : ascii := "010".
Definition a_line (text line : string) : Prop :=
  exists pre post, text = pre ++ line ++ post /\ (pre = "" \/ exists p, pre = p ++ String newline_char "") /\ (post = "" \/ exists q, post = String newline_char q) /\ has_char newline_char line = false.
Definition white (s : string) : Prop := forall a, has_char a s = true -> js_space a = true.
Definition no_white (s : string) : Prop := forall a, has_char a s = true -> js_space a = false.
Definition says (line name sum : string) : Prop :=
  exists w1 w2 w3 dots, line = w1 ++ sum ++ w2 ++ (dots ++ name) ++ w3 /\ white w1 /\ white w2 /\ w2 <> "" /\ white w3 /\
    sum <> "" /\ no_white sum /\ dots ++ name <> "" /\ no_white (dots ++ name) /\ (dots = "./" \/ (dots = "" /\ forall t, name <> "./" ++ t)).
(** The list of checksums gives [sum] for [name]. *)
Definition listed (text name sum : string) : Prop := exists line, a_line text line /\ says line name sum.

Section Installed.
Variable sha : string -> string.
Variable untar : string -> list (string * string) * bool.

(** The content an archive gives a file: that of its last occurrence. *)
Definition archived (bytes p c : string) : Prop := exists before_ after, fst (untar bytes) = (before_ ++ (p, c) :: after)%list /\ ~ In p (map fst after).
(** Reading the archive gave no warning and there is a header in it. *)
Definition sound_archive (bytes : string) : Prop := snd (untar bytes) = false /\ exists p c, archived bytes p c /\ is_header p.
(** All headers of the archive are in the directory, as they are in the
    archive. *)
Definition holds_headers (d : dir) (bytes : string) : Prop := sound_archive bytes /\ forall p c, is_header p -> archived bytes p c -> assoc p d = Some c.

(** The directory says it was completed by some release of node-gyp (these
    are numbered from 1). *)
Definition marked_with (d : dir) (n : Z) : Prop := exists v, assoc "installVersion" d = Some v /\ whole v n.
Definition marked (d : dir) : Prop := exists n, (0 < n)%Z /\ marked_with d n.

(** The archive came with the given request and answers: from the local file,
    or downloaded whole with the checksum that was listed. *)
Definition verified_source (r : request) (w : happening) (bytes : string) : Prop :=
  match local_tarball r with
  | Some b => bytes = b
  | None => tar_answer w = Answer 200 bytes true /\ exists text, sums_answer w = Answer 200 text true /\ listed text (tar_name r) (sha bytes)
  end.
(** where the library is put *)
Definition lib_place (r : request) : string := arch r ++ "/" ++ release_name r ++ ".lib".
Definition verified_lib (r : request) (w : happening) (lib : string) : Prop :=
  lib_answer w = Answer 200 lib true /\ exists text, sums_answer w = Answer 200 text true /\ listed text (lib_path r) (sha lib).

(** Nothing is in the way of copying, and listing a directory gives its files. *)
Definition undisturbed (w : happening) : Prop := (forall n, busy w n = false) /\ forall d, Permutation (list_order w d) d.

(** [genuine] archives: whatever has a checksum that was listed, and the local
    file.  The library and the archive are listed under different names. *)
Definition honest (genuine : string -> Prop) (r : request) (w : happening) : Prop :=
  (0 < needed r)%Z /\ undisturbed w /\ lib_path r <> tar_name r /\ (forall text bytes, sums_answer w = Answer 200 text true -> listed text (tar_name r) (sha bytes) -> genuine bytes) /\
  (forall b, local_tarball r = Some b -> genuine b).

(** What may have happened to the version directory: runs of install and
    remove that came to their end (with any rollback working), runs that were
    killed leaving the directory unmarked, and runs that would have succeeded,
    killed at any point, if the directory was not marked before (on POSIX). *)
Inductive history (genuine : string -> Prop) : state -> Prop :=
| fresh : history genuine None
| ran : forall s r w t o s', history genuine s -> honest genuine r w -> install sha untar r w s = (t, Some o, s') -> o <> NotRolledBack -> history genuine s'
| removed : forall s w t s', history genuine s -> remove w s = (t, Some tt, s') -> history genuine s'
| killed : forall s r w t o s' d, history genuine s -> install sha untar r w s = (t, o, s') -> In (Some d) t -> ~ marked d -> history genuine (Some d)
| killed_in_removal : forall s w t o s' d, history genuine s -> remove w s = (t, o, s') -> In (Some d) t -> ~ marked d -> history genuine (Some d)
| killed_in_success : forall s r w t s' k, history genuine s -> honest genuine r w -> win r = false -> (forall d, s = Some d -> ~ marked d) ->
    install sha untar r w s = (t, Some Done, s') -> In k t -> history genuine k.
End Installed.

(** ** When an install has to succeed *)

(** The text of a list of checksums (SHASUMS256.txt). *)
Definition shasums (entries : list (string * string)) : string := fold_right (fun e rest => fst e ++ "  " ++ snd e ++ String newline_char rest) "" entries.
Definition proper_list (entries : list (string * string)) : Prop :=
  Forall (fun e => fst e <> "" /\ no_white (fst e) /\ snd e <> "" /\ no_white (snd e) /\ forall t, snd e <> "./" ++ t) entries.
(** One checksum for that name, this one. *)
Definition lists_only (entries : list (string * string)) (name sum : string) : Prop := In (sum, name) entries /\ forall x, In (x, name) entries -> x = sum.
(** No call fails. *)
Definition smooth (w : happening) : Prop := (forall x, fails w x = None) /\ (forall n, entry_fails w n = false) /\ (forall n, busy w n = false).
