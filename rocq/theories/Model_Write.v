(** Model of gyp/pylib/gyp/common.py:330-416, WriteOnDiff, over a file system
    in which every call may fail and the process may die between any two
    calls.  Two names matter: the file itself and the temporary file, whose
    name mkstemp chooses so that it did not exist.  Not modelled: permissions,
    other processes, and data that the machine loses on a power failure. *)
From Verif Require Import Lib.
Local Open Scope string_scope.

(** What a name can stand for: a regular file with its content, or something
    else (a directory).  The number is the identity of the file (its inode). *)
Inductive node := File (content : string) | NotFile.
Record fs := { target : option (node * nat); temp : option (node * nat) }.

(** The places where a call to the system can fail. *)
Inductive site := Mkstemp | Fdopen | UnlinkFdopen | Write (n : nat) | CloseTemp | Compare | UnlinkSame | Umask | Chmod | RemoveTarget | Rename | UnlinkHandler.
(** What happens: which calls fail; how many bytes of the output have reached
    the file before close (the file object buffers them); the identity of the
    new file; the platform. *)
Record happening := { fails : site -> bool; flushed : nat -> nat; inode : nat; win32 : bool }.

(** A program: from a file system to the file systems the process passes
    through, the result (None: an exception), and the file system left. *)
Definition prog (A : Type) := fs -> list fs * option A * fs.
Definition ret {A} (a : A) : prog A := fun s => ([], Some a, s).
Definition bindp {A B} (m : prog A) (f : A -> prog B) : prog B := fun s =>
  let '(t1, r, s1) := m s in
  match r with
  | None => (t1, None, s1)
  | Some a => let '(t2, r2, s2) := f a s1 in ((t1 ++ t2)%list, r2, s2)
  end.
(** try m except Exception: h; raise *)
Definition on_exception {A} (m : prog A) (h : prog unit) : prog A := fun s =>
  let '(t1, r, s1) := m s in
  match r with
  | Some a => (t1, Some a, s1)
  | None => let '(t2, _, s2) := h s1 in ((t1 ++ t2)%list, None, s2)
  end.
(** A call that may fail without effect. *)
Definition call (w : happening) (at_ : site) (effect : fs -> fs) : prog unit := fun s =>
  if fails w at_ then ([s], None, s) else let s' := effect s in ([s'], Some tt, s').

Definition set_temp (x : option (node * nat)) (s : fs) : fs := {| target := target s; temp := x |}.
Definition set_target (x : option (node * nat)) (s : fs) : fs := {| target := x; temp := temp s |}.

(** filecmp.cmp(tmp_path, filename, False), with common.py:374-379: a target
    that does not exist is different; a target that is no regular file is
    different. *)
Definition same_content (s : fs) : bool :=
  match temp s, target s with
  | Some (File a, _), Some (File b, _) => String.eqb a b
  | _, _ => false
  end.
Definition compare (w : happening) : prog bool := fun s => if fails w Compare then ([s], None, s) else ([s], Some (same_content s), s).
(** os.rename(tmp_path, filename): on Windows it fails if the target exists. On
    a target that is no regular file it fails. *)
Definition rename (w : happening) : prog unit := fun s =>
  let blocked := match target s with None => false | Some (NotFile, _) => true | Some (File _, _) => win32 w end in
  if fails w Rename || blocked then ([s], None, s)
  else let s' := {| target := temp s; temp := None |} in ([s'], Some tt, s').
Definition unlink_temp (w : happening) (at_ : site) : prog unit := call w at_ (set_temp None).

(** common.py:344-364: Writer.__init__ *)
Definition init (w : happening) : prog unit :=
  bindp (call w Mkstemp (set_temp (Some (File "", inode w)))) (fun _ =>
  on_exception (call w Fdopen (fun s => s)) (unlink_temp w UnlinkFdopen)).
(** common.py:414-415 with the buffering of the file object: the n-th write.
    Even a failing write may have put some bytes into the file. *)
Definition write_chunk (w : happening) (n : nat) (sofar : string) : prog unit := fun s =>
  let s' := set_temp (Some (File (substring 0 (flushed w n) sofar), inode w)) s in
  if fails w (Write n) then ([s'], None, s') else ([s'], Some tt, s').
Fixpoint write_all (w : happening) (n : nat) (sofar : string) (chunks : list string) : prog string :=
  match chunks with
  | [] => ret sofar
  | c :: cs => bindp (write_chunk w n (sofar ++ c)) (fun _ => write_all w (S n) (sofar ++ c) cs)
  end.
(** common.py:370-412: close *)
Definition close (w : happening) (content : string) : prog unit :=
  on_exception
    (bindp (call w CloseTemp (set_temp (Some (File content, inode w)))) (fun _ =>
     bindp (compare w) (fun same =>
     if same then unlink_temp w UnlinkSame
     else
       bindp (call w Umask (fun s => s)) (fun _ =>
       bindp (call w Chmod (fun s => s)) (fun _ =>
       bindp (fun s => ([], Some (match target s with Some _ => true | None => false end), s)) (fun exists_ =>
       bindp (if win32 w && exists_ then call w RemoveTarget (set_target None) else ret tt) (fun _ =>
       rename w)))))))
    (unlink_temp w UnlinkHandler).
(** A use of it: output = WriteOnDiff(name); output.write(...)...; output.close() *)
Definition write_on_diff (w : happening) (chunks : list string) : prog unit :=
  bindp (init w) (fun _ => bindp (write_all w 0 "" chunks) (fun content => close w content)).
