(** Model of lib/install.js:17-405 and of the removal in lib/remove.js:32-45: one
    run of "node-gyp install" on one version directory, with every state of
    that directory the process passes through.

    The directory is the list of its regular files (path, content).  What the
    network answers, which calls fail, and the order in which directories are
    listed are parameters.  Simplifications: checks on the version number come
    first and touch nothing, they are left out; a write that is still under way
    when Promise.all rejects is over, without effect, before the rollback; the
    fallback to another directory (install.js:381-404) ends the model of this
    one; tar, sha256 and http are functions of the bytes. *)
From Coq Require Import ZArith NArith.
From Verif Require Import Lib Str Js Model_Value.
From Verif Require Model_Vs Model_Text.
Local Open Scope string_scope.

Definition dir := list (string * string).
(** The version directory; None: it does not exist. *)
Definition state := option dir.

(** ** What is asked for and what happens *)

(** gyp.opts.ensure, gyp.opts.tarball (the bytes of that file), the platform,
    gyp.package.installVersion, arch, and from the release: its name, the base
    name of the tarball URL, the libPath. *)
Record request := { ensure : bool; local_tarball : option string; win : bool; needed : Z; arch : string; release_name : string; tar_name : string; lib_path : string }.

(** An http exchange: no answer, or a status and the bytes that came, all of
    them or not. *)
Inductive exchange := NoAnswer | Answer (status : N) (body : string) (complete : bool).
Inductive err := Eacces | Other.
Inductive site := StatDev | ReadVersion | StatLib | Mkdir | Mkdtemp | OpenTar | WriteVersion | MkdirLib | WriteLib | CopyStart | Copy (n : nat) | StatRemove | Rm (n : nat).
(** [entry_fails n]: the n-th file of the archive cannot be written;
    [partial n] is how much of it is there at some moment before it is whole.
    [busy n]: copying the n-th file fails with EBUSY.  [sums_first]: whether the
    list of checksums arrives before installVersion is written.  [list_order]
    and [rm_order]: the order of readdir. *)
Record happening := { fails : site -> option err; entry_fails : nat -> bool; partial : nat -> nat; busy : nat -> bool;
  tar_answer : exchange; lib_answer : exchange; sums_answer : exchange; sums_first : bool;
  list_order : dir -> dir; rm_order : dir -> list string }.

Section Install.
(** The digest, and the files in an archive with whether reading it gave a
    warning. *)
Variable sha : string -> string.
Variable untar : string -> list (string * string) * bool.

(** path.extname of a file's path *)
Definition extname (p : string) : string :=
  let base := match rsplit1 slash p with Some (_, b) => b | None => p end in
  match rsplit1 "." base with
  | Some (EmptyString, _) | None => ""
  | Some (_, e) => String "." e
  end.
(** install.js:361-365 *)
Definition valid (p : string) : bool := String.eqb (extname p) ".h" || String.eqb (extname p) ".gypi".

(** ** The list of checksums, install.js:306-329 *)

(** s.split('\n') *)
Fixpoint split_lines (s : string) : list string :=
  match s with
  | EmptyString => [""]
  | String a s' =>
    if Ascii.eqb a "010" then "" :: split_lines s'
    else match split_lines s' with [] => [String a ""] | l :: ls => String a l :: ls end
  end.
(** s.trim().split(/\s+/) for a line that is not blank; nothing for a blank
    one (where the code has one empty item: not two either). *)
Fixpoint words_from (cur : string) (s : string) : list string :=
  match s with
  | EmptyString => match cur with EmptyString => [] | _ => [cur] end
  | String a s' =>
    if js_space a then match cur with EmptyString => words_from "" s' | _ => cur :: words_from "" s' end
    else words_from (cur ++ String a "") s'
  end.
Definition words (s : string) : list string := words_from "" s.
(** items[1].replace(/^\.\//, '') *)
Definition strip_dot_slash (s : string) : string :=
  match s with
  | String a (String b t) => if Ascii.eqb a "." && Ascii.eqb b "/" then t else s
  | _ => s
  end.
Fixpoint parse_sums (lines : list string) (acc : list (string * string)) : list (string * string) :=
  match lines with
  | [] => acc
  | l :: lines' =>
    match words l with
    | [sum; name] => parse_sums lines' (set_key (strip_dot_slash name) sum acc)
    | _ => acc
    end
  end.
Definition expected_sums (text : string) : list (string * string) := parse_sums (split_lines (js_trim text)) [].
(** install.js:279-284; [contents] is contentShasums *)
Definition sums_match (contents expected : list (string * string)) : bool :=
  forallb (fun c => match assoc (fst c) expected with Some e => String.eqb (snd c) e | None => false end) contents.

(** ** Programs: the states passed through, the result, the last state *)

Definition prog (A : Type) := state -> list state * option A * state.
Definition ret {A} (a : A) : prog A := fun s => ([], Some a, s).
Definition throw {A} : prog A := fun s => ([], None, s).
Definition bindp {A B} (m : prog A) (f : A -> prog B) : prog B := fun s =>
  let '(t1, r, s1) := m s in
  match r with
  | None => (t1, None, s1)
  | Some a => let '(t2, r2, s2) := f a s1 in ((t1 ++ t2)%list, r2, s2)
  end.
Definition go_to (s' : state) : prog unit := fun _ => ([s'], Some tt, s').
Definition read : prog state := fun s => ([], Some s, s).
Definition files (s : state) : dir := match s with Some d => d | None => [] end.
(** Write a file: some of it is there before all of it is. *)
Definition put (n : nat) (p c : string) : prog unit :=
  bindp read (fun s => bindp (go_to (Some (set_key p (substring 0 n c) (files s)))) (fun _ => go_to (Some (set_key p c (files s))))).

Section Run.
Variable r : request.
Variable w : happening.

(** tar.extract with the filter: the files written, and whether there was a
    warning (a file that cannot be written is one).  [n] numbers the files. *)
Fixpoint extract_into (n : nat) (entries : dir) : prog bool :=
  match entries with
  | [] => ret false
  | (p, c) :: es =>
    if valid p then
      if entry_fails w n then bindp (extract_into (S n) es) (fun _ => ret true)
      else bindp (put (partial w n) p c) (fun _ => extract_into (S n) es)
    else extract_into (S n) es
  end.
(** The same into the temporary directory of Windows. *)
Fixpoint extract_temp (n : nat) (entries : dir) (t : dir) : dir * bool :=
  match entries with
  | [] => (t, false)
  | (p, c) :: es =>
    if valid p then
      if entry_fails w n then (fst (extract_temp (S n) es t), true) else extract_temp (S n) es (set_key p c t)
    else extract_temp (S n) es t
  end.
(** The temporary directory (unused but on Windows) and whether there was a
    warning. *)
Definition extract (bytes : string) : prog (dir * bool) :=
  let '(entries, warned) := untar bytes in
  if win r then let '(t, bad) := extract_temp 0 entries [] in ret (t, bad || warned)
  else bindp (extract_into 0 entries) (fun bad => ret ([], bad || warned)).

(** install.js:210-263: the temporary directory and contentShasums *)
Definition get_tarball : prog (dir * list (string * string)) :=
  bindp (match local_tarball r with
         | Some bytes => match fails w OpenTar with Some _ => throw | None => bindp (extract bytes) (fun x => ret (x, bytes, [])) end
         | None =>
           match tar_answer w with
           | NoAnswer => throw
           | Answer status body complete =>
             if negb (N.eqb status 200) then throw
             else bindp (extract body) (fun x => if complete then ret (x, body, [(tar_name r, sha body)]) else throw)
           end
         end) (fun y =>
  let '(t, bad, bytes, sums) := y in
  if bad || negb (existsb (fun e => valid (fst e)) (fst (untar bytes))) then throw else ret (t, sums)).

(** install.js:306-329: expectShasums *)
Definition get_sums : option (list (string * string)) :=
  match sums_answer w with
  | Answer status text true => if N.eqb status 200 then Some (expected_sums text) else None
  | _ => None
  end.
Definition lib_file : string := arch r ++ "/" ++ release_name r ++ ".lib".
(** install.js:331-358: the bytes of node.lib *)
Definition get_lib : option string :=
  match fails w MkdirLib, lib_answer w, fails w WriteLib with
  | None, Answer status body true, None => if N.eqb status 200 then Some body else None
  | _, _, _ => None
  end.

(** gyp.package.installVersion + '\n' *)
Definition version_text : string := Model_Text.int_str (needed r) ++ String "010" "".
(** fs.writeFile first empties the file *)
Definition write_version : prog unit := match fails w WriteVersion with Some _ => throw | None => put 0 "installVersion" version_text end.

(** install.js:118-152: copying the files of the temporary directory *)
Fixpoint copy_files (n : nat) (fs : dir) : prog unit :=
  match fs with
  | [] => ret tt
  | (p, c) :: fs' =>
    bindp read (fun s =>
    bindp (if busy w n then if ensure r && has_key p (files s) then ret tt else throw
           else match fails w (Copy n) with Some _ => throw | None => put (partial w n) p c end) (fun _ =>
    copy_files (S n) fs'))
  end.

Inductive ended := Installed | Fallback.
(** install.js:154-304 *)
Definition go (want_tarball : bool) : prog ended :=
  match fails w Mkdir with
  | Some Eacces => ret Fallback
  | Some Other => throw
  | None =>
    bindp read (fun s => bindp (go_to (Some (files s))) (fun _ =>
    if win r then
      match fails w Mkdtemp with
      | Some _ => throw
      | None =>
        bindp (if want_tarball then get_tarball else ret ([], [])) (fun x =>
        let '(t, sums) := x in
        match get_lib, fails w WriteVersion, get_sums with
        | Some lib, None, Some expected =>
          if sums_match (set_key (lib_path r) (sha lib) sums) expected then
            match fails w CopyStart with
            | Some _ => throw
            | None => bindp (copy_files 0 (list_order w (set_key "installVersion" version_text (set_key lib_file lib t)))) (fun _ => ret Installed)
            end
          else throw
        | _, _, _ => throw
        end)
      end
    else
      bindp (if want_tarball then get_tarball else ret ([], [])) (fun x =>
      match local_tarball r with
      | Some _ => bindp write_version (fun _ => ret Installed)       (* no list of checksums, nothing to compare *)
      | None =>
        match get_sums with
        | None => if sums_first w then throw else bindp write_version (fun _ => throw)
        | Some expected =>
          bindp write_version (fun _ => if sums_match (snd x) expected then ret Installed else throw)
        end
      end)))
  end.

(** lib/remove.js:32-45 for this version: files go one by one *)
Fixpoint rm_files (n : nat) (ps : list string) : prog unit :=
  match ps with
  | [] => go_to None
  | p :: ps' => match fails w (Rm n) with Some _ => throw | None => bindp read (fun s => bindp (go_to (Some (del_key p (files s)))) (fun _ => rm_files (S n) ps')) end
  end.
Definition remove : prog unit :=
  match fails w StatRemove with
  | Some _ => throw
  | None => bindp read (fun s => match s with None => ret tt | Some d => rm_files 0 (rm_order w d) end)
  end.

(** How the run ends: Threw: rejected, with the rollback done if one was due;
    NotRolledBack: the rollback failed itself. *)
Inductive outcome := Done | Skipped | ElseWhere | Threw | NotRolledBack.
(** install.js:367-372 around go *)
Definition go_or_roll_back (want_tarball : bool) : prog outcome := fun s =>
  let '(t1, x, s1) := go want_tarball s in
  match x with
  | Some Installed => (t1, Some Done, s1)
  | Some Fallback => (t1, Some ElseWhere, s1)
  | None => let '(t2, y, s2) := remove s1 in ((t1 ++ t2)%list, Some (match y with Some _ => Threw | None => NotRolledBack end), s2)
  end.
(** parseInt(ver, 10) || 0, 0 without the file *)
Definition version_of (d : dir) : Z :=
  match assoc "installVersion" d with
  | Some v => match Model_Vs.parse_int v with Some n => n | None => 0%Z end
  | None => 0%Z
  end.
(** install.js:17-116 *)
Definition install : prog outcome := fun s =>
  if ensure r then
    match fails w StatDev with
    | Some Eacces => ret ElseWhere s
    | Some Other => ret Threw s
    | None =>
      match s with
      | None => go_or_roll_back true s
      | Some d =>
        match fails w ReadVersion with
        | Some _ => ret Threw s
        | None =>
          if (version_of d <? needed r)%Z then go_or_roll_back true s
          else if win r then
            match fails w StatLib with
            | Some Eacces => ret ElseWhere s
            | Some Other => ret Threw s
            | None => if has_key (arch r ++ "/node.lib") d then ret Skipped s else go_or_roll_back false s
            end
          else ret Skipped s
        end
      end
    end
  else go_or_roll_back true s.
End Run.
End Install.
