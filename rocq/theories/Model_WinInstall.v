(** Model of several "node-gyp install" of one version at the same time on Windows:
    lib/install.js:55-120 (whether to install), 159-172 and 278-281 (go, once the downloads
    are in the run's own temporary directory) and 122-154 (copyDirectory), on one shared
    directory.  The runs take their steps in any order.  CopyFileW opens the file it copies
    to for itself alone, which empties it, and writes it piece by piece; another copy to that
    file fails with EBUSY until it is closed.  A run that is killed closes what it has open.
    Simplifications: files are their paths, the directories they are in being made without
    fail; downloads arrive whole and with the checksums listed (failed ones are in
    Model_Race); a run that gives up takes no more steps (its rollback is in Model_Race); a
    failed copy and the look for the file after it (139-148) are one step; waiting between
    attempts is left out; node.lib is the file that is downloaded, as it is for any node but
    io.js (96, 321). *)
From Verif Require Import Lib Str.
From Verif Require Model_Vs.
From Coq Require Import ZArith.
Local Open Scope string_scope.

(** What a run is asked and has: --ensure, its node.lib, and the files in its temporary
    directory as readdir lists them, with the headers (all) or without (rest). *)
Record run := { ensures : bool; lib : string; all : list string; rest : list string }.
(** [Copying todo tries]: the first of [todo] is next, and has failed [tries] times. *)
Inductive phase := Ready | Seen | Checking | Making (tarball : bool) | Copying (todo : list string) (tries : nat) | Writing (f : string) (k : nat) (todo : list string) | Done | GaveUp | Dead.
Record world := { there : bool; contents : string -> option string; phases : nat -> phase }.
Definition set_file (f c : string) (cs : string -> option string) : string -> option string := fun g => if String.eqb g f then Some c else cs g.
Definition set_phase (i : nat) (p : phase) (ps : nat -> phase) : nat -> phase := fun j => if Nat.eqb j i then p else ps j.
(** Some run but [i] has the file open. *)
Definition busy (i : nat) (f : string) (w : world) : Prop := exists j k todo, j <> i /\ phases w j = Writing f k todo.

Section Install.
Variable runs : nat -> run.
(** gyp.package.installVersion *)
Variable needed : Z.
(** backOff's numOfAttempts *)
Variable attempts : nat.
(** What is in the files, the same in every run's temporary directory. *)
Variable whole : string -> string.
(** install.js:73-85: parseInt(ver, 10) || 0, 0 without the file *)
Definition version_of (cs : string -> option string) : Z :=
  match cs "installVersion" with Some v => match Model_Vs.parse_int v with Some n => n | None => 0%Z end | None => 0%Z end.
Definition move (i : nat) (p : phase) (w : world) : world := {| there := there w; contents := contents w; phases := set_phase i p (phases w) |}.
(** One step of run [i]. *)
Inductive step (i : nat) (w : world) : world -> Prop :=
(* 55-66, 114-116 *)
| no_ensure : phases w i = Ready -> ensures (runs i) = false -> step i w (move i (Making true) w)
| stat_absent : phases w i = Ready -> ensures (runs i) = true -> there w = false -> step i w (move i (Making true) w)
| stat_there : phases w i = Ready -> ensures (runs i) = true -> there w = true -> step i w (move i Seen w)
(* 73-92 *)
| read_old : phases w i = Seen -> (version_of (contents w) < needed)%Z -> step i w (move i (Making true) w)
| read_new : phases w i = Seen -> (needed <= version_of (contents w))%Z -> step i w (move i Checking w)
(* 94-112 *)
| lib_there x : phases w i = Checking -> contents w (lib (runs i)) = Some x -> step i w (move i Done w)
| lib_absent : phases w i = Checking -> contents w (lib (runs i)) = None -> step i w (move i (Making false) w)
(* 159-172, then the downloads *)
| make_dir tarball : phases w i = Making tarball -> step i w {| there := true; contents := contents w; phases := set_phase i (Copying (if tarball : bool then all (runs i) else rest (runs i)) 0) (phases w) |}
(* 136-138 *)
| open_file f todo tries : phases w i = Copying (f :: todo) tries -> ~ busy i f w -> step i w {| there := there w; contents := set_file f "" (contents w); phases := set_phase i (Writing f 0 todo) (phases w) |}
| write_piece f k todo n x : phases w i = Writing f k todo -> 1 <= n -> k + n <= String.length (whole f) -> contents w f = Some x ->
    step i w {| there := there w; contents := set_file f (x ++ substring k n (whole f)) (contents w); phases := set_phase i (Writing f (k + n) todo) (phases w) |}
| close_file f todo : phases w i = Writing f (String.length (whole f)) todo -> step i w (move i (Copying todo 0) w)
(* 139-149 *)
| good_enough f todo tries x : phases w i = Copying (f :: todo) tries -> busy i f w -> ensures (runs i) = true -> contents w f = Some x -> step i w (move i (Copying todo 0) w)
| try_again f todo tries : phases w i = Copying (f :: todo) tries -> busy i f w -> (ensures (runs i) = true -> contents w f = None) -> S tries < attempts -> step i w (move i (Copying (f :: todo) (S tries)) w)
| give_up f todo tries : phases w i = Copying (f :: todo) tries -> busy i f w -> (ensures (runs i) = true -> contents w f = None) -> attempts <= S tries -> step i w (move i GaveUp w)
| copied tries : phases w i = Copying [] tries -> step i w (move i Done w).
(** Runs that are never killed, and runs that may be. *)
Inductive reaches (w : world) : world -> Prop :=
| here : reaches w w
| further i v u : reaches w v -> step i v u -> reaches w u.
Inductive reaches_killed (w : world) : world -> Prop :=
| here_killed : reaches_killed w w
| further_killed i v u : reaches_killed w v -> step i v u -> reaches_killed w u
| kill i v : reaches_killed w v -> phases v i <> Done -> reaches_killed w (move i Dead v).
End Install.
