(** Model of several "node-gyp install" of one version at the same time, not on Windows:
    lib/install.js:54-116 (whether to install), 154-304 (go), 367-372 (rollback) and
    lib/remove.js:32-43, on one shared directory.  The runs take their steps in any order;
    one that is killed takes no more.  The files of the archive are those its filter lets
    through (install.js:170-181); tar writes them in any order and interleaving, each by
    opening it, which empties it, and writing it piece by piece.  A file that is removed while a run has
    it open is written to no more.  Simplifications: only the version directory is a
    directory; a run whose files cannot be made, because the directory is gone, fails at
    once; calls do not fail otherwise; the checksums are compared after installVersion is
    written (as Promise.all has it). *)
From Verif Require Import Lib Str.
From Verif Require Model_Text Model_Vs.
From Coq Require Import ZArith.
Local Open Scope string_scope.

(** What a run is asked and gets: --ensure, the headers in its archive, and whether the
    download arrives whole with the checksum listed. *)
Record run := { ensures : bool; archive : list (string * string); sound : bool }.
(** How far a file is: [linked] as long as the file is still in the directory. *)
Inductive place := Waiting | Writing (k : nat) (linked : bool) | Closed.
Definition job : Type := string * string * place.
Inductive phase := Ready | Seen | Making | Extracting (jobs : list job) | Opening | Marking (linked : bool) | Comparing | Removing | Done | Failed.
Record world := { there : bool; contents : string -> option string; phases : nat -> phase }.

(** write(2) at an offset *)
Fixpoint overlay (t x : string) : string :=
  match t with "" => x | String a t' => String a (overlay t' (match x with "" => "" | String _ x' => x' end)) end.
Fixpoint write_at (k : nat) (t x : string) : string :=
  match k with
  | O => overlay t x
  | S k' => match x with "" => String "000" (write_at k' t "") | String a x' => String a (write_at k' t x') end
  end.
Definition set_file (f : string) (c : option string) (cs : string -> option string) : string -> option string := fun g => if String.eqb g f then c else cs g.
Definition write_file (f : string) (k : nat) (t : string) (linked : bool) (cs : string -> option string) : string -> option string :=
  if linked then match cs f with Some x => set_file f (Some (write_at k t x)) cs | None => cs end else cs.
Definition set_phase (i : nat) (p : phase) (ps : nat -> phase) : nat -> phase := fun j => if Nat.eqb j i then p else ps j.
(** A file that is removed is not the one that is open. *)
Definition cut_job (f : string) (j : job) : job := match j with (g, c, Writing k b) => (g, c, Writing k (b && negb (String.eqb g f))) | _ => j end.
Definition cut (f : string) (p : phase) : phase :=
  match p with
  | Extracting l => Extracting (map (cut_job f) l)
  | Marking b => Marking (b && negb (String.eqb f "installVersion"))
  | _ => p
  end.

Section Race.
Variable runs : nat -> run.
(** gyp.package.installVersion *)
Variable needed : Z.
(** install.js:268 *)
Definition mark : string := Model_Text.int_str needed ++ String "010" "".
(** install.js:83-94: parseInt(ver, 10) || 0, 0 without the file *)
Definition version_of (cs : string -> option string) : Z :=
  match cs "installVersion" with Some v => match Model_Vs.parse_int v with Some n => n | None => 0%Z end | None => 0%Z end.
Definition jobs_of (r : run) : list job := map (fun e => (fst e, snd e, Waiting)) (archive r).
(** One step of run [i]. *)
Inductive step (i : nat) (w : world) : world -> Prop :=
(* 57-70 *)
| no_ensure : phases w i = Ready -> ensures (runs i) = false -> step i w {| there := there w; contents := contents w; phases := set_phase i Making (phases w) |}
| stat_absent : phases w i = Ready -> ensures (runs i) = true -> there w = false -> step i w {| there := there w; contents := contents w; phases := set_phase i Making (phases w) |}
| stat_there : phases w i = Ready -> ensures (runs i) = true -> there w = true -> step i w {| there := there w; contents := contents w; phases := set_phase i Seen (phases w) |}
(* 83-104 *)
| read_old : phases w i = Seen -> (version_of (contents w) < needed)%Z -> step i w {| there := there w; contents := contents w; phases := set_phase i Making (phases w) |}
| read_new : phases w i = Seen -> (needed <= version_of (contents w))%Z -> step i w {| there := there w; contents := contents w; phases := set_phase i Done (phases w) |}
(* 158-170 *)
| make_dir : phases w i = Making -> step i w {| there := true; contents := contents w; phases := set_phase i (Extracting (jobs_of (runs i))) (phases w) |}
(* 210-256 *)
| open_file l1 f c l2 : phases w i = Extracting (l1 ++ (f, c, Waiting) :: l2) -> there w = true ->
    step i w {| there := there w; contents := set_file f (Some "") (contents w); phases := set_phase i (Extracting (l1 ++ (f, c, Writing 0 true) :: l2)) (phases w) |}
| open_nowhere l1 f c l2 : phases w i = Extracting (l1 ++ (f, c, Waiting) :: l2) -> there w = false -> step i w {| there := there w; contents := contents w; phases := set_phase i Removing (phases w) |}
| write_piece l1 f c k b l2 n : phases w i = Extracting (l1 ++ (f, c, Writing k b) :: l2) -> 1 <= n -> k + n <= String.length c ->
    step i w {| there := there w; contents := write_file f k (substring k n c) b (contents w); phases := set_phase i (Extracting (l1 ++ (f, c, Writing (k + n) b) :: l2)) (phases w) |}
| close_file l1 f c b l2 : phases w i = Extracting (l1 ++ (f, c, Writing (String.length c) b) :: l2) ->
    step i w {| there := there w; contents := contents w; phases := set_phase i (Extracting (l1 ++ (f, c, Closed) :: l2)) (phases w) |}
| breaks l : phases w i = Extracting l -> sound (runs i) = false -> step i w {| there := there w; contents := contents w; phases := set_phase i Removing (phases w) |}
(* 258-261 *)
| no_files : phases w i = Extracting [] -> step i w {| there := there w; contents := contents w; phases := set_phase i Removing (phases w) |}
| extracted l : phases w i = Extracting l -> l <> [] -> Forall (fun j => snd j = Closed) l -> step i w {| there := there w; contents := contents w; phases := set_phase i Opening (phases w) |}
(* 268-276 *)
| open_version : phases w i = Opening -> there w = true -> step i w {| there := there w; contents := set_file "installVersion" (Some "") (contents w); phases := set_phase i (Marking true) (phases w) |}
| version_nowhere : phases w i = Opening -> there w = false -> step i w {| there := there w; contents := contents w; phases := set_phase i Removing (phases w) |}
| write_version b : phases w i = Marking b -> step i w {| there := there w; contents := write_file "installVersion" 0 mark b (contents w); phases := set_phase i Comparing (phases w) |}
(* 278-285 *)
| sums_match : phases w i = Comparing -> sound (runs i) = true -> step i w {| there := there w; contents := contents w; phases := set_phase i Done (phases w) |}
| sums_differ : phases w i = Comparing -> sound (runs i) = false -> step i w {| there := there w; contents := contents w; phases := set_phase i Removing (phases w) |}
(* 367-372 and remove.js *)
| unlink f x : phases w i = Removing -> contents w f = Some x -> step i w {| there := there w; contents := set_file f None (contents w); phases := fun j => cut f (phases w j) |}
| remove_dir : phases w i = Removing -> (forall f, contents w f = None) -> step i w {| there := false; contents := contents w; phases := set_phase i Failed (phases w) |}.
Inductive reaches (w : world) : world -> Prop :=
| here : reaches w w
| further i v u : reaches w v -> step i v u -> reaches w u.
End Race.
