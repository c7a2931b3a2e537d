(** C104: installs of the same version at the same time on Windows. *)
From Verif Require Import Lib Str StrFacts LibFacts Model_WinInstall Spec_WinInstall Proof_WinInstall Proof_WinInstall2.
From Coq Require Import ZArith Lia.
Local Open Scope string_scope.

(** No two runs ever write the same file at the same time. *)
Theorem C104_one_writer : forall runs needed attempts whole headers, (forall i, orderly headers (runs i)) -> forall w0 w i j f,
  begin runs headers needed whole w0 -> reaches runs needed attempts whole w0 w -> writes w i f -> writes w j f -> i = j.
Proof. exact one_writer. Qed.
Print Assumptions C104_one_writer.
(** When a run says it is done, all headers and its node.lib are there whole, but for those
    that some other run is just writing. *)
Theorem C104_done : forall runs needed attempts whole headers, (forall i, orderly headers (runs i)) -> forall w0 w i,
  begin runs headers needed whole w0 -> reaches runs needed attempts whole w0 w -> phases w i = Done ->
  forall f, f = lib (runs i) \/ In f headers -> (forall j, ~ writes w j f) -> contents w f = Some (whole f).
Proof. exact done_files. Qed.
Print Assumptions C104_done.
(** When all runs that have begun are done, they are there whole. *)
Theorem C104_all_done : forall runs needed attempts whole headers, (forall i, orderly headers (runs i)) -> forall w0 w i,
  begin runs headers needed whole w0 -> reaches runs needed attempts whole w0 w -> idle w -> phases w i = Done ->
  forall f, f = lib (runs i) \/ In f headers -> contents w f = Some (whole f).
Proof. exact idle_files. Qed.
Print Assumptions C104_all_done.
(** No run with --ensure gives up because of others, and none has to wait for others. *)
Theorem C104_never_gives_up : forall runs needed attempts whole headers, (forall i, orderly headers (runs i)) -> forall w0 w i,
  begin runs headers needed whole w0 -> reaches runs needed attempts whole w0 w -> ensures (runs i) = true -> phases w i <> GaveUp.
Proof. exact never_gives_up. Qed.
Print Assumptions C104_never_gives_up.
Theorem C104_never_waits : forall runs needed attempts whole headers, (forall i, orderly headers (runs i)) -> forall w0 w i,
  begin runs headers needed whole w0 -> reaches runs needed attempts whole w0 w -> ensures (runs i) = true -> exists w', alone runs needed attempts whole i w w' /\ phases w' i = Done.
Proof. exact never_waits. Qed.
Print Assumptions C104_never_waits.
(** Once it is installed for all architectures asked for, runs with --ensure leave the
    directory as it is. *)
Theorem C104_later : forall runs needed attempts whole w w', there w = true -> (needed <= version_of (contents w))%Z -> (forall i, ensures (runs i) = true) -> (forall i, exists x, contents w (lib (runs i)) = Some x) ->
  idle w -> reaches runs needed attempts whole w w' -> contents w' = contents w /\ there w' = true.
Proof. exact later_untouched. Qed.
Print Assumptions C104_later.
(** Whatever was left behind, also by runs that were killed, a run without --ensure that has
    the directory to itself puts every file right. *)
Theorem C104_mended : forall runs needed attempts whole i w, ensures (runs i) = false -> phases w i = Ready -> (forall j f, ~ writes w j f) ->
  (exists u, alone runs needed attempts whole i w u /\ phases u i = Done) /\
  forall u, alone runs needed attempts whole i w u -> phases u i <> GaveUp /\ (phases u i = Done -> forall f, In f (all (runs i)) -> contents u f = Some (whole f)).
Proof. intros runs needed attempts whole i w En R O. split; [exact (mends_all runs needed attempts whole i w En R O)|]. intros u A. exact (mended runs needed attempts whole i w u En R O A). Qed.
Print Assumptions C104_mended.

(** ** Several runs *)
Definition header := "include/node/node.h".
Definition library := "x64/node.lib".
Definition files_of (f : string) : string := if String.eqb f header then "xy" else if String.eqb f library then "z" else "11" ++ String "010" "".
Definition good_run (e : bool) : run := {| ensures := e; lib := library; all := [header; "installVersion"; library]; rest := ["installVersion"; library] |}.
Definition nothing : world := {| there := false; contents := fun _ => None; phases := fun _ => Ready |}.
Lemma good_orderly : forall e, orderly [header] (good_run e).
Proof.
  intros e. split; [|split; [right; right; left; reflexivity|right; left; reflexivity]]. exists [header], [library]. split; [reflexivity|]. split; [intros f F; exact F|]. intros [X|[]]. discriminate X.
Qed.
Lemma nothing_begins : forall runs, begin runs [header] 11 files_of nothing.
Proof. intros runs. split; [reflexivity|]. split; [intros V; exfalso; cbn in V; lia|]. intros i x X. discriminate X. Qed.
Section Runs.
Variable runs : nat -> run.
Variable attempts : nat.
Local Notation reaches_killed := (reaches_killed runs 11 attempts files_of).
Local Notation reaches := (reaches runs 11 attempts files_of).
Lemma may : forall w0 w, reaches w0 w -> reaches_killed w0 w.
Proof. intros w0 w R. induction R as [|i v u R IH S]; [apply here_killed|exact (further_killed _ _ _ _ w0 i v u IH S)]. Qed.
(** Run [i] copies one file while nobody else has it open. *)
Lemma copies : forall i w0 w f todo tries, reaches_killed w0 w -> phases w i = Copying (f :: todo) tries -> ~ busy i f w -> files_of f <> "" ->
  exists u, reaches_killed w0 u /\ phases u i = Copying todo 0 /\ (forall j, j <> i -> phases u j = phases w j) /\ there u = there w /\ (forall g, contents u g = if String.eqb g f then Some (files_of f) else contents w g).
Proof.
  intros i w0 w f todo tries R E B N. assert (S1 := open_file runs 11 attempts files_of i w f todo tries E B). assert (R1 := further_killed _ _ _ _ w0 i _ _ R S1).
  assert (L : 1 <= String.length (files_of f)) by (destruct (files_of f); [congruence|cbn; lia]).
  match type of R1 with Model_WinInstall.reaches_killed _ _ _ _ _ ?v => assert (S2 := write_piece runs 11 attempts files_of i v f 0 todo (String.length (files_of f)) "" (set_same i _ _) L (le_n _) (file_same f "" _)) end.
  assert (R2 := further_killed _ _ _ _ w0 i _ _ R1 S2).
  match type of R2 with Model_WinInstall.reaches_killed _ _ _ _ _ ?v => assert (S3 := close_file runs 11 attempts files_of i v f todo (set_same i _ _)) end.
  assert (R3 := further_killed _ _ _ _ w0 i _ _ R2 S3). eexists. split; [exact R3|]. split; [apply set_same|]. split; [intros j J; cbn [move phases]; rewrite !set_other by exact J; reflexivity|]. split; [reflexivity|].
  intros g. cbn [move contents]. unfold set_file. cbn [append]. rewrite substring_whole. destruct (String.eqb g f); reflexivity.
Qed.
End Runs.
Definition three (second : bool) (i : nat) : run := good_run (match i with 1 => second | _ => true end).
Lemma three_orderly : forall b i, orderly [header] (three b i).
Proof. intros b i. apply good_orderly. Qed.
(** The first has the header open, the second has yet to copy it. *)
Definition first_writes : world := {| there := true; contents := set_file header "" (fun _ => None); phases := fun i => match i with 0 => Writing header 0 ["installVersion"; library] | 1 => Copying [header; "installVersion"; library] 0 | _ => Ready end |}.
Definition same (w v : world) : Prop := there w = there v /\ (forall f, contents w f = contents v f) /\ forall i, phases w i = phases v i.
Lemma both_begin : forall b attempts, exists w, reaches (three b) 11 attempts files_of nothing w /\ same w first_writes.
Proof.
  intros b attempts. assert (R0 := here (three b) 11 attempts files_of nothing).
  assert (R1 := further _ _ _ _ _ 0 _ _ R0 (stat_absent (three b) 11 attempts files_of 0 nothing eq_refl eq_refl eq_refl)). set (w1 := move 0 (Making true) nothing) in R1.
  assert (S2 : step (three b) 11 attempts files_of 1 w1 (move 1 (Making true) w1)) by (destruct b; [apply stat_absent; reflexivity|apply no_ensure; reflexivity]). assert (R2 := further _ _ _ _ _ 1 _ _ R1 S2). set (w2 := move 1 (Making true) w1) in R2.
  assert (R3 := further _ _ _ _ _ 0 _ _ R2 (make_dir (three b) 11 attempts files_of 0 w2 true eq_refl)).
  match type of R3 with reaches _ _ _ _ _ ?v => set (w3 := v) in R3 end.
  assert (R4 := further _ _ _ _ _ 1 _ _ R3 (make_dir (three b) 11 attempts files_of 1 w3 true eq_refl)).
  match type of R4 with reaches _ _ _ _ _ ?v => set (w4 := v) in R4 end.
  assert (NB : ~ busy 0 header w4) by (intros (j & k & t & J & E); destruct j as [|[|j]]; [congruence|discriminate E|discriminate E]).
  assert (R5 := further _ _ _ _ _ 0 _ _ R4 (open_file (three b) 11 attempts files_of 0 w4 header ["installVersion"; library] 0 eq_refl NB)). eexists. split; [exact R5|].
  split; [reflexivity|]. split; [reflexivity|]. intros [|[|i]]; reflexivity.
Qed.
Example C104_witness : exists attempts w, (forall i, orderly [header] (three true i)) /\ begin (three true) [header] 11 files_of nothing /\ reaches (three true) 11 attempts files_of nothing w /\ writes w 0 header /\ ensures (three true 1) = true /\
  (exists todo, phases w 1 = Copying (header :: todo) 0) /\ files_of header <> "".
Proof.
  destruct (both_begin true 10) as (w & R & T & C & P). exists 10, w. split; [apply three_orderly|]. split; [apply nothing_begins|]. split; [exact R|]. split; [exists 0, ["installVersion"; library]; rewrite P; reflexivity|]. split; [reflexivity|]. split; [exists ["installVersion"; library]; rewrite P; reflexivity|discriminate].
Qed.
Example C104_later_witness : exists w, there w = true /\ (11 <= version_of (contents w))%Z /\ idle w /\ forall i, exists x, contents w (lib (three true i)) = Some x.
Proof. exists {| there := true; contents := fun f => Some (files_of f); phases := fun _ => Ready |}. split; [reflexivity|]. split; [vm_compute; discriminate|]. split; [intros i; left; reflexivity|]. intros i. eexists. reflexivity. Qed.

(** ** Findings *)
(** A run with --ensure passes over a file that another run has open, as if it were there
    (install.js:140-145), so that it may say it is done while a header is still empty, and the
    addon it was run for is compiled with that. *)
Theorem C104_early_refuted : exists runs attempts w, (forall i, orderly [header] (runs i)) /\ begin runs [header] 11 files_of nothing /\ reaches_killed runs 11 attempts files_of nothing w /\
  phases w 1 = Done /\ writes w 0 header /\ contents w header = Some "".
Proof.
  destruct (both_begin true 10) as (w & R & T & C & P). exists (three true), 10. apply may in R.
  assert (B : busy 1 header w) by (exists 0, 0, ["installVersion"; library]; split; [discriminate|rewrite P; reflexivity]).
  assert (S := good_enough (three true) 11 10 files_of 1 w header ["installVersion"; library] 0 "" (P 1) B eq_refl (C header)). assert (R1 := further_killed _ _ _ _ _ 1 _ _ R S).
  assert (NB : forall u f, phases u 0 = Writing header 0 ["installVersion"; library] -> (forall j, 2 <= j -> phases u j = Ready) -> f <> header -> ~ busy 1 f u) by (intros u f E0 E2 F (j & k & t & J & E); destruct j as [|[|j]]; [rewrite E0 in E; congruence|congruence|rewrite E2 in E by lia; discriminate E]).
  destruct (copies (three true) 10 1 nothing _ "installVersion" [library] 0 R1 (set_same 1 _ _)) as (u & R2 & E2 & O2 & _ & C2); [apply NB; [cbn; rewrite P; reflexivity|intros j J; cbn [move phases]; rewrite set_other by lia; rewrite P; destruct j as [|[|j]]; [lia|lia|reflexivity]|discriminate]|discriminate|].
  destruct (copies (three true) 10 1 nothing u library [] 0 R2 E2) as (v & R3 & E3 & O3 & _ & C3); [apply NB; [rewrite O2 by discriminate; cbn; rewrite P; reflexivity|intros j J; rewrite O2 by lia; cbn [move phases]; rewrite set_other by lia; rewrite P; destruct j as [|[|j]]; [lia|lia|reflexivity]|discriminate]|discriminate|].
  assert (R4 := further_killed _ _ _ _ _ 1 _ _ R3 (copied (three true) 11 10 files_of 1 v 0 E3)). exists (move 1 Done v). split; [apply three_orderly|]. split; [apply nothing_begins|]. split; [exact R4|]. split; [apply set_same|].
  split; [exists 0, ["installVersion"; library]; cbn [move phases]; rewrite set_other by discriminate; rewrite O3, O2 by discriminate; cbn; rewrite P; reflexivity|]. cbn [move contents]. rewrite C3. cbn. rewrite C2. cbn. rewrite C. reflexivity.
Qed.
Print Assumptions C104_early_refuted.
(** If that other run is then killed, the header stays as it is: the first run has marked the
    directory as installed, and every later run with --ensure takes it to be so. *)
Theorem C104_killed_refuted : exists runs attempts w, (forall i, orderly [header] (runs i)) /\ begin runs [header] 11 files_of nothing /\ reaches_killed runs 11 attempts files_of nothing w /\
  phases w 1 = Done /\ phases w 2 = Done /\ (forall j f, ~ writes w j f) /\ contents w header = Some "" /\ (11 <= version_of (contents w))%Z.
Proof.
  destruct (both_begin true 10) as (w & R & T & C & P). exists (three true), 10. apply may in R.
  assert (B : busy 1 header w) by (exists 0, 0, ["installVersion"; library]; split; [discriminate|rewrite P; reflexivity]).
  assert (S := good_enough (three true) 11 10 files_of 1 w header ["installVersion"; library] 0 "" (P 1) B eq_refl (C header)). assert (R1 := further_killed _ _ _ _ _ 1 _ _ R S).
  assert (K : phases (move 1 (Copying ["installVersion"; library] 0) w) 0 <> Done) by (cbn [move phases]; rewrite set_other by discriminate; rewrite P; discriminate). assert (R2 := kill _ _ _ _ _ 0 _ R1 K).
  assert (NB : forall u f, phases u 0 = Dead -> (forall j, 2 <= j -> phases u j = Ready) -> ~ busy 1 f u) by (intros u f E0 E2 (j & k & t & J & E); destruct j as [|[|j]]; [rewrite E0 in E; congruence|congruence|rewrite E2 in E by lia; discriminate E]).
  set (w2 := move 0 Dead (move 1 (Copying ["installVersion"; library] 0) w)) in R2. assert (Q0 : phases w2 0 = Dead) by apply set_same. assert (Q1 : phases w2 1 = Copying ["installVersion"; library] 0) by reflexivity.
  assert (Q2 : forall j, 2 <= j -> phases w2 j = Ready) by (intros j J; unfold w2; cbn [move phases]; rewrite !set_other by lia; rewrite P; destruct j as [|[|j]]; [lia|lia|reflexivity]).
  destruct (copies (three true) 10 1 nothing w2 "installVersion" [library] 0 R2 Q1 (NB w2 _ Q0 Q2)) as (u & R3 & E3 & O3 & T3 & C3); [discriminate|].
  assert (U0 : phases u 0 = Dead) by (rewrite O3 by discriminate; exact Q0). assert (U2 : forall j, 2 <= j -> phases u j = Ready) by (intros j J; rewrite O3 by lia; exact (Q2 j J)).
  destruct (copies (three true) 10 1 nothing u library [] 0 R3 E3 (NB u _ U0 U2)) as (v & R4 & E4 & O4 & T4 & C4); [discriminate|].
  assert (R5 := further_killed _ _ _ _ _ 1 _ _ R4 (copied (three true) 11 10 files_of 1 v 0 E4)). set (v1 := move 1 Done v) in R5.
  assert (V2 : phases v1 2 = Ready) by (unfold v1; cbn [move phases]; rewrite set_other by discriminate; rewrite O4 by discriminate; apply U2; lia).
  assert (Tv : there v1 = true) by (unfold v1; cbn [move there]; rewrite T4, T3; exact T).
  assert (R6 := further_killed _ _ _ _ _ 2 _ _ R5 (stat_there (three true) 11 10 files_of 2 v1 V2 eq_refl Tv)). set (v2 := move 2 Seen v1) in R6.
  assert (Cv : contents v "installVersion" = Some (files_of "installVersion")) by (rewrite C4; cbn; rewrite C3; reflexivity).
  assert (Vv : (11 <= version_of (contents v2))%Z) by (unfold v2, v1; cbn [move contents]; unfold version_of; rewrite Cv; vm_compute; discriminate).
  assert (R7 := further_killed _ _ _ _ _ 2 _ _ R6 (read_new (three true) 11 10 files_of 2 v2 (set_same 2 _ _) Vv)). set (v3 := move 2 Checking v2) in R7.
  assert (Lv : contents v3 (lib (three true 2)) = Some (files_of library)) by (unfold v3, v2, v1; cbn [move contents]; rewrite C4; reflexivity).
  assert (R8 := further_killed _ _ _ _ _ 2 _ _ R7 (lib_there (three true) 11 10 files_of 2 v3 _ (set_same 2 _ _) Lv)).
  exists (move 2 Done v3). split; [apply three_orderly|]. split; [apply nothing_begins|]. split; [exact R8|]. split; [reflexivity|]. split; [reflexivity|]. split; [|split].
  - intros j f (k & t & E). destruct j as [|[|[|j]]]; cbn [move phases] in E; unfold v3, v2, v1 in E; cbn [move phases] in E; unfold set_phase in E; cbn [Nat.eqb] in E; try discriminate E.
    + rewrite O4, U0 in E by discriminate. discriminate E.
    + rewrite O4, U2 in E by lia. discriminate E.
  - unfold v3, v2, v1. cbn [move contents]. rewrite C4. cbn. rewrite C3. cbn. rewrite C. reflexivity.
  - exact Vv.
Qed.
Print Assumptions C104_killed_refuted.
(** A run for x64 that is killed while it copies node.lib has copied installVersion before it
    (129-138: entries in the order of readdir), and --ensure only looks whether node.lib is
    there (96-100): every later run takes the part of it that was copied for all of it. *)
Theorem C104_library_refuted : exists runs attempts w, (forall i, orderly [header] (runs i)) /\ begin runs [header] 11 files_of nothing /\ reaches_killed runs 11 attempts files_of nothing w /\
  phases w 1 = Done /\ (forall j f, ~ writes w j f) /\ lib (runs 1) = library /\ contents w library = Some "" /\ files_of library <> "".
Proof.
  exists (three true), 10. assert (R0 := here_killed (three true) 11 10 files_of nothing).
  assert (R1 := further_killed _ _ _ _ _ 0 _ _ R0 (stat_absent (three true) 11 10 files_of 0 nothing eq_refl eq_refl eq_refl)).
  assert (R2 := further_killed _ _ _ _ _ 0 _ _ R1 (make_dir (three true) 11 10 files_of 0 (move 0 (Making true) nothing) true eq_refl)).
  set (w := {| there := true; contents := contents (move 0 (Making true) nothing); phases := set_phase 0 (Copying (if true then all (three true 0) else rest (three true 0)) 0) (phases (move 0 (Making true) nothing)) |}) in R2.
  assert (NB : forall u f, (forall j, 1 <= j -> phases u j = Ready) -> ~ busy 0 f u) by (intros u f E2 (j & k & t & J & E); destruct j as [|j]; [congruence|rewrite E2 in E by lia; discriminate E]).
  assert (W1 : forall j, 1 <= j -> phases w j = Ready) by (intros [|j] J; [lia|reflexivity]).
  destruct (copies (three true) 10 0 nothing w header ["installVersion"; library] 0 R2 eq_refl (NB w _ W1)) as (u & R3 & E3 & O3 & T3 & C3); [discriminate|]. assert (U1 : forall j, 1 <= j -> phases u j = Ready) by (intros j J; rewrite O3 by lia; exact (W1 j J)).
  destruct (copies (three true) 10 0 nothing u "installVersion" [library] 0 R3 E3 (NB u _ U1)) as (v & R4 & E4 & O4 & T4 & C4); [discriminate|]. assert (V1 : forall j, 1 <= j -> phases v j = Ready) by (intros j J; rewrite O4 by lia; exact (U1 j J)).
  assert (R5 := further_killed _ _ _ _ _ 0 _ _ R4 (open_file (three true) 11 10 files_of 0 v library [] 0 E4 (NB v _ V1))).
  set (v1 := {| there := there v; contents := set_file library "" (contents v); phases := set_phase 0 (Writing library 0 []) (phases v) |}) in R5.
  assert (R6 := kill _ _ _ _ _ 0 v1 R5 ltac:(discriminate)). set (v2 := move 0 Dead v1) in R6.
  assert (P1 : phases v2 1 = Ready) by exact (V1 1 ltac:(lia)). assert (Tv : there v2 = true) by (change (there v2) with (there v); rewrite T4, T3; reflexivity).
  assert (R7 := further_killed _ _ _ _ _ 1 _ _ R6 (stat_there (three true) 11 10 files_of 1 v2 P1 eq_refl Tv)). set (v3 := move 1 Seen v2) in R7.
  assert (Vv : (11 <= version_of (contents v3))%Z) by (unfold v3, v2, v1; cbn [move contents]; unfold version_of; rewrite file_other by discriminate; rewrite C4; vm_compute; discriminate).
  assert (R8 := further_killed _ _ _ _ _ 1 _ _ R7 (read_new (three true) 11 10 files_of 1 v3 (set_same 1 _ _) Vv)). set (v4 := move 1 Checking v3) in R8.
  assert (Lv : contents v4 (lib (three true 1)) = Some "") by (unfold v4, v3, v2, v1; cbn [move contents]; apply file_same).
  assert (R9 := further_killed _ _ _ _ _ 1 _ _ R8 (lib_there (three true) 11 10 files_of 1 v4 _ (set_same 1 _ _) Lv)).
  exists (move 1 Done v4). split; [apply three_orderly|]. split; [apply nothing_begins|]. split; [exact R9|]. split; [reflexivity|]. split; [|split; [reflexivity|]; split; [exact Lv|discriminate]].
  intros j f (k & t & E). destruct j as [|[|j]]; [discriminate E|discriminate E|]. assert (X : phases (move 1 Done v4) (S (S j)) = phases v (S (S j))) by reflexivity. rewrite X, V1 in E by lia. discriminate E.
Qed.
Print Assumptions C104_library_refuted.
(** A run without --ensure that keeps meeting a file another run has open gives up
    (install.js:136-149), and rolls back what both are installing. *)
Theorem C104_gives_up_refuted : forall attempts, exists runs w u, (forall i, orderly [header] (runs i)) /\ begin runs [header] 11 files_of nothing /\ reaches runs 11 attempts files_of nothing w /\ alone runs 11 attempts files_of 1 w u /\ phases u 1 = GaveUp.
Proof.
  intros attempts. destruct (both_begin false attempts) as (w & R & T & C & P). exists (three false), w.
  destruct (gives_up (three false) 11 attempts files_of attempts 1 w header ["installVersion"; library] 0) as (u & A & D); [lia|reflexivity|rewrite P; reflexivity|exists 0, 0, ["installVersion"; library]; split; [discriminate|rewrite P; reflexivity]|].
  exists u. split; [apply three_orderly|]. split; [apply nothing_begins|]. split; [exact R|]. split; [exact A|exact D].
Qed.
Print Assumptions C104_gives_up_refuted.
