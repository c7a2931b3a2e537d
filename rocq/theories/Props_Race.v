(** C98: installs of the same version at the same time. *)
From Verif Require Import Lib Str StrFacts LibFacts Model_Race Spec_Race Proof_Race Proof_Race2.
From Coq Require Import ZArith Lia.
Local Open Scope string_scope.

(** When a run says it is done, every header is there whole, but for those that some other
    run is just writing. *)
Theorem C98_done : forall runs headers needed, all_genuine runs headers -> plain_archive headers -> (0 < needed)%Z -> forall w0 w i,
  begin headers needed w0 -> reaches runs needed w0 w -> phases w i = Done -> forall f c, In (f, c) headers -> (forall j, ~ writes w j f) -> contents w f = Some c.
Proof. exact done_headers. Qed.
Print Assumptions C98_done.
(** When all runs that have begun are done, every header is there whole, and the directory
    is marked as installed. *)
Theorem C98_all_done : forall runs headers needed, all_genuine runs headers -> plain_archive headers -> (0 < needed)%Z -> forall w0 w i,
  begin headers needed w0 -> reaches runs needed w0 w -> idle w -> phases w i = Done -> complete headers w /\ (needed <= version_of (contents w))%Z.
Proof. exact idle_complete. Qed.
Print Assumptions C98_all_done.
(** No run fails because of others, and none has to wait for others. *)
Theorem C98_never_fails : forall runs headers needed, all_genuine runs headers -> plain_archive headers -> (0 < needed)%Z -> forall w0 w i,
  begin headers needed w0 -> reaches runs needed w0 w -> phases w i <> Removing /\ phases w i <> Failed.
Proof. exact never_fails. Qed.
Print Assumptions C98_never_fails.
Theorem C98_never_waits : forall runs headers needed, all_genuine runs headers -> plain_archive headers -> (0 < needed)%Z -> forall w0 w i,
  begin headers needed w0 -> reaches runs needed w0 w -> exists w', alone runs needed i w w' /\ phases w' i = Done.
Proof. exact never_waits. Qed.
Print Assumptions C98_never_waits.
(** Once it is installed, runs with --ensure leave the directory as it is. *)
Theorem C98_later : forall runs needed w w', accepted needed w -> idle w -> (forall i, ensures (runs i) = true) -> reaches runs needed w w' -> contents w' = contents w /\ there w' = true.
Proof. exact later_untouched. Qed.
Print Assumptions C98_later.

(** ** Two runs *)
Definition sample_headers : list (string * string) := [("include/node/node.h", "xy")].
Definition two (second : run) (i : nat) : run := match i with 1 => second | _ => {| ensures := true; archive := sample_headers; sound := true |} end.
Definition good_run : run := {| ensures := true; archive := sample_headers; sound := true |}.
Definition bad_run : run := {| ensures := true; archive := sample_headers; sound := false |}.
Definition nothing : world := {| there := false; contents := fun _ => None; phases := fun _ => Ready |}.
Lemma nothing_begins : begin sample_headers 11 nothing.
Proof. split; [reflexivity|]. intros V. cbn in V. lia. Qed.
Lemma sample_plain : plain_archive sample_headers.
Proof. split; [discriminate|]. split; [repeat constructor; intros []|]. intros [I|[]]; discriminate I. Qed.
Lemma good_genuine : all_genuine (two good_run) sample_headers.
Proof. intros i. unfold two. destruct i as [|[|i]]; split; reflexivity. Qed.
Lemma forward : forall runs needed i w v u, step runs needed i w v -> reaches runs needed v u -> reaches runs needed w u.
Proof. intros runs needed i w v u S R. induction R as [|j x y R IH K]; [exact (further _ _ _ i w v (here _ _ w) S)|exact (further _ _ _ j x y IH K)]. Qed.
(** Both find no directory; the first installs all of it while the second has not begun to
    extract. *)
Definition installed (f : string) : option string := if String.eqb f "installVersion" then Some (mark 11) else if String.eqb f "include/node/node.h" then Some "xy" else None.
Lemma first_done : forall second, ensures second = true -> exists w, reaches (two second) 11 nothing w /\ phases w 0 = Done /\ phases w 1 = Extracting (jobs_of second) /\ there w = true /\
  (forall f, contents w f = installed f) /\ (forall i, 2 <= i -> phases w i = Ready).
Proof.
  intros second E2. eexists. split.
  - eapply (forward _ _ 0); [apply stat_absent; reflexivity|]. eapply (forward _ _ 1); [apply stat_absent; [reflexivity|exact E2|reflexivity]|].
    eapply (forward _ _ 0); [apply make_dir; reflexivity|]. eapply (forward _ _ 1); [apply make_dir; reflexivity|].
    eapply (forward _ _ 0); [apply (open_file _ _ _ _ [] "include/node/node.h" "xy" []); reflexivity|]. eapply (forward _ _ 0); [apply (write_piece _ _ _ _ [] "include/node/node.h" "xy" 0 true [] 2); [reflexivity|lia|cbn; lia]|].
    eapply (forward _ _ 0); [apply (close_file _ _ _ _ [] "include/node/node.h" "xy" true []); reflexivity|].
    eapply (forward _ _ 0); [eapply extracted; [reflexivity|discriminate|repeat constructor]|]. eapply (forward _ _ 0); [apply open_version; reflexivity|]. eapply (forward _ _ 0); [eapply write_version; reflexivity|].
    eapply (forward _ _ 0); [apply sums_match; reflexivity|]. apply here.
  - split; [reflexivity|]. split; [reflexivity|]. split; [reflexivity|]. split.
    + intros f. unfold installed. cbn [contents]. destruct (String.eqb_spec f "installVersion") as [->|D1]; [reflexivity|]. destruct (String.eqb_spec f "include/node/node.h") as [->|D2]; [reflexivity|].
      unfold write_file, set_file. cbn [contents]. destruct (String.eqb_spec f "installVersion") as [X|_]; [contradiction|].
      repeat match goal with |- context [match (if ?b then _ else _) with _ => _ end] => change b with true; cbv iota end.
      cbn. apply String.eqb_neq in D1, D2. rewrite ?D1, ?D2. reflexivity.
    + intros [|[|i]] L; [lia|lia|reflexivity].
Qed.
Example C98_all_done_witness : exists w, reaches (two good_run) 11 nothing w /\ phases w 0 = Done /\ phases w 1 = Done /\ idle w.
Proof.
  destruct (first_done good_run eq_refl) as (w & R & D0 & D1 & T & C & Z).
  destruct (C98_never_waits (two good_run) sample_headers 11 good_genuine sample_plain ltac:(lia) nothing w 1 nothing_begins R) as (u & A & D).
  assert (K : forall j, j <> 1 -> phases u j = phases w j).
  { clear D. induction A as [|v u A IH S]; [reflexivity|]. intros j J. rewrite <- (IH j J). pose proof S as S'. destruct S as [E1 E2|E1 E2 E3|E1 E2 E3|E1 V|E1 V|E1|l1 f c l2 E1 E2|l1 f c l2 E1 E2|l1 f c k b l2 n E1 L1 L2|l1 f c b l2 E1|l E1 E2|E1|l E1 DD F|E1 E2|E1 E2|b E1|E1 E2|E1 E2|f x E1 E2|E1 E2]; try (apply set_other; exact J).
    exfalso. assert (RV : reaches (two good_run) 11 nothing v). { clear - R A. induction A as [|x y A IH S]; [exact R|exact (further _ _ _ 1 x y IH S)]. }
    exact (proj1 (C98_never_fails (two good_run) sample_headers 11 good_genuine sample_plain ltac:(lia) nothing v 1 nothing_begins RV) E1). }
  exists u. split; [clear - R A; induction A as [|x y A IH S]; [exact R|exact (further _ _ _ 1 x y IH S)]|]. split; [rewrite K; [exact D0|discriminate]|]. split; [exact D|].
  intros [|[|i]]; [right; rewrite K; [exact D0|discriminate]|right; exact D|left; rewrite K; [apply Z; lia|discriminate]].
Qed.
Example C98_later_witness : exists w, accepted 11 w /\ idle w /\ forall i, ensures (two good_run i) = true.
Proof. exists {| there := true; contents := installed; phases := fun _ => Ready |}. split; [split; [reflexivity|vm_compute; discriminate]|]. split; [intros i; left; reflexivity|]. intros [|[|i]]; reflexivity. Qed.

(** ** Findings *)
(** A run may say it is done, and another then empty a header and write it anew: on systems
    other than Windows every run extracts straight into the version directory
    (install.js:207), and one that has looked for the directory before it was complete does
    so even if it is complete by then (install.js:57-70).  Whoever compiles with the headers
    the first run has installed may find them cut short. *)
Theorem C98_emptied_refuted : exists runs headers w, all_genuine runs headers /\ plain_archive headers /\ begin headers 11 nothing /\ reaches runs 11 nothing w /\
  phases w 0 = Done /\ contents w "installVersion" = Some (mark 11) /\ In ("include/node/node.h", "xy") headers /\ contents w "include/node/node.h" = Some "".
Proof.
  destruct (first_done good_run eq_refl) as (w & R & D0 & D1 & T & C & Z). exists (two good_run), sample_headers.
  exists {| there := there w; contents := set_file "include/node/node.h" (Some "") (contents w); phases := set_phase 1 (Extracting [("include/node/node.h", "xy", Writing 0 true)]) (phases w) |}.
  split; [exact good_genuine|]. split; [exact sample_plain|]. split; [exact nothing_begins|]. split; [exact (further _ _ _ 1 w _ R (open_file _ _ _ _ [] _ _ [] D1 T))|]. split; [exact D0|]. split; [cbn [contents]; unfold set_file; cbn [String.eqb]; rewrite C; reflexivity|].
  split; [left; reflexivity|reflexivity].
Qed.
Print Assumptions C98_emptied_refuted.
(** A run whose download fails removes the whole version directory, also what another run
    has installed there and has said is done (install.js:367-372). *)
Theorem C98_rollback_refuted : exists runs w v, reaches runs 11 nothing w /\ phases w 0 = Done /\ contents w "include/node/node.h" = Some "xy" /\ reaches runs 11 w v /\
  phases v 0 = Done /\ there v = false /\ contents v "include/node/node.h" = None.
Proof.
  destruct (first_done bad_run eq_refl) as (w & R & D0 & D1 & T & C & Z). exists (two bad_run), w. eexists. split; [exact R|]. split; [exact D0|]. split; [rewrite C; reflexivity|]. split.
  - eapply (forward _ _ 1); [apply (breaks _ _ _ _ _ D1); reflexivity|]. eapply (forward _ _ 1); [apply (unlink _ _ _ _ "installVersion" (mark 11)); [apply set_same|cbn [contents]; rewrite C; reflexivity]|].
    eapply (forward _ _ 1); [apply (unlink _ _ _ _ "include/node/node.h" "xy"); [cbn [phases]; rewrite set_same; reflexivity|cbn [contents]; unfold set_file; cbn [String.eqb]; rewrite C; reflexivity]|].
    eapply (forward _ _ 1); [apply remove_dir; [cbn [phases]; rewrite set_same; reflexivity|]|apply here]. intros f. cbn [contents]. unfold set_file. rewrite C. unfold installed. destruct (String.eqb f "include/node/node.h") eqn:D; [reflexivity|]. destruct (String.eqb f "installVersion"); reflexivity.
  - split; [|split; [reflexivity|reflexivity]]. cbn [phases]. rewrite set_other by discriminate. rewrite set_other by discriminate. rewrite D0. reflexivity.
Qed.
Print Assumptions C98_rollback_refuted.
