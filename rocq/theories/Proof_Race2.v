(** Proofs about several installs at the same time: no run waits for another. *)
From Verif Require Import Lib Str StrFacts LibFacts Model_Race Spec_Race Proof_Race.
From Coq Require Import ZArith Lia Bool.
Local Open Scope string_scope.

Section Race.
Variable runs : nat -> run.
Variable headers : list (string * string).
Variable needed : Z.
Hypothesis G : all_genuine runs headers.
Hypothesis P : plain_archive headers.
Hypothesis N : (0 < needed)%Z.

Definition job_size (j : job) : nat := match j with (_, c, Waiting) => String.length c + 2 | (_, c, Writing k _) => String.length c - k + 1 | (_, _, Closed) => 0 end.
Definition jobs_size (l : list job) : nat := fold_right (fun j n => job_size j + n) 0 l.
Lemma jobs_size_app : forall l1 j l2, jobs_size (l1 ++ j :: l2) = jobs_size l1 + job_size j + jobs_size l2.
Proof. intros l1 j l2. induction l1 as [|a l1 IH]; cbn [app jobs_size fold_right]; [fold (jobs_size l2); lia|]. fold (jobs_size (l1 ++ j :: l2)) (jobs_size l1). lia. Qed.
Definition size (p : phase) : nat :=
  let all := jobs_size (map (fun e => (fst e, snd e, Waiting)) headers) in
  match p with Ready => all + 8 | Seen => all + 7 | Making => all + 6 | Extracting l => jobs_size l + 5 | Opening => 4 | Marking _ => 3 | Comparing => 2 | Done => 0 | _ => 1 end.
Lemma moves : forall w i, sane headers needed w -> phases w i <> Done -> exists w', step runs needed i w w' /\ size (phases w' i) < size (phases w i).
Proof.
  intros w i S D. pose proof (calm _ _ _ S i) as C. destruct (G i) as [GA GS]. destruct (phases w i) as [| | |l| |b| | | |] eqn:E; cbn [calm_phase] in C; try (destruct C; fail); try congruence.
  - destruct (ensures (runs i)) eqn:EN; [destruct (there w) eqn:T|].
    + eexists. split; [apply stat_there; assumption|]. cbn [phases]. rewrite set_same. cbn [size]. lia.
    + eexists. split; [apply stat_absent; assumption|]. cbn [phases]. rewrite set_same. cbn [size]. lia.
    + eexists. split; [apply no_ensure; assumption|]. cbn [phases]. rewrite set_same. cbn [size]. lia.
  - destruct (Z_lt_le_dec (version_of (contents w)) needed) as [V|V].
    + eexists. split; [apply read_old; assumption|]. cbn [phases]. rewrite set_same. cbn [size]. lia.
    + eexists. split; [apply read_new; assumption|]. cbn [phases]. rewrite set_same. cbn [size]. lia.
  - eexists. split; [apply make_dir; assumption|]. cbn [phases]. rewrite set_same. cbn [size]. unfold jobs_of. rewrite GA. lia.
  - assert (T : there w = true) by (apply (dir_there _ _ _ S i); rewrite E; exact I).
    assert (X : Forall (fun j => snd j = Closed) l \/ Exists (fun j => snd j <> Closed) l).
    { clear. induction l as [|[[f c] p] l IH]; [left; constructor|]. destruct p; [right; left; discriminate|right; left; discriminate|]. destruct IH as [IH|IH]; [left; constructor; [reflexivity|exact IH]|right; right; exact IH]. }
    destruct X as [F|X].
    + eexists. split; [apply (extracted _ _ _ _ l E); [|exact F]|].
      * intros ->. destruct C as [M _]. destruct P as [NE _]. cbn in M. congruence.
      * cbn [phases]. rewrite set_same. cbn [size]. lia.
    + apply Exists_exists in X. destruct X as ([[f c] p] & J & NC). cbn [snd] in NC. apply in_split in J. destruct J as (l1 & l2 & ->). destruct p as [|k b|]; [| |congruence].
      * eexists. split; [apply (open_file _ _ _ _ l1 f c l2 E T)|]. cbn [phases]. rewrite set_same. cbn [size]. rewrite !jobs_size_app. cbn [job_size]. lia.
      * destruct C as [_ F]. apply Forall_app in F. destruct F as [_ F]. inversion F as [|? ? F1 _]; subst. destruct (F1 k b eq_refl) as [-> K]. cbn [fst snd] in K. destruct (Nat.eq_dec k (String.length c)) as [->|NK].
        -- eexists. split; [apply (close_file _ _ _ _ l1 f c true l2 E)|]. cbn [phases]. rewrite set_same. cbn [size]. rewrite !jobs_size_app. cbn [job_size]. lia.
        -- eexists. split; [apply (write_piece _ _ _ _ l1 f c k true l2 1 E); lia|]. cbn [phases]. rewrite set_same. cbn [size]. rewrite !jobs_size_app. cbn [job_size]. lia.
  - assert (T : there w = true) by (apply (dir_there _ _ _ S i); rewrite E; exact I). eexists. split; [apply open_version; assumption|]. cbn [phases]. rewrite set_same. cbn [size]. lia.
  - eexists. split; [apply (write_version _ _ _ _ b E)|]. cbn [phases]. rewrite set_same. cbn [size]. lia.
  - eexists. split; [apply sums_match; assumption|]. cbn [phases]. rewrite set_same. cbn [size]. lia.
Qed.
Lemma alone_trans : forall i w v u, alone runs needed i w v -> alone runs needed i v u -> alone runs needed i w u.
Proof. intros i w v u H K. induction K as [|x y K IH S]; [exact H|exact (goes_on _ _ _ _ _ _ IH S)]. Qed.
Theorem finishes : forall i n w, size (phases w i) <= n -> sane headers needed w -> exists w', alone runs needed i w w' /\ phases w' i = Done.
Proof.
  intros i. induction n as [|n IH]; intros w L S.
  - exists w. split; [apply rests|]. destruct (phases w i) eqn:E; cbn [size] in L; try lia. reflexivity.
  - destruct (phases w i) eqn:E.
    all: try (destruct (moves w i S) as (w' & K & Lt); [rewrite E; discriminate|]; destruct (IH w') as (u & A & D); [rewrite E in Lt; lia|exact (sane_step runs headers needed G P N i w w' S K)|]; exists u; split; [exact (alone_trans i w w' u (goes_on _ _ _ _ _ _ (rests _ _ _ _) K) A)|exact D]).
    exists w. split; [apply rests|exact E].
Qed.
Theorem never_waits : forall w0 w i, begin headers needed w0 -> reaches runs needed w0 w -> exists w', alone runs needed i w w' /\ phases w' i = Done.
Proof. intros w0 w i B R. exact (finishes i _ w (le_n _) (sane_reached runs headers needed G P N w0 w (sane_begin headers needed w0 B) R)). Qed.
End Race.
