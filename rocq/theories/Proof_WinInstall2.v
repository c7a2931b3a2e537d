(** Installing again, and installing anew (Model_WinInstall against Spec_WinInstall). *)
From Verif Require Import Lib Str StrFacts LibFacts Model_WinInstall Spec_WinInstall Proof_WinInstall.
From Coq Require Import ZArith Lia.
Local Open Scope string_scope.

Section Proof.
Variable runs : nat -> run.
Variable needed : Z.
Variable attempts : nat.
Variable whole : string -> string.
Local Notation step := (step runs needed attempts whole).
Local Notation reaches := (reaches runs needed attempts whole).

Theorem later_untouched : forall w w', there w = true -> (needed <= version_of (contents w))%Z -> (forall i, ensures (runs i) = true) -> (forall i, exists x, contents w (lib (runs i)) = Some x) -> idle w -> reaches w w' ->
  contents w' = contents w /\ there w' = true.
Proof.
  intros w w' T V En L Id R. enough (Q : contents w' = contents w /\ there w' = true /\ forall i, phases w' i = Ready \/ phases w' i = Seen \/ phases w' i = Checking \/ phases w' i = Done) by (destruct Q as (A & B & _); auto).
  induction R as [|i v u R IH S]; [split; [reflexivity|]; split; [exact T|]; intros i; destruct (Id i); auto|]. destruct IH as (C & T' & P). assert (Pi := P i).
  assert (Mv : forall p, p = Ready \/ p = Seen \/ p = Checking \/ p = Done -> contents (move i p v) = contents w /\ there (move i p v) = true /\ forall j, phases (move i p v) j = Ready \/ phases (move i p v) j = Seen \/ phases (move i p v) j = Checking \/ phases (move i p v) j = Done).
  { intros p Hp. split; [exact C|]. split; [exact T'|]. intros j. cbn [move phases]. destruct (Nat.eq_dec j i) as [->|J]; [rewrite set_same; exact Hp|rewrite set_other by exact J; exact (P j)]. }
  destruct S as [E1 E2|E1 E2 E3|E1 E2 E3|E1 E2|E1 E2|x E1 E2|E1 E2|tb E1|g t tr E1 E2|g k t n x E1 L1 L2 E2|g t E1|g t tr x E1 B E2 E3|g t tr E1 B E2 E3|g t tr E1 B E2 E3|tr E1]; rewrite E1 in Pi; try (destruct Pi as [X|[X|[X|X]]]; discriminate X); try (apply Mv; tauto).
  - rewrite En in E2. discriminate E2.
  - congruence.
  - rewrite C in E2. lia.
  - destruct (L i) as (x & X). rewrite C in E2. congruence.
Qed.

(** A run without --ensure, no other writing. *)
Definition mends (i : nat) (w : world) : Prop :=
  (forall j f, j <> i -> ~ writes w j f) /\
  match phases w i with
  | Ready | Making true => True
  | Copying todo _ => forall f, In f (all (runs i)) -> In f todo \/ contents w f = Some (whole f)
  | Writing g k todo => k <= String.length (whole g) /\ contents w g = Some (substring 0 k (whole g)) /\ forall f, In f (all (runs i)) -> f = g \/ In f todo \/ contents w f = Some (whole f)
  | Done => forall f, In f (all (runs i)) -> contents w f = Some (whole f)
  | _ => False
  end.
Lemma mends_step : forall i w u, ensures (runs i) = false -> mends i w -> step i w u -> mends i u.
Proof.
  intros i w u En [O C] S. split.
  - intros j f J (k & t & E). rewrite (phases_step runs needed attempts whole i w u j S J) in E. apply (O j f J). exists k, t. exact E.
  - assert (NB : forall f, ~ busy i f w) by (intros f B; apply busy_iff in B; destruct B as (j & J & X); exact (O j f J X)).
    destruct S as [E1 E2|E1 E2 E3|E1 E2 E3|E1 E2|E1 E2|x E1 E2|E1 E2|tb E1|g t tr E1 E2|g k t n x E1 L1 L2 E2|g t E1|g t tr x E1 B E2 E3|g t tr E1 B E2 E3|g t tr E1 B E2 E3|tr E1]; rewrite E1 in C; cbn [move phases contents]; rewrite set_same; cbn iota; try exact I; try contradiction; try (destruct (NB g B)); try congruence.
    + destruct tb; [|contradiction]. intros f F. left. exact F.
    + split; [lia|]. split; [rewrite file_same, substring_zero; reflexivity|]. intros f F. destruct (string_dec f g) as [->|G]; [left; reflexivity|]. right. destruct (C f F) as [[X|X]|X]; [congruence|left; exact X|right; rewrite file_other by exact G; exact X].
    + destruct C as (K & P & C). rewrite P in E2. injection E2 as <-. split; [exact L2|]. split; [rewrite file_same, substring_next by exact L2; reflexivity|]. intros f F. destruct (string_dec f g) as [->|G]; [left; reflexivity|]. right. destruct (C f F) as [X|[X|X]]; [congruence|left; exact X|right; rewrite file_other by exact G; exact X].
    + destruct C as (K & P & C). intros f F. destruct (C f F) as [->|[X|X]]; [right; rewrite P, substring_whole; reflexivity|left; exact X|right; exact X].
    + intros f F. destruct (C f F) as [[]|X]. exact X.
Qed.
Theorem mended : forall i w u, ensures (runs i) = false -> phases w i = Ready -> (forall j f, ~ writes w j f) -> alone runs needed attempts whole i w u ->
  phases u i <> GaveUp /\ (phases u i = Done -> forall f, In f (all (runs i)) -> contents u f = Some (whole f)).
Proof.
  intros i w u En R O A. assert (M : mends i u) by (induction A as [|v u A IH S]; [split; [intros j f _; apply O|rewrite R; exact I]|exact (mends_step i v u En IH S)]). destruct M as [_ M].
  split; [intros E; rewrite E in M; exact M|]. intros E. rewrite E in M. exact M.
Qed.
(** ... does get to the end. *)
Lemma mending : forall i todo w tries, (forall j f, j <> i -> ~ writes w j f) -> phases w i = Copying todo tries -> exists u, alone runs needed attempts whole i w u /\ phases u i = Done.
Proof.
  intros i. induction todo as [|f todo IH]; intros w tries O E.
  - eexists. split; [apply alone_one; exact (copied _ _ _ _ i w tries E)|]. apply set_same.
  - assert (B : ~ busy i f w) by (intros B; apply busy_iff in B; destruct B as (j & J & X); exact (O j f J X)). assert (S := open_file runs needed attempts whole i w f todo tries E B).
    set (v := {| there := there w; contents := set_file f "" (contents w); phases := set_phase i (Writing f 0 todo) (phases w) |}) in S.
    assert (A : exists v', alone runs needed attempts whole i v v' /\ phases v' i = Copying todo 0).
    { destruct (Nat.eq_dec (String.length (whole f)) 0) as [Z|N].
      - exists (move i (Copying todo 0) v). split; [apply alone_one; apply (close_file _ _ _ _ i v f todo); rewrite Z; apply set_same|apply set_same].
      - eexists. split; [eapply goes_further; [apply alone_one; apply (write_piece _ _ _ _ i v f 0 todo (String.length (whole f)) ""); [apply set_same|lia|lia|apply file_same]|]; apply alone_one; apply (close_file _ _ _ _ i _ f todo); apply set_same|apply set_same]. }
    destruct A as (v' & A & E'). assert (A' := goes_further runs needed attempts whole i _ _ _ (alone_one runs needed attempts whole i _ _ S) A).
    assert (O' : forall j g, j <> i -> ~ writes v' j g).
    { clear - A' O. intros j g J (k & t & X). assert (P : phases v' j = phases w j) by (induction A' as [|x y A IHA S]; [reflexivity|]; rewrite (phases_step runs needed attempts whole i x y j S J) in X |- *; exact (IHA X)). rewrite P in X. apply (O j g J). exists k, t. exact X. }
    destruct (IH v' 0 O' E') as (u & A2 & D). exists u. split; [exact (goes_further runs needed attempts whole i _ _ _ A' A2)|exact D].
Qed.
Theorem mends_all : forall i w, ensures (runs i) = false -> phases w i = Ready -> (forall j f, ~ writes w j f) -> exists u, alone runs needed attempts whole i w u /\ phases u i = Done.
Proof.
  intros i w En R O. assert (S1 := no_ensure runs needed attempts whole i w R En). assert (S2 := make_dir runs needed attempts whole i (move i (Making true) w) true (set_same i (Making true) (phases w))). cbn [move contents phases] in S2.
  match type of S2 with Model_WinInstall.step _ _ _ _ _ _ ?v => destruct (mending i (all (runs i)) v 0) as (u & A & D) end.
  - intros j f J (k & t & E). cbn [phases] in E. rewrite !set_other in E by exact J. apply (O j f). exists k, t. exact E.
  - apply set_same.
  - exists u. split; [|exact D]. exact (goes_further runs needed attempts whole i _ _ _ (goes_further runs needed attempts whole i _ _ _ (alone_one runs needed attempts whole i _ _ S1) (alone_one runs needed attempts whole i _ _ S2)) A).
Qed.
(** Without --ensure a run gives up on a file another has open. *)
Lemma gives_up : forall n i w f todo tries, n + S tries >= attempts -> ensures (runs i) = false -> phases w i = Copying (f :: todo) tries -> busy i f w -> exists u, alone runs needed attempts whole i w u /\ phases u i = GaveUp.
Proof.
  induction n as [|n IH]; intros i w f todo tries N En E B.
  - eexists. split; [apply alone_one; apply (give_up _ _ _ _ i w f todo tries E B); [congruence|lia]|apply set_same].
  - destruct (Nat.lt_ge_cases (S tries) attempts) as [L|L]; [|eexists; split; [apply alone_one; apply (give_up _ _ _ _ i w f todo tries E B); [congruence|lia]|apply set_same]].
    assert (S := try_again runs needed attempts whole i w f todo tries E B ltac:(congruence) L). destruct (IH i (move i (Copying (f :: todo) (Datatypes.S tries)) w) f todo (Datatypes.S tries)) as (u & A & D); [lia|exact En|apply set_same| |].
    + destruct B as (j & k & t & J & X). exists j, k, t. split; [exact J|]. cbn [move phases]. rewrite set_other by exact J. exact X.
    + exists u. split; [exact (goes_further runs needed attempts whole i _ _ _ (alone_one runs needed attempts whole i _ _ S) A)|exact D].
Qed.
End Proof.
