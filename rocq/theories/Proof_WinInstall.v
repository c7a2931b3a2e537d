(** Installs at the same time on Windows (Model_WinInstall against Spec_WinInstall). *)
From Verif Require Import Lib Str StrFacts LibFacts Model_WinInstall Spec_WinInstall.
From Coq Require Import ZArith Lia.
Local Open Scope string_scope.

Lemma set_same : forall i p ps, set_phase i p ps i = p.
Proof. intros i p ps. unfold set_phase. rewrite Nat.eqb_refl. reflexivity. Qed.
Lemma set_other : forall i j p ps, j <> i -> set_phase i p ps j = ps j.
Proof. intros i j p ps H. unfold set_phase. destruct (Nat.eqb_spec j i); [contradiction|reflexivity]. Qed.
Lemma file_same : forall f c cs, set_file f c cs f = Some c.
Proof. intros f c cs. unfold set_file. rewrite String.eqb_refl. reflexivity. Qed.
Lemma file_other : forall f g c cs, g <> f -> set_file f c cs g = cs g.
Proof. intros f g c cs H. unfold set_file. destruct (String.eqb_spec g f); [contradiction|reflexivity]. Qed.
Lemma substring_whole : forall s, substring 0 (String.length s) s = s.
Proof. induction s; cbn; congruence. Qed.
Lemma substring_zero : forall s, substring 0 0 s = "".
Proof. destruct s; reflexivity. Qed.
Lemma substring_next : forall s k n, k + n <= String.length s -> substring 0 k s ++ substring k n s = substring 0 (k + n) s.
Proof.
  induction s as [|a s IH]; intros k n H; cbn [String.length] in H.
  - assert (k = 0 /\ n = 0) as [-> ->] by lia. reflexivity.
  - destruct k as [|k]; [rewrite substring_zero; reflexivity|]. cbn [substring Nat.add append]. rewrite IH by lia. reflexivity.
Qed.

Section Proof.
Variable runs : nat -> run.
Variable needed : Z.
Variable attempts : nat.
Variable whole : string -> string.
Variable headers : list string.
Hypothesis order : forall i, orderly headers (runs i).
Local Notation step := (step runs needed attempts whole).
Local Notation reaches := (reaches runs needed attempts whole).

Definition settled (w : world) (f : string) : Prop := contents w f = Some (whole f) \/ exists j, writes w j f.
Definition due (f : string) (todo : list string) : Prop := exists a b, (todo = a ++ f :: b)%list /\ ~ In "installVersion" a.
Definition claim (w : world) (i : nat) (p : phase) : Prop :=
  match p with
  | Ready | Seen | Making true | GaveUp | Dead => True
  | Checking | Making false => forall f, In f headers -> settled w f
  | Copying todo _ => (forall f, In f headers -> settled w f \/ due f todo) /\ (settled w (lib (runs i)) \/ In (lib (runs i)) todo)
  | Writing g _ todo => (forall f, In f headers -> settled w f \/ (g <> "installVersion" /\ due f todo)) /\ (settled w (lib (runs i)) \/ In (lib (runs i)) todo)
  | Done => (forall f, In f headers -> settled w f) /\ settled w (lib (runs i))
  end.
Record inv (w : world) : Prop := {
  one : forall i j f, writes w i f -> writes w j f -> i = j;
  part : forall i f k todo, phases w i = Writing f k todo -> k <= String.length (whole f) /\ contents w f = Some (substring 0 k (whole f));
  marked : (needed <= version_of (contents w))%Z -> forall f, In f headers -> settled w f;
  libs : forall i x, contents w (lib (runs i)) = Some x -> settled w (lib (runs i));
  claims : forall i, claim w i (phases w i) }.

Lemma no_version : ~ In "installVersion" headers.
Proof. destruct (order 0) as [(b & a & _ & I & N) _]. intros H. exact (N (I _ H)). Qed.
Lemma begins : forall w, begin runs headers needed whole w -> inv w.
Proof.
  intros w (R & M & L). split.
  - intros i j f (k & t & E). rewrite R in E. discriminate E.
  - intros i f k t E. rewrite R in E. discriminate E.
  - intros V f F. left. exact (M V f F).
  - intros i x X. left. rewrite X. f_equal. exact (L i x X).
  - intros i. rewrite R. exact I.
Qed.
Lemma writes_other : forall w u i p f j, phases u = set_phase i p (phases w) -> j <> i -> (writes u j f <-> writes w j f).
Proof. intros w u i p f j E J. unfold writes. rewrite E, set_other by exact J. reflexivity. Qed.
Lemma busy_iff : forall i f w, busy i f w <-> exists j, j <> i /\ writes w j f.
Proof. intros i f w. unfold busy, writes. split; [intros (j & k & t & J & E); exists j; eauto|intros (j & J & k & t & E); exists j, k, t; auto]. Qed.

Lemma settled_step : forall i w u f, inv w -> step i w u -> settled w f -> settled u f.
Proof.
  intros i w u f V S H.
  assert (Mv : forall p, (forall g k t, phases w i = Writing g k t -> k = String.length (whole g)) -> settled (move i p w) f).
  { intros p Q. destruct H as [H|(j & H)]; [left; exact H|]. destruct (Nat.eq_dec j i) as [->|J].
    - destruct H as (k & t & E). rewrite (Q _ _ _ E) in E. destruct (part w V i f _ t E) as [_ P]. left. cbn [contents move]. rewrite P, substring_whole. reflexivity.
    - right. exists j. apply (writes_other w (move i p w) i p f j eq_refl J). exact H. }
  destruct S as [E1 E2|E1 E2 E3|E1 E2 E3|E1 E2|E1 E2|x E1 E2|E1 E2|tb E1|g t tr E1 E2|g k t n x E1 L1 L2 E2|g t E1|g t tr x E1 B E2 E3|g t tr E1 B E2 E3|g t tr E1 B E2 E3|tr E1]; try (apply Mv; intros g0 k0 t0 E; rewrite E in E1; first [discriminate E1 | injection E1; intros; subst; reflexivity]).
  - destruct (string_dec f g) as [->|F]; [right; exists i, 0, t; cbn [phases]; apply set_same|]. destruct H as [H|(j & H)]; [left; cbn [contents]; rewrite file_other by exact F; exact H|]. destruct (Nat.eq_dec j i) as [->|J]; [destruct H as (k0 & t0 & E); rewrite E in E1; discriminate E1|]. right. exists j. eapply (writes_other w _ i); [reflexivity|exact J|exact H].
  - destruct (string_dec f g) as [->|F]; [right; exists i, (k + n), t; cbn [phases]; apply set_same|]. destruct H as [H|(j & H)]; [left; cbn [contents]; rewrite file_other by exact F; exact H|]. destruct (Nat.eq_dec j i) as [->|J]; [destruct H as (k0 & t0 & E); rewrite E in E1; congruence|]. right. exists j. eapply (writes_other w _ i); [reflexivity|exact J|exact H].
Qed.
Lemma claim_step : forall i w u j p, inv w -> step i w u -> claim w j p -> claim u j p.
Proof.
  intros i w u j p V S C. assert (M : forall f, settled w f -> settled u f) by (intros f; exact (settled_step i w u f V S)). destruct p as [| | |[|]|todo tr|g k todo| | |]; cbn [claim] in *; try exact I; try (intros f F; apply M; exact (C f F)).
  - destruct C as [A B]. split; [intros f F; destruct (A f F) as [X|X]; [left; exact (M f X)|right; exact X]|destruct B as [X|X]; [left; exact (M _ X)|right; exact X]].
  - destruct C as [A B]. split; [intros f F; destruct (A f F) as [X|X]; [left; exact (M f X)|right; exact X]|destruct B as [X|X]; [left; exact (M _ X)|right; exact X]].
  - destruct C as [A B]. split; [intros f F; exact (M f (A f F))|exact (M _ B)].
Qed.
Lemma due_next : forall f g todo, due f (g :: todo) -> f = g \/ (g <> "installVersion" /\ due f todo).
Proof.
  intros f g todo (a & b & E & N). destruct a as [|x a]; [injection E as -> _; left; reflexivity|]. injection E as -> ->. right. split; [intros ->; apply N; left; reflexivity|]. exists a, b. split; [reflexivity|]. intros X. apply N. right. exact X.
Qed.
(** What run [i] claims after its step. *)
Lemma claim_own : forall i w u, inv w -> step i w u -> claim u i (phases u i).
Proof.
  intros i w u V S. assert (C := claims w V i). assert (M : forall f, settled w f -> settled u f) by (intros f; exact (settled_step i w u f V S)).
  destruct S as [E1 E2|E1 E2 E3|E1 E2 E3|E1 E2|E1 E2|x E1 E2|E1 E2|tb E1|g t tr E1 E2|g k t n x E1 L1 L2 E2|g t E1|g t tr x E1 B E2 E3|g t tr E1 B E2 E3|g t tr E1 B E2 E3|tr E1]; rewrite E1 in C; cbn [move phases]; rewrite set_same; cbn [claim] in *; try exact I.
  - intros f F. apply M. exact (marked w V E2 f F).
  - split; [intros f F; exact (M f (C f F))|]. apply M. exact (libs w V i x E2).
  - intros f F. exact (M f (C f F)).
  - destruct (order i) as ((b & a & E & In1 & N) & L1 & L2). destruct tb.
    + split; [|right; exact L1]. intros f F. right. apply In1 in F. destruct (in_split f b F) as (x & y & ->). exists x, (y ++ "installVersion" :: a)%list. split; [rewrite E, <- app_assoc; reflexivity|]. intros X. apply N. apply in_or_app. left. exact X.
    + split; [intros f F; left; exact (M f (C f F))|right; exact L2].
  - destruct C as [A B]. split.
    + intros f F. destruct (A f F) as [X|X]; [left; exact (M f X)|]. destruct (due_next f g t X) as [->|X2]; [left; right; exists i, 0, t; cbn [phases]; apply set_same|right; exact X2].
    + destruct B as [X|[X|X]]; [left; exact (M _ X)| |right; exact X]. left. right. exists i, 0, t. cbn [phases]. rewrite X. apply set_same.
  - destruct C as [A B]. split; [intros f F; destruct (A f F) as [X|X]; [left; exact (M f X)|right; exact X]|destruct B as [X|X]; [left; exact (M _ X)|right; exact X]].
  - destruct C as [A B]. split; [intros f F; destruct (A f F) as [X|[_ X]]; [left; exact (M f X)|right; exact X]|destruct B as [X|X]; [left; exact (M _ X)|right; exact X]].
  - destruct C as [A Bb]. assert (G : settled w g) by (right; apply busy_iff in B; destruct B as (j & _ & W); exists j; exact W). split.
    + intros f F. destruct (A f F) as [X|X]; [left; exact (M f X)|]. destruct (due_next f g t X) as [->|[_ X2]]; [left; exact (M g G)|right; exact X2].
    + destruct Bb as [X|[X|X]]; [left; exact (M _ X)|left; rewrite <- X; exact (M g G)|right; exact X].
  - destruct C as [A Bb]. split; [intros f F; destruct (A f F) as [X|X]; [left; exact (M f X)|right; exact X]|destruct Bb as [X|X]; [left; exact (M _ X)|right; exact X]].
  - destruct C as [A B]. split; [intros f F; destruct (A f F) as [X|(a & b & E & _)]; [exact (M f X)|destruct a; discriminate E]|destruct B as [X|[]]; exact (M _ X)].
Qed.
Lemma phases_step : forall i w u j, step i w u -> j <> i -> phases u j = phases w j.
Proof. intros i w u j S J. destruct S; cbn [move phases]; apply set_other; exact J. Qed.
Lemma version_other : forall f c cs, f <> "installVersion" -> version_of (set_file f c cs) = version_of cs.
Proof. intros f c cs F. unfold version_of. rewrite file_other by congruence. reflexivity. Qed.
Lemma inv_step : forall i w u, inv w -> step i w u -> inv u.
Proof.
  intros i w u V S. assert (M : forall f, settled w f -> settled u f) by (intros f; exact (settled_step i w u f V S)). assert (PO := fun j => phases_step i w u j S). assert (CO := claim_own i w u V S).
  (* who writes after the step *)
  assert (Wr : forall f, writes u i f -> writes w i f \/ ~ busy i f w).
  { intros f (k & t & E). destruct S as [E1 E2|E1 E2 E3|E1 E2 E3|E1 E2|E1 E2|x E1 E2|E1 E2|tb E1|g t' tr E1 E2|g k' t' n x E1 L1 L2 E2|g t' E1|g t' tr x E1 B E2 E3|g t' tr E1 B E2 E3|g t' tr E1 B E2 E3|tr E1]; cbn [move phases] in E; rewrite set_same in E; try discriminate E.
    - injection E as -> _ _. right. exact E2.
    - injection E as -> _ _. left. exists k', t'. exact E1. }
  split.
  - assert (Wo : forall j f, j <> i -> writes u j f -> writes w j f) by (intros j f J (k & t & E); exists k, t; rewrite <- (PO j J); exact E).
    assert (Q : forall j f, j <> i -> writes u i f -> writes u j f -> False).
    { intros j f J A B. destruct (Wr f A) as [X|X]; [apply J; symmetry; exact (one w V i j f X (Wo j f J B))|]. apply X. apply busy_iff. exists j. split; [exact J|exact (Wo j f J B)]. }
    intros j l f A B. destruct (Nat.eq_dec j i) as [->|J], (Nat.eq_dec l i) as [->|L]; [reflexivity|destruct (Q l f L A B)|destruct (Q j f J B A)|exact (one w V j l f (Wo j f J A) (Wo l f L B))].
  - intros j f k t E. destruct (Nat.eq_dec j i) as [->|J].
    + destruct S as [E1 E2|E1 E2 E3|E1 E2 E3|E1 E2|E1 E2|x E1 E2|E1 E2|tb E1|g t' tr E1 E2|g k' t' n x E1 L1 L2 E2|g t' E1|g t' tr x E1 B E2 E3|g t' tr E1 B E2 E3|g t' tr E1 B E2 E3|tr E1]; cbn [move phases] in E; rewrite set_same in E; try discriminate E.
      * injection E as <- <- _. split; [lia|]. cbn [contents]. rewrite file_same, substring_zero. reflexivity.
      * injection E as <- <- _. split; [exact L2|]. cbn [contents]. rewrite file_same. destruct (part w V i g k' t' E1) as [_ P]. rewrite P in E2. injection E2 as <-. rewrite substring_next by exact L2. reflexivity.
    + rewrite (PO j J) in E. destruct (part w V j f k t E) as [P1 P2]. split; [exact P1|]. assert (Bz : busy i f w) by (apply busy_iff; exists j; split; [exact J|exists k, t; exact E]).
      destruct S as [E1 E2|E1 E2 E3|E1 E2 E3|E1 E2|E1 E2|x E1 E2|E1 E2|tb E1|g t' tr E1 E2|g k' t' n x E1 L1 L2 E2|g t' E1|g t' tr x E1 B E2 E3|g t' tr E1 B E2 E3|g t' tr E1 B E2 E3|tr E1]; cbn [move contents]; try exact P2.
      * rewrite file_other; [exact P2|]. intros ->. exact (E2 Bz).
      * rewrite file_other; [exact P2|]. intros ->. apply J. apply (one w V j i g); [exists k, t; exact E|exists k', t'; exact E1].
  - destruct (string_dec "" "") as [_|X]; [|contradiction].
    assert (Q : forall g c, contents u = set_file g c (contents w) -> (g = "installVersion" -> forall f, In f headers -> settled w f) -> (needed <= version_of (contents u))%Z -> forall f, In f headers -> settled u f).
    { intros g c E H Hv f F. apply M. destruct (string_dec g "installVersion") as [X|X]; [exact (H X f F)|]. rewrite E, (version_other g c _ X) in Hv. exact (marked w V Hv f F). }
    destruct S as [E1 E2|E1 E2 E3|E1 E2 E3|E1 E2|E1 E2|x E1 E2|E1 E2|tb E1|g t' tr E1 E2|g k' t' n x E1 L1 L2 E2|g t' E1|g t' tr x E1 B E2 E3|g t' tr E1 B E2 E3|g t' tr E1 B E2 E3|tr E1]; try (intros Hv f F; apply M; exact (marked w V Hv f F)).
    + apply (Q g ""); [reflexivity|]. intros -> f F. assert (C := claims w V i). rewrite E1 in C. destruct C as [C _]. destruct (C f F) as [X|X]; [exact X|]. destruct (due_next _ _ _ X) as [->|[X2 _]]; [destruct (no_version F)|congruence].
    + apply (Q g (x ++ substring k' n (whole g))); [reflexivity|]. intros -> f F. assert (C := claims w V i). rewrite E1 in C. destruct C as [C _]. destruct (C f F) as [X|[X _]]; [exact X|congruence].
  - intros j x X. destruct (contents w (lib (runs j))) as [y|] eqn:Y; [apply M; exact (libs w V j y Y)|].
    destruct S as [E1 E2|E1 E2 E3|E1 E2 E3|E1 E2|E1 E2|z E1 E2|E1 E2|tb E1|g t' tr E1 E2|g k' t' n z E1 L1 L2 E2|g t' E1|g t' tr z E1 B E2 E3|g t' tr E1 B E2 E3|g t' tr E1 B E2 E3|tr E1]; cbn [move contents] in X; try congruence.
    + destruct (string_dec (lib (runs j)) g) as [G|G]; [|rewrite file_other in X by exact G; congruence]. right. exists i, 0, t'. cbn [phases]. rewrite G. apply set_same.
    + destruct (string_dec (lib (runs j)) g) as [G|G]; [|rewrite file_other in X by exact G; congruence]. rewrite G in Y. congruence.
  - intros j. destruct (Nat.eq_dec j i) as [->|J]; [exact CO|]. rewrite (PO j J). exact (claim_step i w u j _ V S (claims w V j)).
Qed.
Lemma inv_reaches : forall w u, inv w -> reaches w u -> inv u.
Proof. intros w u V R. induction R as [|i v u R IH S]; [exact V|exact (inv_step i v u IH S)]. Qed.

Theorem one_writer : forall w0 w i j f, begin runs headers needed whole w0 -> reaches w0 w -> writes w i f -> writes w j f -> i = j.
Proof. intros w0 w i j f B R. exact (one w (inv_reaches w0 w (begins w0 B) R) i j f). Qed.
Theorem done_files : forall w0 w i, begin runs headers needed whole w0 -> reaches w0 w -> phases w i = Done -> forall f, f = lib (runs i) \/ In f headers -> (forall j, ~ writes w j f) -> contents w f = Some (whole f).
Proof.
  intros w0 w i B R D f F N. assert (V := inv_reaches w0 w (begins w0 B) R). assert (C := claims w V i). rewrite D in C. destruct C as [C1 C2].
  assert (S : settled w f) by (destruct F as [->|F]; [exact C2|exact (C1 f F)]). destruct S as [S|(j & S)]; [exact S|destruct (N j S)].
Qed.
Theorem idle_files : forall w0 w i, begin runs headers needed whole w0 -> reaches w0 w -> idle w -> phases w i = Done -> forall f, f = lib (runs i) \/ In f headers -> contents w f = Some (whole f).
Proof. intros w0 w i B R Id D f F. apply (done_files w0 w i B R D f F). intros j (k & t & E). destruct (Id j); congruence. Qed.
Theorem never_gives_up : forall w0 w i, begin runs headers needed whole w0 -> reaches w0 w -> ensures (runs i) = true -> phases w i <> GaveUp.
Proof.
  intros w0 w i B R En. induction R as [|j v u R IH S]; [intros E; destruct B as [B _]; rewrite B in E; discriminate E|]. assert (V := inv_reaches w0 v (begins w0 B) R).
  destruct (Nat.eq_dec i j) as [->|J]; [|rewrite (phases_step j v u i S J); exact IH].
  destruct S as [E1 E2|E1 E2 E3|E1 E2 E3|E1 E2|E1 E2|x E1 E2|E1 E2|tb E1|g t tr E1 E2|g k t n x E1 L1 L2 E2|g t E1|g t tr x E1 Bz E2 E3|g t tr E1 Bz E2 E3|g t tr E1 Bz E2 E3|tr E1]; cbn [move phases]; rewrite set_same; try discriminate.
  destruct Bz as (l & k & t' & _ & E). destruct (part v V l g k t' E) as [_ P]. rewrite (E2 En) in P. discriminate P.
Qed.
Lemma never_dead : forall w0 w i, begin runs headers needed whole w0 -> reaches w0 w -> phases w i <> Dead.
Proof.
  intros w0 w i B R. induction R as [|j v u R IH S]; [intros E; destruct B as [B _]; rewrite B in E; discriminate E|]. destruct (Nat.eq_dec i j) as [->|J]; [|rewrite (phases_step j v u i S J); exact IH].
  destruct S; cbn [move phases]; rewrite set_same; discriminate.
Qed.
(** Only finitely many runs have begun, so that one can tell whether a file is busy. *)
Definition few (w : world) : Prop := exists n, forall j, n <= j -> phases w j = Ready.
Lemma few_step : forall i w u, few w -> step i w u -> few u.
Proof. intros i w u (n & F) S. exists (Nat.max n (Datatypes.S i)). intros j J. rewrite (phases_step i w u j S) by lia. apply F. lia. Qed.
Lemma few_reaches : forall w0 w, begin runs headers needed whole w0 -> reaches w0 w -> few w.
Proof. intros w0 w (B & _) R. induction R as [|i v u R IH S]; [exists 0; intros j _; apply B|exact (few_step i v u IH S)]. Qed.
Lemma decided : forall i f w, few w -> busy i f w \/ ~ busy i f w.
Proof.
  intros i f w (n & F). assert (Q : (exists j, j < n /\ j <> i /\ writes w j f) \/ ~ exists j, j < n /\ j <> i /\ writes w j f).
  { clear F. induction n as [|n IH]; [right; intros (j & J & _); lia|]. destruct IH as [(j & J & X)|N]; [left; exists j; split; [lia|exact X]|].
    assert (D : writes w n f \/ ~ writes w n f) by (unfold writes; destruct (phases w n) as [| | |tb|todo tr|g k todo| | |]; try (right; intros (k0 & t0 & E); discriminate E); destruct (string_dec g f) as [->|G]; [left; eauto|right; intros (k0 & t0 & E); congruence]).
    destruct (Nat.eq_dec n i) as [->|I]; [right; intros (j & J & Ji & X); apply N; exists j; split; [lia|auto]|]. destruct D as [D|D]; [left; exists n; auto|]. right. intros (j & J & Ji & X). destruct (Nat.eq_dec j n) as [->|Jn]; [exact (D X)|]. apply N. exists j. split; [lia|auto]. }
  destruct Q as [(j & _ & J & X)|N]; [left; apply busy_iff; exists j; auto|]. right. intros B. apply busy_iff in B. destruct B as (j & J & X). apply N. exists j. split; [|auto]. destruct (Nat.lt_ge_cases j n) as [L|L]; [exact L|]. destruct X as (k & t & E). rewrite (F j L) in E. discriminate E.
Qed.
Lemma goes_further : forall i w v u, alone runs needed attempts whole i w v -> alone runs needed attempts whole i v u -> alone runs needed attempts whole i w u.
Proof. intros i w v u A B. induction B as [|x y B IH S]; [exact A|exact (goes_on _ _ _ _ _ _ x y IH S)]. Qed.
Lemma alone_one : forall i w u, step i w u -> alone runs needed attempts whole i w u.
Proof. intros i w u S. exact (goes_on _ _ _ _ _ _ w u (rests _ _ _ _ _ _) S). Qed.
Lemma alone_inv : forall i w u, inv w -> alone runs needed attempts whole i w u -> inv u.
Proof. intros i w u V A. induction A as [|v u A IH S]; [exact V|exact (inv_step i v u IH S)]. Qed.
Lemma writing_ends : forall i w f k todo, inv w -> phases w i = Writing f k todo -> exists u, alone runs needed attempts whole i w u /\ phases u i = Copying todo 0.
Proof.
  intros i w f k todo V E. destruct (part w V i f k todo E) as [K P]. destruct (Nat.eq_dec k (String.length (whole f))) as [->|N].
  - eexists. split; [apply alone_one; exact (close_file _ _ _ _ i w f todo E)|]. cbn [move phases]. apply set_same.
  - eexists. split.
    + eapply goes_further; [apply alone_one; apply (write_piece _ _ _ _ i w f k todo (String.length (whole f) - k) (substring 0 k (whole f)) E); [lia|lia|exact P]|].
      apply alone_one. apply (close_file _ _ _ _ i _ f todo). cbn [phases]. rewrite set_same. f_equal. lia.
    + cbn [move phases]. apply set_same.
Qed.
Lemma alone_few : forall i w u, few w -> alone runs needed attempts whole i w u -> few u.
Proof. intros i w u V A. induction A as [|v u A IH S]; [exact V|exact (few_step i v u IH S)]. Qed.
Lemma copying_ends : forall i todo w tries, inv w -> few w -> ensures (runs i) = true -> phases w i = Copying todo tries -> exists u, alone runs needed attempts whole i w u /\ phases u i = Done.
Proof.
  intros i. induction todo as [|f todo IH]; intros w tries V F En E.
  - eexists. split; [apply alone_one; exact (copied _ _ _ _ i w tries E)|]. cbn [move phases]. apply set_same.
  - destruct (decided i f w F) as [B|B].
    + assert (X : exists x, contents w f = Some x) by (destruct B as (j & k & t & _ & P); destruct (part w V j f k t P) as [_ Q]; eauto). destruct X as (x & X). assert (S := good_enough runs needed attempts whole i w f todo tries x E B En X).
      destruct (IH _ 0 (inv_step i w _ V S) (few_step i w _ F S) En (set_same i _ _)) as (u & A & D). exists u. split; [exact (goes_further i _ _ _ (alone_one i _ _ S) A)|exact D].
    + assert (S := open_file runs needed attempts whole i w f todo tries E B). destruct (writing_ends i _ f 0 todo (inv_step i w _ V S) (set_same i _ _)) as (v & A & Ev). assert (A' := goes_further i _ _ _ (alone_one i _ _ S) A).
      destruct (IH v 0 (alone_inv i w v V A') (alone_few i w v F A') En Ev) as (u & A2 & D). exists u. split; [exact (goes_further i _ _ _ A' A2)|exact D].
Qed.
Theorem never_waits : forall w0 w i, begin runs headers needed whole w0 -> reaches w0 w -> ensures (runs i) = true -> exists u, alone runs needed attempts whole i w u /\ phases u i = Done.
Proof.
  intros w0 w i B R En. assert (Nd := never_dead w0 w i B R). assert (V := inv_reaches w0 w (begins w0 B) R). assert (F := few_reaches w0 w B R). assert (G := never_gives_up w0 w i B R En). clear R.
  assert (Go : forall v, inv v -> few v -> alone runs needed attempts whole i w v -> (exists tb, phases v i = Making tb) -> exists u, alone runs needed attempts whole i w u /\ phases u i = Done).
  { intros v Vv Fv A (tb & E). assert (S := make_dir runs needed attempts whole i v tb E). destruct (copying_ends i _ _ 0 (inv_step i v _ Vv S) (few_step i v _ Fv S) En (set_same i _ _)) as (u & A2 & D). exists u. split; [|exact D]. exact (goes_further i _ _ _ A (goes_further i _ _ _ (alone_one i _ _ S) A2)). }
  assert (Ck : forall v, inv v -> few v -> alone runs needed attempts whole i w v -> phases v i = Checking -> exists u, alone runs needed attempts whole i w u /\ phases u i = Done).
  { intros v Vv Fv A E. destruct (contents v (lib (runs i))) as [x|] eqn:X.
    - exists (move i Done v). split; [exact (goes_on _ _ _ _ _ _ v _ A (lib_there _ _ _ _ i v x E X))|apply set_same].
    - assert (S := lib_absent runs needed attempts whole i v E X). apply (Go _ (inv_step i v _ Vv S) (few_step i v _ Fv S) (goes_on _ _ _ _ _ _ v _ A S)). exists false. apply set_same. }
  assert (Se : forall v, inv v -> few v -> alone runs needed attempts whole i w v -> phases v i = Seen -> exists u, alone runs needed attempts whole i w u /\ phases u i = Done).
  { intros v Vv Fv A E. destruct (Z.lt_ge_cases (version_of (contents v)) needed) as [L|L].
    - assert (S := read_old runs needed attempts whole i v E L). apply (Go _ (inv_step i v _ Vv S) (few_step i v _ Fv S) (goes_on _ _ _ _ _ _ v _ A S)). exists true. apply set_same.
    - assert (S := read_new runs needed attempts whole i v E L). apply (Ck _ (inv_step i v _ Vv S) (few_step i v _ Fv S) (goes_on _ _ _ _ _ _ v _ A S)). apply set_same. }
  assert (H := rests runs needed attempts whole i w). destruct (phases w i) as [| | |tb|todo tr|f k todo| | |] eqn:E.
  - destruct (there w) eqn:T.
    + assert (S := stat_there runs needed attempts whole i w E En T). apply (Se _ (inv_step i w _ V S) (few_step i w _ F S) (alone_one i _ _ S)). apply set_same.
    + assert (S := stat_absent runs needed attempts whole i w E En T). apply (Go _ (inv_step i w _ V S) (few_step i w _ F S) (alone_one i _ _ S)). exists true. apply set_same.
  - exact (Se w V F H E).
  - exact (Ck w V F H E).
  - exact (Go w V F H (ex_intro _ tb E)).
  - exact (copying_ends i todo w tr V F En E).
  - destruct (writing_ends i w f k todo V E) as (v & A & Ev). destruct (copying_ends i todo v 0 (alone_inv i w v V A) (alone_few i w v F A) En Ev) as (u & A2 & D). exists u. split; [exact (goes_further i _ _ _ A A2)|exact D].
  - exists w. split; [exact H|exact E].
  - congruence.
  - congruence.
Qed.
End Proof.
