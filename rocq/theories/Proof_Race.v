(** Proofs about several installs at the same time. *)
From Verif Require Import Lib Str StrFacts LibFacts Model_Race Spec_Race.
From Verif Require Model_Install Spec_Install Proof_Install Proof_Vs Model_Vs Model_Text.
From Coq Require Import ZArith Lia Bool.
Local Open Scope string_scope.

(** ** Writing at an offset *)
Lemma get_overlay : forall t x o, String.get o (overlay t x) = if Nat.ltb o (String.length t) then String.get o t else String.get o x.
Proof.
  induction t as [|a t IH]; intros x o; [reflexivity|]. cbn [overlay]. destruct o as [|o]; [reflexivity|]. cbn [String.get String.length]. rewrite IH. change (Nat.ltb (S o) (S (String.length t))) with (Nat.ltb o (String.length t)).
  destruct (Nat.ltb o (String.length t)); [reflexivity|]. destruct x; [destruct o; reflexivity|reflexivity].
Qed.
Lemma get_none : forall o, String.get o "" = None. Proof. destruct o; reflexivity. Qed.
Lemma get_write : forall k t x o, String.get o (write_at k t x) = if Nat.ltb o k then (match String.get o x with Some a => Some a | None => Some "000"%char end) else if Nat.ltb o (k + String.length t) then String.get (o - k) t else String.get o x.
Proof.
  induction k as [|k IH]; intros t x o; cbn [write_at].
  - rewrite get_overlay. replace (o - 0) with o by lia. reflexivity.
  - destruct o as [|o]; [destruct x; reflexivity|]. change (Nat.ltb (S o) (S k)) with (Nat.ltb o k). change (Nat.ltb (S o) (S k + String.length t)) with (Nat.ltb o (k + String.length t)). cbn [Nat.sub].
    destruct x as [|a x]; cbn [String.get]; rewrite IH; rewrite ?get_none; reflexivity.
Qed.
Lemma get_length : forall s o, String.get o s = None <-> String.length s <= o.
Proof. induction s as [|a s IH]; intros o; [rewrite get_none; cbn; split; [lia|reflexivity]|]. destruct o as [|o]; cbn [String.get String.length]; [split; [discriminate|lia]|]. rewrite IH. lia. Qed.
Lemma get_substring : forall s k n o, k + n <= String.length s -> o < n -> String.get o (substring k n s) = String.get (k + o) s.
Proof.
  induction s as [|a s IH]; intros k n o H O; cbn [String.length] in H; [lia|]. destruct k as [|k].
  - destruct n as [|n]; [lia|]. cbn [substring]. destruct o as [|o]; [reflexivity|]. cbn [String.get Nat.add]. rewrite (IH 0 n o); [reflexivity|lia|lia].
  - cbn [substring Nat.add String.get]. apply IH; lia.
Qed.
Lemma length_substring : forall s k n, k + n <= String.length s -> String.length (substring k n s) = n.
Proof.
  induction s as [|a s IH]; intros k n H; cbn [String.length] in H.
  - assert (k = 0 /\ n = 0) as [-> ->] by lia. reflexivity.
  - destruct k as [|k]; [destruct n as [|n]; [reflexivity|]; cbn [substring String.length]; rewrite IH; lia|]. cbn [substring]. apply IH. lia.
Qed.
Lemma get_ext : forall s t, (forall o, String.get o s = String.get o t) -> s = t.
Proof.
  induction s as [|a s IH]; intros t H.
  - destruct t as [|b t]; [reflexivity|]. specialize (H 0). discriminate H.
  - destruct t as [|b t]; [specialize (H 0); discriminate H|]. pose proof (H 0) as H0. cbn in H0. injection H0 as ->. f_equal. apply IH. intros o. exact (H (S o)).
Qed.

Section Race.
Variable runs : nat -> run.
Variable headers : list (string * string).
Variable needed : Z.
Hypothesis G : all_genuine runs headers.
Hypothesis P : plain_archive headers.
Hypothesis N : (0 < needed)%Z.

Lemma whole_mark : Model_Vs.parse_int (mark needed) = Some needed.
Proof.
  pose (r := {| Model_Install.ensure := true; Model_Install.local_tarball := None; Model_Install.win := false; Model_Install.needed := needed; Model_Install.arch := ""; Model_Install.release_name := ""; Model_Install.tar_name := ""; Model_Install.lib_path := "" |}).
  apply Proof_Vs.parse_int_spec; [exact N|]. exact (Proof_Install.version_whole r N).
Qed.

(** ** What holds at all times *)
Definition at_place (w : world) (j : nat) (f : string) (p : place) : Prop := exists l c, phases w j = Extracting l /\ In (f, c, p) l.
Definition covered (w : world) (f c : string) : Prop := exists x, contents w f = Some x /\ String.length x <= String.length c /\
  forall o, o < String.length c -> String.get o x = String.get o c \/ exists j k b, at_place w j f (Writing k b) /\ k <= o.
Definition late (p : phase) : Prop := match p with Opening | Marking _ | Comparing | Done => True | _ => False end.
Definition calm_phase (p : phase) : Prop :=
  match p with
  | Removing | Failed => False
  | Extracting l => map fst l = headers /\ Forall (fun j => forall k b, snd j = Writing k b -> b = true /\ k <= String.length (snd (fst j))) l
  | Marking b => b = true
  | _ => True
  end.
Definition made (p : phase) : Prop := match p with Ready | Seen | Making | Done => False | _ => True end.
Record sane (w : world) : Prop := {
  calm : forall i, calm_phase (phases w i);
  dir_there : forall i, made (phases w i) -> there w = true;
  touched_covered : forall i f c p, In (f, c) headers -> at_place w i f p -> p <> Waiting -> covered w f c;
  late_covered : (exists i, late (phases w i)) \/ (needed <= version_of (contents w))%Z -> forall f c, In (f, c) headers -> covered w f c;
  marking_text : forall i b, phases w i = Marking b -> contents w "installVersion" = Some "" \/ contents w "installVersion" = Some (mark needed);
  done_marked : (exists i, phases w i = Comparing \/ phases w i = Done) -> (needed <= version_of (contents w))%Z \/ exists i, phases w i = Marking true }.

Lemma sane_begin : forall w, begin headers needed w -> sane w.
Proof.
  intros w [R C]. constructor.
  - intros i. rewrite R. exact I.
  - intros i M. rewrite R in M. destruct M.
  - intros i f c p _ (l & c' & E & _). rewrite R in E. discriminate E.
  - intros [(i & L)|V] f c I; [rewrite R in L; destruct L|]. exists c. split; [exact (C V f c I)|]. split; [lia|]. intros o _. left. reflexivity.
  - intros i b E. rewrite R in E. discriminate E.
  - intros (i & [E|E]); rewrite R in E; discriminate E.
Qed.
Lemma set_same : forall i p ps, set_phase i p ps i = p. Proof. intros. unfold set_phase. rewrite Nat.eqb_refl. reflexivity. Qed.
Lemma set_other : forall i j p ps, j <> i -> set_phase i p ps j = ps j. Proof. intros i j p ps H. unfold set_phase. destruct (Nat.eqb_spec j i); [contradiction|reflexivity]. Qed.
Lemma set_cases : forall i p ps j, (j = i /\ set_phase i p ps j = p) \/ (j <> i /\ set_phase i p ps j = ps j).
Proof. intros i p ps j. destruct (Nat.eq_dec j i) as [->|D]; [left; split; [reflexivity|apply set_same]|right; split; [exact D|apply set_other, D]]. Qed.
Lemma header_once : forall l f c p c', map fst l = headers -> In (f, c) headers -> In ((f, c', p) : job) l -> c' = c.
Proof.
  intros l f c p c' M I J. destruct P as (_ & ND & _). apply (in_map fst) in J. rewrite M in J. cbn [fst] in J. clear - ND I J. induction headers as [|[g d] hs IH]; [destruct I|]. cbn [map fst] in ND. inversion ND as [|? ? N1 N2]; subst.
  destruct I as [I|I], J as [J|J].
  - congruence.
  - injection I as -> ->. exfalso. apply N1. apply (in_map fst) in J. exact J.
  - injection J as -> ->. exfalso. apply N1. apply (in_map fst) in I. exact I.
  - exact (IH I J N2).
Qed.
(** A step of a run which changes nothing in the directory, and opens nothing. *)
Lemma covered_keeps : forall w w' f c, covered w f c -> contents w' f = contents w f -> (forall j k b, at_place w j f (Writing k b) -> k < String.length c -> exists k', k' <= k /\ exists b', at_place w' j f (Writing k' b')) -> covered w' f c.
Proof.
  intros w w' f c (x & X & L & H) E K. exists x. split; [congruence|]. split; [exact L|]. intros o O. destruct (H o O) as [H'|(j & k & b & A & Ko)]; [left; exact H'|]. right.
  destruct (K j k b A) as (k' & Kk & b' & A'); [lia|]. exists j, k', b'. split; [exact A'|lia].
Qed.
Lemma at_set : forall w i q cs t j f p, at_place w j f p -> j <> i -> at_place {| there := t; contents := cs; phases := set_phase i q (phases w) |} j f p.
Proof. intros w i q cs t j f p (l & c & E & I) D. exists l, c. split; [cbn [phases]; rewrite set_other; assumption|exact I]. Qed.
Lemma at_unset : forall w i q cs t j f p, at_place {| there := t; contents := cs; phases := set_phase i q (phases w) |} j f p -> (j = i /\ exists l c, q = Extracting l /\ In (f, c, p) l) \/ (j <> i /\ at_place w j f p).
Proof.
  intros w i q cs t j f p (l & c & E & I). cbn [phases] in E. destruct (set_cases i q (phases w) j) as [[-> S]|[D S]]; rewrite S in E; [left|right]; (split; [first [reflexivity|assumption]|]); exists l, c; split; assumption.
Qed.

(** Steps that leave the directory alone, of a run which writes nothing. *)
Lemma sane_quiet : forall w i q t, sane w -> calm_phase q -> (forall f k b, ~ at_place w i f (Writing k b)) -> (forall f p, In ((f, p) : (string * string) * place) (match q with Extracting l => l | _ => [] end) -> p = Waiting) ->
  (there w = true -> t = true) -> (made q -> t = true) -> (forall b, phases w i = Marking b -> False) -> (forall b, q <> Marking b) ->
  (late q -> forall f c, In (f, c) headers -> covered w f c) -> (q = Comparing \/ q = Done -> phases w i = Comparing \/ (needed <= version_of (contents w))%Z) ->
  sane {| there := t; contents := contents w; phases := set_phase i q (phases w) |}.
Proof.
  intros w i q t S C NE WQ T M NM QM LQ DQ.
  assert (K : forall f c, covered w f c -> covered {| there := t; contents := contents w; phases := set_phase i q (phases w) |} f c).
  { intros f c H. apply (covered_keeps w); [exact H|reflexivity|]. intros j k b A _. exists k. split; [lia|]. exists b. apply at_set; [exact A|]. intros ->. exact (NE _ _ _ A). }
  constructor; cbn [contents phases there].
  - intros j. destruct (set_cases i q (phases w) j) as [[-> ->]|[D ->]]; [exact C|apply calm, S].
  - intros j Mj. destruct (set_cases i q (phases w) j) as [[-> E]|[D E]]; rewrite E in Mj; [exact (M Mj)|apply T, (dir_there w S j Mj)].
  - intros j f c p I A NW. apply at_unset in A. destruct A as [[-> (l & c' & -> & J)]|[D A]]; [exfalso; exact (NW (WQ _ _ J))|]. apply K. exact (touched_covered w S j f c p I A NW).
  - intros H f c I. apply K. destruct H as [(j & L)|V]; [|apply (late_covered w S); [right; exact V|exact I]]. destruct (set_cases i q (phases w) j) as [[-> E]|[D E]]; rewrite E in L; [exact (LQ L f c I)|]. apply (late_covered w S); [left; exists j; exact L|exact I].
  - intros j b E. destruct (set_cases i q (phases w) j) as [[-> F]|[D F]]; rewrite F in E; [exfalso; exact (QM b E)|exact (marking_text w S j b E)].
  - intros (j & H). assert (R : (exists k, phases w k = Comparing \/ phases w k = Done) \/ (needed <= version_of (contents w))%Z).
    { destruct (set_cases i q (phases w) j) as [[-> F]|[D F]]; rewrite F in H; [destruct (DQ H) as [E|V]; [left; exists i; left; exact E|right; exact V]|left; exists j; exact H]. }
    destruct R as [R|V]; [|left; exact V]. destruct (done_marked w S R) as [V|(k & E)]; [left; exact V|right]. exists k. rewrite set_other; [exact E|]. intros ->. exact (NM true E).
Qed.
(** A run goes on with one of its files. *)
Lemma job_header : forall w i l1 f c p l2, sane w -> phases w i = Extracting (l1 ++ (f, c, p) :: l2) -> map fst (l1 ++ (f, c, p) :: l2) = headers /\ In (f, c) headers /\ f <> "installVersion".
Proof.
  intros w i l1 f c p l2 S E. pose proof (calm w S i) as C. rewrite E in C. destruct C as [M _]. split; [exact M|].
  assert (J : In (f, c) headers) by (rewrite <- M, map_app; apply in_or_app; right; left; reflexivity). split; [exact J|]. intros ->. destruct P as (_ & _ & NI). apply NI. apply (in_map fst) in J. exact J.
Qed.
Lemma only_place : forall l1 (f c : string) (p : place) l2 c' p', NoDup (map fst (map fst (l1 ++ (f, c, p) :: l2))) -> In (f, c', p') (l1 ++ (f, c, p) :: l2) -> p' = p.
Proof.
  intros l1 f c p l2 c' p' ND J. rewrite !map_app in ND. cbn [map fst] in ND. apply NoDup_remove_2 in ND. apply in_app_or in J. destruct J as [J|[J|J]].
  - exfalso. apply ND. apply in_or_app. left. apply (in_map fst), (in_map fst) in J. exact J.
  - congruence.
  - exfalso. apply ND. apply in_or_app. right. apply (in_map fst), (in_map fst) in J. exact J.
Qed.
Lemma sane_job : forall w i l1 f c p l2 p' cs, sane w -> phases w i = Extracting (l1 ++ (f, c, p) :: l2) -> (forall k b, p' = Writing k b -> b = true /\ k <= String.length c) ->
  (forall g, g <> f -> cs g = contents w g) -> covered {| there := there w; contents := cs; phases := set_phase i (Extracting (l1 ++ (f, c, p') :: l2)) (phases w) |} f c ->
  sane {| there := there w; contents := cs; phases := set_phase i (Extracting (l1 ++ (f, c, p') :: l2)) (phases w) |}.
Proof.
  intros w i l1 f c p l2 p' cs S E B CS CV. destruct (job_header w i l1 f c p l2 S E) as (M & IH & NV). set (w' := {| there := there w; contents := cs; phases := set_phase i (Extracting (l1 ++ (f, c, p') :: l2)) (phases w) |}) in *.
  assert (VS : version_of cs = version_of (contents w)) by (unfold version_of; rewrite CS; [reflexivity|congruence]).
  assert (K : forall g d, In (g, d) headers -> covered w g d -> covered w' g d).
  { intros g d I H. destruct (string_dec g f) as [->|D].
    - replace d with c; [exact CV|]. apply (header_once (l1 ++ (f, c, p) :: l2) f d p c M I). apply in_or_app. right. left. reflexivity.
    - apply (covered_keeps w); [exact H|exact (CS g D)|]. intros j k b A _. exists k. split; [lia|]. exists b. destruct (Nat.eq_dec j i) as [->|Dj]; [|apply at_set; assumption].
      destruct A as (l & c' & E' & J). rewrite E in E'. injection E' as <-. exists (l1 ++ (f, c, p') :: l2)%list, c'. split; [apply set_same|]. apply in_app_or in J. apply in_or_app. destruct J as [J|[J|J]]; [left; exact J|congruence|right; right; exact J]. }
  constructor; cbn [w' contents phases there].
  - intros j. destruct (set_cases i (Extracting (l1 ++ (f, c, p') :: l2)) (phases w) j) as [[-> ->]|[D ->]]; [|apply calm, S]. pose proof (calm w S i) as C. rewrite E in C. destruct C as [_ F]. split.
    + rewrite <- M, !map_app. reflexivity.
    + apply Forall_app in F. destruct F as [F1 F2]. inversion F2 as [|? ? _ F3]; subst. apply Forall_app. split; [exact F1|]. constructor; [exact B|exact F3].
  - intros j Mj. destruct (set_cases i (Extracting (l1 ++ (f, c, p') :: l2)) (phases w) j) as [[-> F]|[D F]]; rewrite F in Mj; [apply (dir_there w S i); rewrite E; exact I|exact (dir_there w S j Mj)].
  - intros j g d q I A NW. destruct (string_dec g f) as [->|D]; [replace d with c; [exact CV|]; apply (header_once (l1 ++ (f, c, p) :: l2) f d p c M I); apply in_or_app; right; left; reflexivity|].
    apply K; [exact I|]. apply at_unset in A. destruct A as [[-> (l & c' & El & J)]|[Dj A]]; [|exact (touched_covered w S j g d q I A NW)]. injection El as <-. apply (touched_covered w S i g d q I); [|exact NW]. exists (l1 ++ (f, c, p) :: l2)%list, c'. split; [exact E|].
    apply in_app_or in J. apply in_or_app. destruct J as [J|[J|J]]; [left; exact J|congruence|right; right; exact J].
  - intros H g d I. apply K; [exact I|]. apply (late_covered w S); [|exact I]. destruct H as [(j & L)|V]; [left|right; rewrite <- VS; exact V]. exists j. destruct (set_cases i (Extracting (l1 ++ (f, c, p') :: l2)) (phases w) j) as [[-> F]|[D F]]; rewrite F in L; [destruct L|exact L].
  - intros j b F. destruct (set_cases i (Extracting (l1 ++ (f, c, p') :: l2)) (phases w) j) as [[-> F']|[D F']]; rewrite F' in F; [discriminate F|]. rewrite CS; [|congruence]. exact (marking_text w S j b F).
  - intros (j & H). destruct (set_cases i (Extracting (l1 ++ (f, c, p') :: l2)) (phases w) j) as [[-> F]|[D F]]; rewrite F in H; [destruct H; discriminate|]. rewrite VS.
    destruct (done_marked w S (ex_intro _ j H)) as [V|(k & Ek)]; [left; exact V|right]. exists k. rewrite set_other; [exact Ek|]. intros ->. rewrite E in Ek. discriminate Ek.
Qed.
Lemma overlay_nil : forall t, overlay t "" = t.
Proof. induction t as [|a t IH]; [reflexivity|]. cbn [overlay]. rewrite IH. reflexivity. Qed.
Lemma overlay_same : forall t, overlay t t = t.
Proof. induction t as [|a t IH]; [reflexivity|]. cbn [overlay]. rewrite IH. reflexivity. Qed.
(** A run writes installVersion. *)
Lemma sane_version : forall w i q cs, sane w -> late (phases w i) -> q = Marking true \/ (q = Comparing /\ (needed <= version_of cs)%Z) -> there w = true ->
  (forall g, g <> "installVersion" -> cs g = contents w g) -> cs "installVersion" = Some "" \/ cs "installVersion" = Some (mark needed) ->
  sane {| there := there w; contents := cs; phases := set_phase i q (phases w) |}.
Proof.
  intros w i q cs S L Q T CS TX. set (w' := {| there := there w; contents := cs; phases := set_phase i q (phases w) |}) in *.
  assert (K : forall g d, In (g, d) headers -> covered w' g d).
  { intros g d I. apply (covered_keeps w).
    - apply (late_covered w S); [left; exists i; exact L|exact I].
    - apply CS. intros ->. destruct P as (_ & _ & NI). apply NI. apply (in_map fst) in I. exact I.
    - intros j k b A _. exists k. split; [lia|]. exists b. apply at_set; [exact A|]. intros ->. destruct A as (l & c' & E & _). rewrite E in L. destruct L. }
  constructor; cbn [w' contents phases there].
  - intros j. destruct (set_cases i q (phases w) j) as [[-> ->]|[D ->]]; [destruct Q as [->|[-> _]]; cbn; auto|apply calm, S].
  - intros _ _. exact T.
  - intros j f c p I _ _. apply K, I.
  - intros _. exact K.
  - intros _ _ _. exact TX.
  - intros _. destruct Q as [->|[-> V]]; [right; exists i; apply set_same|left; exact V].
Qed.
Lemma write_covers : forall w i l1 f c k b l2 n, sane w -> phases w i = Extracting (l1 ++ (f, c, Writing k b) :: l2) -> 1 <= n -> k + n <= String.length c ->
  covered {| there := there w; contents := write_file f k (substring k n c) b (contents w); phases := set_phase i (Extracting (l1 ++ (f, c, Writing (k + n) b) :: l2)) (phases w) |} f c.
Proof.
  intros w i l1 f c k b l2 n S E N1 L. destruct (job_header w i l1 f c (Writing k b) l2 S E) as (M & IH & NV).
  assert (A : at_place w i f (Writing k b)) by (exists (l1 ++ (f, c, Writing k b) :: l2)%list, c; split; [exact E|apply in_or_app; right; left; reflexivity]).
  destruct (touched_covered w S i f c _ IH A) as (x & X & LX & H); [discriminate|].
  assert (b = true) as ->. { pose proof (calm w S i) as C. rewrite E in C. destruct C as [_ F]. apply Forall_app in F. destruct F as [_ F]. inversion F as [|? ? F1 _]; subst. exact (proj1 (F1 k b eq_refl)). }
  assert (ND : NoDup (map fst (map fst (l1 ++ (f, c, Writing k true) :: l2)))) by (rewrite M; exact (proj1 (proj2 P))).
  assert (LS : String.length (substring k n c) = n) by (apply length_substring; exact L).
  exists (write_at k (substring k n c) x). cbn [contents]. split; [unfold write_file, set_file; rewrite X, String.eqb_refl; reflexivity|]. split.
  - apply get_length. rewrite get_write, LS. replace (Nat.ltb (String.length c) k) with false by (symmetry; apply Nat.ltb_ge; lia). replace (Nat.ltb (String.length c) (k + n)) with false by (symmetry; apply Nat.ltb_ge; lia). apply get_length. exact LX.
  - intros o O. rewrite get_write, LS. destruct (Nat.ltb_spec o k) as [Ok|Ok].
    + destruct (H o O) as [Ho|(j & k' & b' & A' & Ko)].
      * left. rewrite Ho. destruct (String.get o c) eqn:Eo; [reflexivity|]. apply get_length in Eo. lia.
      * right. exists j, k', b'. split; [|exact Ko]. apply at_set; [exact A'|]. intros ->. destruct A' as (l & c' & El & J). rewrite E in El. injection El as <-. pose proof (only_place _ _ _ _ _ _ _ ND J) as EQ. injection EQ as -> _. lia.
    + destruct (Nat.ltb_spec o (k + n)) as [On|On].
      * left. rewrite get_substring; [f_equal; lia|exact L|lia].
      * destruct (H o O) as [Ho|(j & k' & b' & A' & Ko)]; [left; exact Ho|right]. destruct (Nat.eq_dec j i) as [->|D].
        -- exists i, (k + n), true. split; [|exact On]. exists (l1 ++ (f, c, Writing (k + n) true) :: l2)%list, c. split; [apply set_same|apply in_or_app; right; left; reflexivity].
        -- exists j, k', b'. split; [apply at_set; assumption|exact Ko].
Qed.
Theorem sane_step : forall i w w', sane w -> step runs needed i w w' -> sane w'.
Proof.
  intros i w w' S H. pose proof (calm w S i) as C. destruct (G i) as [GA GS].
  assert (NW : forall q, phases w i = q -> (forall l, q <> Extracting l) -> forall f k b, ~ at_place w i f (Writing k b)).
  { intros q E D f k b (l & c & E' & _). rewrite E in E'. exact (D l E'). }
  assert (T0 : there w = true -> there w = true) by trivial.
  destruct H as [E1 E2|E1 E2 E3|E1 E2 E3|E1 V|E1 V|E1|l1 f c l2 E1 E2|l1 f c l2 E1 E2|l1 f c k b l2 n E1 L1 L2|l1 f c b l2 E1|l E1 E2|E1|l E1 D F|E1 E2|E1 E2|b E1|E1 E2|E1 E2|f x E1 E2|E1 E2]; rewrite ?E1 in C.
  - apply sane_quiet; [exact S|exact I|apply (NW Ready); [exact E1|discriminate]|intros f p []|exact T0|intros []|intros b E; congruence|intros b; discriminate|intros []|intros [X|X]; discriminate X].
  - apply sane_quiet; [exact S|exact I|apply (NW Ready); [exact E1|discriminate]|intros f p []|exact T0|intros []|intros b E; congruence|intros b; discriminate|intros []|intros [X|X]; discriminate X].
  - apply sane_quiet; [exact S|exact I|apply (NW Ready); [exact E1|discriminate]|intros f p []|exact T0|intros []|intros b E; congruence|intros b; discriminate|intros []|intros [X|X]; discriminate X].
  - apply sane_quiet; [exact S|exact I|apply (NW Seen); [exact E1|discriminate]|intros f p []|exact T0|intros []|intros b E; congruence|intros b; discriminate|intros []|intros [X|X]; discriminate X].
  - apply sane_quiet; [exact S|exact I|apply (NW Seen); [exact E1|discriminate]|intros f p []|exact T0|intros []|intros b E; congruence|intros b; discriminate| |intros _; right; exact V]. intros _ f c J. apply (late_covered w S); [right; exact V|exact J].
  - apply sane_quiet; [exact S| |apply (NW Making); [exact E1|discriminate]| |trivial|trivial|intros b E; congruence|intros b; discriminate|intros []|intros [X|X]; discriminate X].
    + unfold jobs_of. rewrite GA. split; [rewrite map_map; cbn [fst]; clear; induction headers as [|[f c] hs IH]; [reflexivity|cbn [map fst snd]; rewrite IH; reflexivity]|]. apply Forall_forall. intros j J k b Ej. apply in_map_iff in J. destruct J as (e & <- & _). discriminate Ej.
    + intros f p J. apply in_map_iff in J. destruct J as (e & X & _). congruence.
  - apply (sane_job w i l1 f c Waiting); [exact S|exact E1|intros k b X; injection X as <- <-; split; [reflexivity|lia]|intros g D; unfold set_file; destruct (String.eqb_spec g f); [contradiction|reflexivity]|].
    exists "". cbn [contents]. split; [unfold set_file; rewrite String.eqb_refl; reflexivity|]. split; [cbn; lia|]. intros o _. right. exists i, 0, true. split; [|lia]. exists (l1 ++ (f, c, Writing 0 true) :: l2)%list, c. split; [apply set_same|apply in_or_app; right; left; reflexivity].
  - exfalso. rewrite (dir_there w S i) in E2; [discriminate E2|rewrite E1; exact I].
  - assert (b = true) as -> by (destruct C as [_ F]; apply Forall_app in F; destruct F as [_ F]; inversion F as [|? ? F1 _]; subst; exact (proj1 (F1 k b eq_refl))).
    apply (sane_job w i l1 f c (Writing k true)); [exact S|exact E1|intros k' b' X; injection X as <- <-; split; [reflexivity|exact L2]| |apply write_covers; assumption].
    intros g D. unfold write_file. destruct (contents w f); [|reflexivity]. unfold set_file. destruct (String.eqb_spec g f); [contradiction|reflexivity].
  - apply (sane_job w i l1 f c (Writing (String.length c) b)); [exact S|exact E1|discriminate|reflexivity|].
    destruct (job_header w i l1 f c _ l2 S E1) as (M & IH & NV). assert (ND : NoDup (map fst (map fst (l1 ++ (f, c, Writing (String.length c) b) :: l2)))) by (rewrite M; exact (proj1 (proj2 P))).
    apply (covered_keeps w).
    + apply (touched_covered w S i f c (Writing (String.length c) b) IH); [|discriminate]. exists (l1 ++ (f, c, Writing (String.length c) b) :: l2)%list, c. split; [exact E1|apply in_or_app; right; left; reflexivity].
    + reflexivity.
    + intros j k b' A K. exists k. split; [lia|]. exists b'. apply at_set; [exact A|]. intros ->. destruct A as (l & c' & El & J). rewrite E1 in El. injection El as <-. pose proof (only_place _ _ _ _ _ _ _ ND J) as EQ. injection EQ as -> _. lia.
  - congruence.
  - exfalso. destruct C as [M _]. cbn in M. destruct P as [NE _]. congruence.
  - apply sane_quiet; [exact S|exact I| |intros f p []|exact T0|intros _; apply (dir_there w S i); rewrite E1; exact I|intros b E; congruence|intros b; discriminate| |intros [X|X]; discriminate X].
    + intros f k b (l' & c & E & J). rewrite E1 in E. injection E as <-. rewrite Forall_forall in F. specialize (F _ J). discriminate F.
    + intros _ f c J. destruct C as [M _]. rewrite <- M in J. apply in_map_iff in J. destruct J as ([[f' c'] p] & X & J). cbn [fst] in X. injection X as -> ->. rewrite Forall_forall in F. pose proof (F _ J) as X. cbn [snd] in X. subst p.
      apply (touched_covered w S i f c Closed); [rewrite <- M; apply (in_map fst) in J; exact J|exists l, c; split; assumption|discriminate].
  - apply sane_version; [exact S|rewrite E1; exact I|left; reflexivity|exact E2| |left; unfold set_file; rewrite String.eqb_refl; reflexivity]. intros g D. unfold set_file. destruct (String.eqb_spec g "installVersion"); [contradiction|reflexivity].
  - exfalso. rewrite (dir_there w S i) in E2; [discriminate E2|rewrite E1; exact I].
  - cbn in C. subst b. assert (X : write_file "installVersion" 0 (mark needed) true (contents w) "installVersion" = Some (mark needed)).
    { unfold write_file. destruct (marking_text w S i true E1) as [X|X]; rewrite X; unfold set_file; rewrite String.eqb_refl; cbn [write_at]; [rewrite overlay_nil|rewrite overlay_same]; reflexivity. }
    apply sane_version; [exact S|rewrite E1; exact I|right; split; [reflexivity|]|apply (dir_there w S i); rewrite E1; exact I| |right; exact X].
    + unfold version_of. rewrite X, whole_mark. lia.
    + intros g D. unfold write_file. destruct (contents w "installVersion"); [|reflexivity]. unfold set_file. destruct (String.eqb_spec g "installVersion"); [contradiction|reflexivity].
  - apply sane_quiet; [exact S|exact I|apply (NW Comparing); [exact E1|discriminate]|intros f p []|exact T0|intros []|intros b E; congruence|intros b; discriminate| |intros _; left; exact E1]. intros _ f c J. apply (late_covered w S); [left; exists i; rewrite E1; exact I|exact J].
  - congruence.
  - destruct C.
  - destruct C.
Qed.
Theorem sane_reached : forall w w', sane w -> reaches runs needed w w' -> sane w'.
Proof. intros w w' S H. induction H as [|i v u H IH K]; [exact S|exact (sane_step i v u IH K)]. Qed.

(** ** What follows *)
Lemma covered_whole : forall w f c, covered w f c -> (forall j, ~ writes w j f) -> contents w f = Some c.
Proof.
  intros w f c (x & X & L & H) NW. rewrite X. f_equal. apply get_ext. intros o. destruct (Nat.lt_ge_cases o (String.length c)) as [O|O].
  - destruct (H o O) as [E|(j & k & b & (l & c' & E & J) & _)]; [exact E|]. exfalso. apply (NW j). exists l, c', k, b. split; assumption.
  - rewrite (proj2 (get_length x o)), (proj2 (get_length c o)); [reflexivity|lia|lia].
Qed.
Theorem done_headers : forall w0 w i, begin headers needed w0 -> reaches runs needed w0 w -> phases w i = Done -> forall f c, In (f, c) headers -> (forall j, ~ writes w j f) -> contents w f = Some c.
Proof.
  intros w0 w i B R D f c I NW. pose proof (sane_reached _ _ (sane_begin _ B) R) as S. apply covered_whole; [|exact NW]. apply (late_covered w S); [left; exists i; rewrite D; exact Logic.I|exact I].
Qed.
Theorem idle_complete : forall w0 w i, begin headers needed w0 -> reaches runs needed w0 w -> idle w -> phases w i = Done -> complete headers w /\ (needed <= version_of (contents w))%Z.
Proof.
  intros w0 w i B R Q D. split.
  - intros f c I. apply (done_headers w0 w i B R D f c I). intros j (l & c' & k & b & E & _). destruct (Q j) as [X|X]; rewrite X in E; discriminate E.
  - pose proof (sane_reached _ _ (sane_begin _ B) R) as S. destruct (done_marked w S) as [V|(j & E)]; [exists i; right; exact D|exact V|]. destruct (Q j) as [X|X]; rewrite X in E; discriminate E.
Qed.
Theorem never_fails : forall w0 w i, begin headers needed w0 -> reaches runs needed w0 w -> phases w i <> Removing /\ phases w i <> Failed.
Proof. intros w0 w i B R. pose proof (calm w (sane_reached _ _ (sane_begin _ B) R) i) as C. split; intros E; rewrite E in C; exact C. Qed.
Theorem later_untouched : forall w w', accepted needed w -> idle w -> (forall i, ensures (runs i) = true) -> reaches runs needed w w' -> contents w' = contents w /\ there w' = true.
Proof.
  intros w w' [T V] Q EN R. assert (H : contents w' = contents w /\ there w' = true /\ forall i, phases w' i = Ready \/ phases w' i = Seen \/ phases w' i = Done).
  { induction R as [|i v u R (C & T' & IH) K]; [split; [reflexivity|]; split; [exact T|]; intros i; destruct (Q i); auto|].
    destruct K as [E1 E2|E1 E2 E3|E1 E2 E3|E1 W|E1 W|E1|l1 f c l2 E1 E2|l1 f c l2 E1 E2|l1 f c k b l2 n E1 L1 L2|l1 f c b l2 E1|l E1 E2|E1|l E1 D F|E1 E2|E1 E2|b E1|E1 E2|E1 E2|f x E1 E2|E1 E2]; try (exfalso; destruct (IH i) as [X|[X|X]]; rewrite X in E1; discriminate E1); cbn [contents phases there].
    - rewrite EN in E2. discriminate E2.
    - congruence.
    - split; [exact C|]. split; [exact T'|]. intros j. destruct (set_cases i Seen (phases v) j) as [[-> ->]|[D ->]]; auto.
    - rewrite C in W. lia.
    - split; [exact C|]. split; [exact T'|]. intros j. destruct (set_cases i Done (phases v) j) as [[-> ->]|[D ->]]; auto. }
  destruct H as (C & T' & _). split; assumption.
Qed.
End Race.
