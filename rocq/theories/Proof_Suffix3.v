From Verif Require Import Lib LibFacts Str StrFacts Model_Names Model_Path Model_Graph Model_Release Model_Quote Model_Writer Model_Suffix Spec_Path Spec_Suffix Proof_Suffix Proof_Suffix2.
From Coq Require Import Lia.
Local Open Scope string_scope.

Lemma shortest_le : forall x ps p q, shortest x ps = Some q -> In p ps -> stem_length x q <= stem_length x p.
Proof.
  intros x. induction ps as [|a ps IH]; intros p q H I; [destruct I|]. cbn [shortest] in H. destruct (shortest x ps) as [r|] eqn:E.
  - destruct (Nat.ltb_spec (stem_length x r) (stem_length x a)) as [L|L]; injection H as <-; destruct I as [<-|I]; try lia; specialize (IH p r eq_refl I); lia.
  - injection H as <-. destruct I as [<-|I]; [lia|]. destruct (shortest_Some x ps p I) as (q & Q). congruence.
Qed.
Lemma splitext_join : forall s, fst (splitext s) ++ snd (splitext s) = s.
Proof.
  intros s. unfold splitext. destruct (rsplit1 "/" s) as [[d b]|] eqn:E.
  - destruct (rsplit1 "." b) as [[r e]|] eqn:F; [|apply append_nil_r]. destruct (only_dots r); [apply append_nil_r|]. apply rsplit1_Some in E. apply rsplit1_Some in F. destruct E as [-> _], F as [-> _]. cbn [fst snd]. rewrite !append_assoc. reflexivity.
  - destruct (rsplit1 "." s) as [[r e]|] eqn:F; [|apply append_nil_r]. destruct (only_dots r); [apply append_nil_r|]. apply rsplit1_Some in F. destruct F as [F _]. cbn [fst snd]. rewrite F. reflexivity.
Qed.
Lemma length_app : forall a b, String.length (a ++ b) = String.length a + String.length b.
Proof. induction a as [|x a IH]; intros b; [reflexivity|]. cbn. rewrite IH. reflexivity. Qed.

Theorem nearest_wins : forall toolsets ts order available t s e c,
  (forall w, In w toolsets <-> exists u, In u ts /\ toolset u = w) ->
  (forall u, In u ts -> forall e, In e (order u) <-> In e (used_extensions u)) ->
  (forall u, In u ts -> plain_names u) -> In t ts -> plain_source s e c -> not_private s -> In s (compiled t) ->
  exists f, source_at t s f c /\ (available f = true -> (forall k, available k = true -> nearest ts t (object_of t s) k -> k = f) ->
    chosen available (patterns toolsets ts order) (object_of t s) = Some (f, c)).
Proof.
  intros toolsets ts order available t s e c T O PA I S NP K. pose proof (PA t I) as P. destruct (shape t s e c P S) as (f & st & SA & NE & OB & IN & F & SX & CO). exists f. split; [exact SA|]. intros AV UN.
  assert (F2 : exists d, (d = "$(srcdir)/" \/ d = "$(obj)." ++ toolset t ++ "/" \/ d = "$(obj)/") /\ f = d ++ st ++ e).
  { destruct F as [-> | [-> | F]]; [exists "$(srcdir)/"; auto|exists "$(obj)/"; auto|]. exfalso. destruct SA as [d n e0 c0 q _ _ _ _ _ _|d n e0 c0 _ _ _|d n e0 c0 _ _ _].
    - unfold head_of in F. discriminate.
    - unfold head_of in F. discriminate.
    - apply (NP (d ++ n ++ e0)). reflexivity. }
  destruct F2 as (d0 & D0 & EF). destruct S as (L & _).
  set (p0 := {| goal := head_of t; from := d0; ext := e; tool := c |}).
  assert (I0 : In p0 (patterns toolsets ts order)).
  { unfold patterns. apply in_or_app. right. apply in_flat_map. exists t. split; [exact I|]. unfold target_patterns. destruct (compiled t) as [|s0 l] eqn:CT; [destruct K|].
    apply three_In. exists d0, e, c. split; [exact D0|]. split; [|reflexivity]. apply in_flat_map. exists e. split; [|rewrite (proj2 (extension_language e c) L); left; reflexivity].
    apply (O t I). unfold used_extensions. rewrite <- SX. apply (in_map (fun s => snd (splitext s))). rewrite CT. exact K. }
  assert (S0 : stem p0 (object_of t s) = Some st) by (apply stem_iff; rewrite OB; auto).
  assert (C0 : candidate p0 (object_of t s) = Some f) by (unfold candidate; rewrite S0, EF; reflexivity).
  assert (J0 : In p0 (filter (usable available (object_of t s)) (patterns toolsets ts order))) by (apply filter_In; split; [exact I0|unfold usable; rewrite C0; exact AV]).
  unfold chosen. destruct (shortest_Some (object_of t s) _ p0 J0) as (q & Q). rewrite Q. pose proof (shortest_le _ _ _ _ Q J0) as LE. apply shortest_In, filter_In in Q. destruct Q as [IQ UQ].
  unfold usable in UQ. destruct (candidate q (object_of t s)) as [k|] eqn:CK; [|discriminate]. unfold candidate in CK. destruct (stem q (object_of t s)) as [sq|] eqn:SQ; [|discriminate]. injection CK as CK.
  unfold stem_length in LE. rewrite SQ, S0 in LE. apply stem_iff in SQ. destruct SQ as [GQ NQ].
  unfold patterns in IQ. apply in_app_or in IQ. destruct IQ as [IQ|IQ]; apply in_flat_map in IQ; destruct IQ as (w & W & IQ).
  - exfalso. unfold root_patterns in IQ. apply three_In in IQ. destruct IQ as (d & e' & c' & D & E & ->). cbn [goal] in GQ. rewrite OB in GQ. unfold head_of in GQ. rewrite !append_assoc in GQ. apply append_inj_l in GQ.
    destruct (proj1 (T w) W) as (u & U & <-). destruct (PA u U) as (_ & (_ & _ & SU & _) & _). destruct P as ((NT & _) & (_ & _ & ST & _) & _).
    apply Proof_Build.cut_first in GQ; [|assumption|assumption]. destruct GQ as [_ GQ]. assert (Y : sq = target_name t ++ "/" ++ st) by (apply o_inj; rewrite !append_assoc; cbn [append]; exact (eq_sym GQ)).
    rewrite Y, !length_app in LE. cbn [String.length] in LE. lia.
  - unfold target_patterns in IQ. destruct (compiled w) as [|y l]; [destruct IQ|]. apply three_In in IQ. destruct IQ as (d & e' & c' & D & E & ->). cbn [goal from ext tool] in *.
    rewrite OB in GQ. change ("$(obj)." ++ toolset w ++ "/" ++ target_name w ++ "/") with (head_of w) in GQ. destruct (head_inj t w _ _ P (PA w W) GQ) as (N1 & N2 & N3). apply o_inj in N3. subst sq.
    apply in_flat_map in E. destruct E as (e2 & E2 & E). destruct (assoc e2 extensions) as [v|] eqn:V; [|destruct E]. destruct E as [E|[]]. injection E as <- <-. apply extension_language in V.
    assert (KF : k = f).
    { apply UN; [exact UQ|]. apply (O w W) in E2. unfold used_extensions in E2. apply in_map_iff in E2. destruct E2 as (z & Z & ZI). unfold compiled in ZI. apply filter_In in ZI. destruct ZI as [ZI _].
      exists st, d, e2, (fst (splitext z)), w. split; [rewrite OB; unfold head_of; rewrite !append_assoc; reflexivity|]. split; [rewrite N2; exact D|]. split; [symmetry; exact CK|]. split; [exact W|]. split; [auto|]. split; [auto|].
      rewrite <- Z, splitext_join. exact ZI. }
    cbn [option_map]. f_equal. f_equal; [exact KF|]. rewrite KF, EF in CK. rewrite <- !append_assoc in CK. destruct (language_same _ _ _ _ _ _ V L CK) as (_ & _ & ->). reflexivity.
Qed.
