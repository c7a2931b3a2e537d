From Coq Require Import Lia.
From Verif Require Import Lib Str LibFacts StrFacts Model_Quote Spec_Quote Proof_Quote Model_Make Spec_Make.
Local Open Scope string_scope.

(** The comparison of commands. *)
Lemma length_append : forall a b, String.length (a ++ b) = String.length a + String.length b.
Proof. induction a as [|c a IH]; intros b; [reflexivity|]. cbn [append String.length]. rewrite IH. reflexivity. Qed.
Fixpoint copies (k : nat) (p : string) : string := match k with O => "" | S k' => p ++ copies k' p end.
Lemma prefix_split : forall p s, String.prefix p s = true -> exists r, s = p ++ r.
Proof.
  induction p as [|a p IH]; intros s H; [exists s; reflexivity|]. destruct s as [|b s]; [discriminate|]. cbn [String.prefix] in H. destruct (ascii_dec a b) as [<-|]; [|discriminate]. destruct (IH _ H) as [r ->]. exists r. reflexivity.
Qed.
Lemma cut_skip : forall p q r, cut_out p (String.length q) (q ++ r) = cut_out p 0 r.
Proof. intros p q r. induction q as [|a q IH]; [reflexivity|]. exact IH. Qed.
Lemma cut_none : forall p s, p <> "" -> cut_out p 0 s = "" -> exists k, s = copies k p.
Proof.
  intros p s NP. remember (String.length s) as n eqn:L. revert s L. induction n as [n IH] using lt_wf_ind. intros s L H.
  destruct s as [|a s]; [exists 0; reflexivity|]. cbn [cut_out] in H. destruct (String.prefix p (String a s)) eqn:P; [|discriminate].
  destruct (prefix_split _ _ P) as [r E]. destruct p as [|b p]; [congruence|]. injection E as -> ->. cbn [String.length] in H. replace (S (String.length p) - 1) with (String.length p) in H by lia. rewrite cut_skip in H.
  destruct (IH (String.length r)) with (s := r) as [k ->]; [|reflexivity|exact H|].
  - subst n. cbn [String.length]. rewrite length_append. lia.
  - exists (S k). reflexivity.
Qed.
Lemma copies_length : forall k p, String.length (copies k p) = k * String.length p.
Proof. induction k as [|k IH]; intros p; [reflexivity|]. cbn [copies]. rewrite length_append, IH. reflexivity. Qed.
Lemma cut_self : forall p, p <> "" -> cut_out p 0 p = "".
Proof.
  assert (R : forall q, String.prefix q q = true) by (induction q as [|b q IH]; [reflexivity|]; cbn [String.prefix]; destruct (ascii_dec b b); [exact IH|congruence]).
  intros [|a p] N; [congruence|]. cbn [cut_out]. pose proof (R (String a p)) as P.
  rewrite P. cbn [String.length]. replace (S (String.length p) - 1) with (String.length p) by lia. pose proof (cut_skip (String a p) p "") as K. rewrite append_nil_r in K. exact K.
Qed.
Theorem changed_iff : forall cmd old, command_changed cmd old = false <-> cmd = old.
Proof.
  intros cmd old. unfold command_changed. rewrite orb_false_iff, !negb_false_iff, !String.eqb_eq. split.
  - intros [A B]. destruct cmd as [|a c]; [cbn [subst_empty] in A; congruence|]. destruct old as [|b o]; [exact B|]. cbn [subst_empty] in A, B.
    destruct (cut_none (String a c) (String b o)) as [k K]; [discriminate|exact A|]. destruct (cut_none (String b o) (String a c)) as [j J]; [discriminate|exact B|].
    assert (LK := f_equal String.length K). assert (LJ := f_equal String.length J). rewrite copies_length in LK, LJ. cbn [String.length] in LK, LJ.
    assert (k = 1) as -> by (destruct k as [|[|k]]; [lia|reflexivity|]; destruct j as [|j]; [lia|]; cbn [Nat.mul] in LK, LJ; lia). cbn [copies] in K. rewrite append_nil_r in K. congruence.
  - intros <-. destruct cmd as [|a c]; [split; reflexivity|]. split; apply cut_self; discriminate.
Qed.

(** Commands are read back as they are. *)
Lemma join_line : forall u n, has_char "010" u = false -> (forall v, bs n ++ u <> v ++ "\") -> make_join n false (u ++ str1 newline) = bs n ++ u.
Proof.
  induction u as [|c u IH]; intros n H N.
  - destruct n as [|n]; [reflexivity|]. destruct (N (bs n)). rewrite append_nil_r. change (bs n ++ "\") with (bs n ++ String "\" ""). rewrite bs_push, append_nil_r. reflexivity.
  - cbn [has_char] in H. cbn [append make_join]. destruct (Ascii.eqb_spec c "\") as [->|NB].
    + rewrite IH; [symmetry; apply bs_push|exact H|]. rewrite <- bs_push. exact N.
    + destruct (Ascii.eqb_spec c "010") as [->|NN]; [discriminate|]. cbn [andb]. rewrite IH; [reflexivity|exact H|]. intros v E. apply (N (bs n ++ String c v)). cbn [bs append] in E. rewrite E, append_assoc. reflexivity.
Qed.
Lemma uncomment_none : forall u n, has_char "#" u = false -> make_uncomment n u = bs n ++ u.
Proof.
  induction u as [|c u IH]; intros n H; [symmetry; apply append_nil_r|]. cbn [has_char] in H. cbn [make_uncomment]. destruct (Ascii.eqb_spec c "\") as [->|NB]; [rewrite IH by exact H; symmetry; apply bs_push|]. destruct (Ascii.eqb_spec c "#") as [->|NH]; [discriminate|]. rewrite IH by exact H. reflexivity.
Qed.
Lemma dollars_end : forall u v, replace1 dollar "$$" u = v ++ "\" -> exists w, u = w ++ "\".
Proof.
  induction u as [|c u IH]; intros v H; [destruct v; discriminate|]. unfold replace1 in *. cbn [map_chars] in H. destruct (Ascii.eqb_spec c dollar) as [->|N].
  - destruct v as [|a [|b v]]; try discriminate. injection H as _ _ H. destruct (IH _ H) as [w ->]. exists (String dollar w). reflexivity.
  - cbn [str1 append] in H. destruct v as [|a v].
    + injection H as -> H. destruct u as [|d u]; [exists ""; reflexivity|]. cbn [map_chars] in H. destruct (Ascii.eqb d dollar); discriminate.
    + injection H as -> H. destruct (IH _ H) as [w ->]. exists (String a w). reflexivity.
Qed.
Theorem plain_recorded : forall c, plain c -> recorded c = c.
Proof.
  intros c (_ & H & N & L & B). unfold recorded, make_value.
  rewrite join_line; [|apply has_char_replace; [reflexivity|exact N]|intros v E; destruct (dollars_end _ _ E) as [w ->]; exact (B w eq_refl)].
  cbn [bs append]. rewrite uncomment_none by (apply has_char_replace; [reflexivity|exact H]). cbn [bs append]. rewrite expand_dollars. destruct c as [|a c]; [reflexivity|]. cbn [lstrip_ws]. rewrite (L a c eq_refl). reflexivity.
Qed.

Section Make.
  Variables (exec : tool) (tracked : string -> bool).
  Hypothesis HON : honest exec.

  Lemma before_earlier : forall rules, proper exec tracked rules -> forall r x, before rules r x -> forall a b, rules = (a ++ r :: b)%list -> ~ In x (outs (r :: b)).
  Proof.
    intros rules P r x H. induction H as [r x I|r s x S O _ IH]; intros a b E; [exact (in_order _ _ _ P a r b x E I)|].
    pose proof (in_order _ _ _ P a r b _ E O) as NO. assert (In s a) as SA.
    { rewrite E in S. apply in_app_or in S. destruct S as [S|S]; [exact S|]. destruct NO. unfold outs. apply in_map with (f := out) in S. exact S. }
    apply in_split in SA. destruct SA as (a1 & a2 & ->). intros I. apply (IH a1 (a2 ++ r :: b)%list).
    - rewrite E, <- app_assoc. reflexivity.
    - unfold outs in *. cbn [map]. right. rewrite map_app. apply in_or_app. right. exact I.
  Qed.
  Lemma reads_earlier : forall rules a r b f c reads x, proper exec tracked rules -> rules = (a ++ r :: b)%list -> exec (command r) f = Some (c, reads) -> In x reads -> ~ In x (outs (r :: b)).
  Proof.
    intros rules a r b f c reads x P E X R I. assert (In r rules) as IR by (rewrite E; apply in_or_app; right; left; reflexivity).
    assert (IO : In x (outs rules)) by (rewrite E; unfold outs in *; rewrite map_app; apply in_or_app; right; exact I).
    exact (before_earlier rules P r x (declared _ _ _ P r f c reads x IR X R IO) a b E I).
  Qed.

  (** What holds at every moment. *)
  Record sound (st : state) : Prop := {
    past : forall f e, files st f = Some e -> time e <= clock st;
    known : forall o c deps, saved st o = Some (c, deps) -> if tracked c then exists f0 v, exec c f0 = Some (v, deps) else deps = [];
    right_or_stale : forall o e c deps, files st o = Some e -> saved st o = Some (c, deps) ->
      exists f0 reads, exec c f0 = Some (content e, reads) /\ (tracked c = true -> reads = deps) /\ forall x, In x reads -> newer st o x = true \/ contents st x = f0 x }.

  Lemma newer_write : forall st o p c x, o <> p -> (forall e, files st o = Some e -> time e <= clock st) -> newer st o x = true \/ x = p -> newer (write st p c) o x = true.
  Proof.
    intros st o p c x N T H. unfold newer, write, set. cbn [files]. destruct (String.eqb_spec o p) as [|_]; [contradiction|]. destruct (String.eqb_spec x p) as [->|NX].
    - destruct (files st o) as [e|] eqn:E; [|reflexivity]. cbn [time]. apply Nat.ltb_lt. specialize (T e eq_refl). lia.
    - destruct H as [H|H]; [exact H|contradiction].
  Qed.
  Lemma contents_write : forall st p c x, contents (write st p c) x = if String.eqb x p then Some c else contents st x.
  Proof. intros st p c x. unfold contents, write, set. cbn [files]. destruct (String.eqb x p); reflexivity. Qed.
  Lemma keeps_write : forall st p c o e d deps, sound st -> o <> p -> files st o = Some e -> saved st o = Some (d, deps) ->
    exists f0 reads, exec d f0 = Some (content e, reads) /\ (tracked d = true -> reads = deps) /\ forall x, In x reads -> newer (write st p c) o x = true \/ contents (write st p c) x = f0 x.
  Proof.
    intros st p c o e d deps S N F V. destruct (right_or_stale _ S o e d deps F V) as (f0 & reads & X & T & R). exists f0, reads. split; [exact X|]. split; [exact T|]. intros x I.
    assert (TT : forall e0, files st o = Some e0 -> time e0 <= clock st) by (intros e0 E0; exact (past _ S _ _ E0)).
    rewrite contents_write. destruct (String.eqb_spec x p) as [->|NX]; [left; apply newer_write; auto|]. destruct (R x I) as [R'|R']; [left; apply newer_write; auto|right; exact R'].
  Qed.
  Lemma past_write : forall st p c, sound st -> forall f e, files (write st p c) f = Some e -> time e <= clock (write st p c).
  Proof.
    intros st p c S f e. unfold write, set. cbn [files clock]. destruct (String.eqb f p); [intros [= <-]; reflexivity|]. intros E. apply (past _ S) in E. lia.
  Qed.
  Lemma sound_edit : forall st f c, sound st -> saved st f = None -> sound (write st f c).
  Proof.
    intros st f c S N. split; [apply past_write; exact S|exact (known _ S)|]. intros o e d deps F V. cbn [write saved] in V. assert (NO : o <> f) by congruence.
    assert (F' : files st o = Some e) by (cbn [write files] in F; unfold set in F; destruct (String.eqb_spec o f); [contradiction|exact F]). exact (keeps_write st f c o e d deps S NO F' V).
  Qed.
  Lemma sound_remove : forall st f, sound st -> sound (remove st f).
  Proof.
    intros st f S. split.
    - intros g e. unfold remove, set. cbn [files clock]. destruct (String.eqb g f); [discriminate|]. apply (past _ S).
    - exact (known _ S).
    - intros o e c deps F V. assert (NO : o <> f /\ files st o = Some e) by (unfold remove, set in F; cbn [files] in F; destruct (String.eqb_spec o f); [discriminate|auto]). destruct NO as [NO F'].
      destruct (right_or_stale _ S o e c deps F' V) as (f0 & reads & X & T & R). exists f0, reads. split; [exact X|]. split; [exact T|]. intros x I. unfold newer, contents, remove, set. cbn [files]. destruct (String.eqb_spec o f) as [|_]; [contradiction|]. rewrite F'. destruct (String.eqb_spec x f) as [->|NX]; [left; reflexivity|]. specialize (R x I). unfold newer, contents in R. rewrite F' in R. exact R.
  Qed.
  Lemma sound_forget : forall st f, sound st -> sound (record st f None).
  Proof.
    intros st f S. split; [exact (past _ S)| |].
    - intros o c deps V. unfold record, set in V. cbn [saved] in V. destruct (String.eqb o f); [discriminate|]. exact (known _ S o c deps V).
    - intros o e c deps F V. unfold record, set in V. cbn [saved] in V. destruct (String.eqb o f); [discriminate|]. exact (right_or_stale _ S o e c deps F V).
  Qed.
  (** After a command: its target is right, the others are right or known to be stale. *)
  Lemma sound_run : forall st r c reads, sound st -> plain (command r) -> exec (command r) (contents st) = Some (c, reads) -> ~ In (out r) reads ->
    sound (record (write st (out r) c) (out r) (Some (recorded (command r), if tracked (command r) then reads else []))).
  Proof.
    intros st r c reads S P X NR. rewrite (plain_recorded _ P). split.
    - exact (past_write st (out r) c S).
    - intros o d deps V. unfold record, set in V. cbn [saved] in V. destruct (String.eqb o (out r)); [|exact (known _ S o d deps V)]. injection V as <- <-. destruct (tracked (command r)); [eauto|reflexivity].
    - intros o e d deps F V. unfold record, set in V. cbn [saved] in V. destruct (String.eqb_spec o (out r)) as [->|NO].
      + injection V as <- <-. unfold record, write, set in F. cbn [files] in F. rewrite String.eqb_refl in F. injection F as <-. exists (contents st), reads. split; [exact X|]. split; [intros ->; reflexivity|]. intros x I. right. change (contents (write st (out r) c) x = contents st x). rewrite contents_write. destruct (String.eqb_spec x (out r)) as [->|_]; [contradiction|reflexivity].
      + assert (F' : files st o = Some e) by (unfold record, write, set in F; cbn [files] in F; destruct (String.eqb_spec o (out r)); [contradiction|exact F]). exact (keeps_write st (out r) c o e d deps S NO F' V).
  Qed.
  Lemma sound_killed : forall st r c reads, sound st -> plain (command r) -> exec (command r) (contents st) = Some (c, reads) -> ~ In (out r) reads -> tracked (command r) = false -> saved_command st (out r) = command r ->
    sound (write st (out r) c).
  Proof.
    intros st r c reads S P X NR T V. assert (V' : exists deps, saved st (out r) = Some (command r, deps)).
    { unfold saved_command in V. destruct (saved st (out r)) as [[d deps]|]; [exists deps; congruence|]. destruct P as [P _]. congruence. }
    destruct V' as [deps0 V']. split; [exact (past_write st (out r) c S)|exact (known _ S)|]. intros o e d deps F W. cbn [write saved] in W. destruct (String.eqb_spec o (out r)) as [->|NO].
    - rewrite V' in W. injection W as <- <-. unfold write, set in F. cbn [files] in F. rewrite String.eqb_refl in F. injection F as <-. exists (contents st), reads. split; [exact X|]. split; [congruence|]. intros x I. right. rewrite contents_write. destruct (String.eqb_spec x (out r)) as [->|_]; [contradiction|reflexivity].
    - assert (F' : files st o = Some e) by (unfold write, set in F; cbn [files] in F; destruct (String.eqb_spec o (out r)); [contradiction|exact F]). exact (keeps_write st (out r) c o e d deps S NO F' W).
  Qed.
  (** A target that is not made again is what the command would give. *)
  Lemma up_to_date : forall st rules r, sound st -> good exec tracked rules -> In r rules -> must_run st r = false ->
    exists e reads, files st (out r) = Some e /\ exec (command r) (contents st) = Some (content e, reads).
  Proof.
    intros st rules r S (P & FE & PL) I H. unfold must_run in H. apply orb_false_iff in H. destruct H as [C Q]. apply changed_iff in C.
    assert (NN : forall x, In x (inputs r ++ saved_deps st (out r)) -> newer st (out r) x = false).
    { intros x J. destruct (newer st (out r) x) eqn:NW; [|reflexivity]. rewrite <- Q. symmetry. apply existsb_exists. eauto. }
    destruct (saved st (out r)) as [[d deps]|] eqn:V; [|destruct (PL r I) as [X _]; unfold saved_command in C; rewrite V in C; contradiction]. unfold saved_command in C. rewrite V in C. subst d. unfold saved_deps in NN. rewrite V in NN.
    destruct (files st (out r)) as [e|] eqn:F.
    - destruct (right_or_stale _ S _ _ _ _ F V) as (f0 & reads & X & T & R). exists e, reads. split; [reflexivity|]. apply (HON _ f0 _ _ X). cbn [snd]. intros x J.
      destruct (R x J) as [R'|R']; [|exact R']. assert (In x (inputs r ++ deps)) as K.
      { apply in_or_app. destruct (tracked (command r)) eqn:TR; [right; rewrite <- (T eq_refl); exact J|left; exact (prerequisites _ _ _ P r f0 (content e) reads x I TR X J)]. }
      rewrite (NN x K) in R'. discriminate.
    - destruct (inputs r) as [|x l] eqn:IN; [destruct (FE r I IN)|]. specialize (NN x (or_introl eq_refl)). unfold newer in NN. rewrite F in NN. discriminate.
  Qed.
  Lemma step : forall rules a r b st, good exec tracked rules -> rules = (a ++ r :: b)%list -> sound st ->
    match exec (command r) (contents st) with
    | Some (c, _) => exists st', do_cmd exec tracked st r = Some st' /\ sound st' /\ forall x, contents st' x = if String.eqb x (out r) then Some c else contents st x
    | None => do_cmd exec tracked st r = None
    end.
  Proof.
    intros rules a r b st G E S. assert (I : In r rules) by (rewrite E; apply in_or_app; right; left; reflexivity). unfold do_cmd. destruct (must_run st r) eqn:M.
    - destruct (exec (command r) (contents st)) as [[c reads]|] eqn:X; [|reflexivity]. eexists. split; [reflexivity|]. split.
      + apply sound_run; [exact S|exact (proj2 (proj2 G) r I)|exact X|]. intros J. apply (reads_earlier rules a r b _ _ _ _ (proj1 G) E X J). left. reflexivity.
      + intros x. change (contents (write st (out r) c) x = if String.eqb x (out r) then Some c else contents st x). apply contents_write.
    - destruct (up_to_date st rules r S G I M) as (e & reads & F & X). rewrite X. exists st. split; [reflexivity|]. split; [exact S|]. intros x. destruct (String.eqb_spec x (out r)) as [->|_]; [unfold contents; rewrite F; reflexivity|reflexivity].
  Qed.
  Lemma make_sound : forall rules b a st, good exec tracked rules -> (exists d, rules = (a ++ b ++ d)%list) -> sound st -> sound (fst (make exec tracked b st)).
  Proof.
    intros rules b. induction b as [|r b IH]; intros a st G [d E] S; [exact S|]. cbn [make]. pose proof (step rules a r (b ++ d) st G E S) as H. destruct (exec (command r) (contents st)) as [[c reads]|].
    - destruct H as (st' & -> & S' & _). apply (IH (a ++ [r])%list st' G); [|exact S']. exists d. rewrite E, <- app_assoc. reflexivity.
    - rewrite H. exact S.
  Qed.
  Theorem history_sound : forall st, history exec tracked st -> sound st.
  Proof.
    intros st H. induction H as [st NS T|st f c H IH N|st f H IH|st f H IH|st rules rest H IH G|st r rules st' H IH G I K TR V].
    - split; [exact T| |]; intros; congruence.
    - apply sound_edit; assumption.
    - apply sound_remove; assumption.
    - apply sound_forget; assumption.
    - apply (make_sound (rules ++ rest) rules [] st G); [exists rest; reflexivity|exact IH].
    - unfold killed_before_depfile in K. destruct (must_run st r); [|discriminate]. destruct (exec (command r) (contents st)) as [[c reads]|] eqn:X; [|discriminate]. injection K as <-. apply in_split in I. destruct I as (a & b & E).
      apply (sound_killed st r c reads); [exact IH|apply (proj2 (proj2 G)); rewrite E; apply in_or_app; right; left; reflexivity|exact X| |exact TR|exact V]. intros J. apply (reads_earlier rules a r b _ _ _ _ (proj1 G) E X J). left. reflexivity.
  Qed.

  Lemma same_result : forall rules a r b f g, proper exec tracked rules -> rules = (a ++ r :: b)%list -> (forall x, ~ In x (outs (r :: b)) -> f x = g x) -> exec (command r) f = exec (command r) g.
  Proof.
    assert (D : forall rules a r b f g v, proper exec tracked rules -> rules = (a ++ r :: b)%list -> (forall x, ~ In x (outs (r :: b)) -> f x = g x) -> exec (command r) f = Some v -> exec (command r) g = Some v).
    { intros rules a r b f g [c reads] P E A X. apply (HON _ f _ _ X). cbn [snd]. intros x J. symmetry. apply A. exact (reads_earlier rules a r b f c reads x P E X J). }
    intros rules a r b f g P E A. destruct (exec (command r) f) as [v|] eqn:F; [symmetry; exact (D rules a r b f g v P E A F)|]. destruct (exec (command r) g) as [v|] eqn:G; [|reflexivity].
    rewrite <- F. apply (D rules a r b g f v P E); [intros x N; symmetry; exact (A x N)|exact G].
  Qed.
  Lemma simulates : forall rules, good exec tracked rules -> forall b a fs st, rules = (a ++ b)%list -> sound st -> (forall x, ~ In x (outs b) -> contents st x = fs x) ->
    match run_all exec b fs with
    | Some fs' => exists st', make exec tracked b st = (st', true) /\ forall x, contents st' x = fs' x
    | None => snd (make exec tracked b st) = false
    end.
  Proof.
    intros rules G b. induction b as [|r b IH]; intros a fs st E S A; cbn [run_all make].
    - exists st. split; [reflexivity|]. intros x. apply A. intros [].
    - rewrite <- (same_result rules a r b (contents st) fs (proj1 G) E A). pose proof (step rules a r b st G E S) as H. destruct (exec (command r) (contents st)) as [[c reads]|].
      + destruct H as (st' & -> & S' & C). apply (IH (a ++ [r])%list); [rewrite E, <- app_assoc; reflexivity|exact S'|]. intros x N. rewrite C. destruct (String.eqb_spec x (out r)) as [->|NX]; [reflexivity|]. apply A. intros [J|J]; [congruence|contradiction].
      + rewrite H. reflexivity.
  Qed.
  Theorem incremental : forall st rules, history exec tracked st -> good exec tracked rules ->
    match from_scratch exec rules (contents st) with
    | Some fs => exists st', make exec tracked rules st = (st', true) /\ forall x, contents st' x = fs x
    | None => snd (make exec tracked rules st) = false
    end.
  Proof.
    intros st rules H G. unfold from_scratch. apply (simulates rules G rules [] _ st eq_refl (history_sound st H)). intros x N. unfold bare. apply mem_false in N. rewrite N. reflexivity.
  Qed.

  (** Nothing is done twice. *)
  Lemma run_settles : forall rules a r b st st', good exec tracked rules -> finds exec rules -> rules = (a ++ r :: b)%list -> sound st -> do_cmd exec tracked st r = Some st' -> must_run st' r = false.
  Proof.
    intros rules a r b st st' G FI E S D. assert (I : In r rules) by (rewrite E; apply in_or_app; right; left; reflexivity). unfold do_cmd in D. destruct (must_run st r) eqn:M; [|injection D as <-; exact M].
    destruct (exec (command r) (contents st)) as [[c reads]|] eqn:X; [|discriminate]. injection D as <-.
    set (deps := if tracked (command r) then reads else []). set (st' := record (write st (out r) c) (out r) (Some (recorded (command r), deps))).
    assert (V : saved st' (out r) = Some (command r, deps)) by (unfold st', record, set; cbn [saved]; rewrite String.eqb_refl, (plain_recorded _ (proj2 (proj2 G) r I)); reflexivity).
    unfold must_run, saved_command, saved_deps. rewrite V. apply orb_false_iff. split; [apply changed_iff; reflexivity|]. destruct (existsb (newer st' (out r)) (inputs r ++ deps)) eqn:Q; [|reflexivity]. apply existsb_exists in Q. destruct Q as (x & J & NW).
    assert (J' : In x (inputs r ++ reads)) by (apply in_app_or in J; apply in_or_app; destruct J as [J|J]; [left; exact J|right; unfold deps in J; destruct (tracked (command r)); [exact J|destruct J]]).
    assert (NE : x <> out r).
    { intros ->. apply in_app_or in J'. destruct J' as [J'|J']; [apply (in_order _ _ _ (proj1 G) a r b (out r) E); [apply in_or_app; left; exact J'|left; reflexivity]|apply (reads_earlier rules a r b _ _ _ _ (proj1 G) E X J'); left; reflexivity]. }
    pose proof (FI r _ _ _ x I X J') as FX. unfold newer, st', record, write, set in NW. cbn [files] in NW. rewrite String.eqb_refl in NW. destruct (String.eqb_spec x (out r)) as [|_]; [contradiction|]. unfold contents in FX. destruct (files st x) as [e|] eqn:FE; [|destruct (FX eq_refl)]. apply (past _ S) in FE. cbn [time] in NW. apply Nat.ltb_lt in NW. lia.
  Qed.
  Lemma stays_settled : forall rules a r b s b' st st', good exec tracked rules -> rules = (a ++ r :: b ++ s :: b')%list -> sound st -> must_run st r = false -> do_cmd exec tracked st s = Some st' -> must_run st' r = false.
  Proof.
    intros rules a r b s b' st st' G E S M D. unfold do_cmd in D. destruct (must_run st s) eqn:MS; [|injection D as <-; exact M]. destruct (exec (command s) (contents st)) as [[c reads]|] eqn:X; [|discriminate]. injection D as <-.
    assert (IO : In (out s) (outs (r :: b ++ s :: b')%list)) by (unfold outs; cbn [map]; right; rewrite map_app; apply in_or_app; right; left; reflexivity).
    assert (NE : out r <> out s).
    { pose proof (once _ _ _ (proj1 G)) as ND. rewrite E in ND. unfold outs in ND. rewrite map_app in ND. cbn [map] in ND. apply NoDup_remove_2 in ND. intros EQ. apply ND. rewrite EQ, map_app. apply in_or_app. right. apply in_or_app. right. left. reflexivity. }
    unfold must_run in M |- *. apply orb_false_iff in M. destruct M as [M1 M2].
    set (st' := record _ _ _). assert (V : saved st' (out r) = saved st (out r)) by (unfold st', record, set; cbn [saved write]; destruct (String.eqb_spec (out r) (out s)); [contradiction|reflexivity]).
    unfold saved_command, saved_deps in *. rewrite V. rewrite M1. cbn [orb]. match goal with |- ?g = false => destruct g eqn:Q; [|reflexivity] end. apply existsb_exists in Q. destruct Q as (x & J & NW).
    assert (NX : x <> out s).
    { intros ->. apply in_app_or in J. destruct J as [J|J]; [exact (in_order _ _ _ (proj1 G) a r (b ++ s :: b') _ E (in_or_app _ _ _ (or_introl J)) IO)|]. destruct (saved st (out r)) as [[d deps]|] eqn:VV; [|destruct J]. pose proof (known _ S _ _ _ VV) as K. apply changed_iff in M1. subst d. destruct (tracked (command r)); [|subst deps; destruct J]. destruct K as (f0 & v & K). exact (reads_earlier rules a r (b ++ s :: b') f0 v deps _ (proj1 G) E K J IO). }
    assert (newer st (out r) x = true) as NW'.
    { unfold newer, st', record, write, set in NW |- *. cbn [files] in NW. destruct (String.eqb_spec (out r) (out s)) as [|_]; [contradiction|]. destruct (String.eqb_spec x (out s)) as [|_]; [contradiction|]. exact NW. }
    rewrite <- M2. symmetry. apply existsb_exists. exists x. auto.
  Qed.
  Lemma all_settled : forall rules, good exec tracked rules -> finds exec rules -> forall b a st st', rules = (a ++ b)%list -> sound st -> (forall r, In r a -> must_run st r = false) -> make exec tracked b st = (st', true) ->
    forall r, In r rules -> must_run st' r = false.
  Proof.
    intros rules G FI b. induction b as [|s b IH]; intros a st st' E S A M r I; cbn [make] in M.
    - injection M as <-. rewrite app_nil_r in E. subst a. exact (A r I).
    - pose proof (step rules a s b st G E S) as H. destruct (do_cmd exec tracked st s) as [st1|] eqn:D; [|discriminate]. assert (S1 : sound st1) by (destruct (exec (command s) (contents st)) as [[c reads]|]; [destruct H as (x & Ex & Sx & _); congruence|discriminate]).
      apply (IH (a ++ [s])%list st1 st'); [rewrite E, <- app_assoc; reflexivity|exact S1| |exact M|exact I]. intros q J. apply in_app_or in J. destruct J as [J|[<-|[]]]; [|exact (run_settles rules a s b st st1 G FI E S D)].
      apply in_split in J as JS. destruct JS as (a1 & a2 & ->). apply (stays_settled rules a1 q a2 s b st st1 G); [rewrite E, <- app_assoc; reflexivity|exact S|exact (A q J)|exact D].
  Qed.
  Theorem nothing_twice : forall st rules st', history exec tracked st -> good exec tracked rules -> finds exec rules -> make exec tracked rules st = (st', true) -> make exec tracked rules st' = (st', true).
  Proof.
    intros st rules st' H G FI M. pose proof (all_settled rules G FI rules [] st st' eq_refl (history_sound st H) (fun r (X : In r []) => match X with end) M) as A. clear M.
    assert (K : forall l, (forall r, In r l -> must_run st' r = false) -> make exec tracked l st' = (st', true)).
    { induction l as [|r l IH]; intros B; [reflexivity|]. cbn [make]. unfold do_cmd. rewrite (B r (or_introl eq_refl)). apply IH. intros q J. exact (B q (or_intror J)). }
    exact (K rules A).
  Qed.
End Make.
