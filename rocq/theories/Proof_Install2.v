(** Proofs about installing development files: runs. *)
From Coq Require Import ZArith NArith.
From Verif Require Import Lib LibFacts Str StrFacts Js Model_Value Spec_Vs Proof_Vs Model_Install Spec_Install Proof_Install.
From Verif Require Import Proof_Merge2 Proof_Filter.
Local Open Scope string_scope.

Lemma bind_inv : forall A B (m : prog A) (f : A -> prog B) s t o s', bindp m f s = (t, o, s') ->
  exists t1 r1 s1, m s = (t1, r1, s1) /\
    match r1 with
    | None => t = t1 /\ o = None /\ s' = s1
    | Some a => exists t2, f a s1 = (t2, o, s') /\ t = (t1 ++ t2)%list
    end.
Proof.
  intros A B m f s t o s' H. unfold bindp in H. destruct (m s) as [[t1 r1] s1]. exists t1, r1, s1. split; [reflexivity|]. destruct r1 as [a|].
  - destruct (f a s1) as [[t2 r2] s2]. injection H as <- <- <-. exists t2. auto.
  - injection H as <- <- <-. auto.
Qed.
Lemma bind_ok : forall A B (m : prog A) (f : A -> prog B) s t1 a s1 t2 o s2, m s = (t1, Some a, s1) -> f a s1 = (t2, o, s2) -> bindp m f s = ((t1 ++ t2)%list, o, s2).
Proof. intros A B m f s t1 a s1 t2 o s2 E1 E2. unfold bindp. rewrite E1, E2. reflexivity. Qed.
Lemma put_eq : forall n p c s, put n p c s = ([Some (set_key p (substring 0 n c) (files s)); Some (set_key p c (files s))], Some tt, Some (set_key p c (files s))).
Proof. reflexivity. Qed.
Lemma set_key_NoDup : forall B k (v : B) d, NoDup (map fst d) -> NoDup (map fst (set_key k v d)).
Proof.
  intros B k v d H. rewrite set_key_keys. destruct (mem k (map fst d)) eqn:M; [rewrite app_nil_r; exact H|].
  apply (Permutation_NoDup (l := k :: map fst d)); [apply Permutation_cons_append|]. constructor; [|exact H]. intros X. apply mem_In in X. congruence.
Qed.
Lemma assoc_set : forall B p q (v : B) d, assoc q (set_key p v d) = if String.eqb p q then Some v else assoc q d.
Proof. intros B p q v d. destruct (String.eqb_spec p q) as [<-|N]; [apply assoc_set_same|apply assoc_set_other, N]. Qed.

(** ** Extraction *)
(** what [p] holds after the files of an archive were written over [old] *)
Fixpoint after_entries (entries : dir) (p : string) (old : option string) : option string :=
  match entries with
  | [] => old
  | (q, c) :: es => after_entries es p (if valid q && String.eqb q p then Some c else old)
  end.
Lemma after_entries_last : forall before_ after p c old, valid p = true -> ~ In p (map fst after) -> after_entries (before_ ++ (p, c) :: after)%list p old = Some c.
Proof.
  induction before_ as [|[q d] b IH]; intros after p c old HV HN; cbn [app after_entries].
  - rewrite HV, String.eqb_refl. cbn [andb]. revert HN. generalize (Some c). induction after as [|[q d] a IHa]; intros o HN; [reflexivity|]. cbn [after_entries]. cbn in HN.
    destruct (String.eqb_spec q p) as [E|E]; [exfalso; apply HN; left; exact E|]. rewrite andb_false_r. apply IHa. intros X. apply HN. right. exact X.
  - apply IH; assumption.
Qed.
Lemma after_entries_other : forall entries p old, valid p = false -> after_entries entries p old = old.
Proof.
  induction entries as [|[q c] es IH]; intros p old HV; [reflexivity|]. cbn [after_entries]. rewrite IH by exact HV. destruct (String.eqb_spec q p) as [->|]; [rewrite HV; reflexivity|rewrite andb_false_r; reflexivity].
Qed.
Definition keeps (d0 : dir) (s : state) : Prop := exists d, s = Some d /\ forall p, valid p = false -> assoc p d = assoc p d0.
Lemma keeps_set : forall d0 d p c, valid p = true -> keeps d0 (Some d) -> keeps d0 (Some (set_key p c d)).
Proof.
  intros d0 d p c HV (d' & [= <-] & H). exists (set_key p c d). split; [reflexivity|]. intros q HQ. rewrite assoc_set_other; [apply H, HQ|]. intros ->. congruence.
Qed.
Lemma extract_into_spec : forall w entries n d0 d t o s', keeps d0 (Some d) -> extract_into w n entries (Some d) = (t, o, s') ->
  Forall (keeps d0) t /\ keeps d0 s' /\ exists bad, o = Some bad /\ (bad = false -> forall d', s' = Some d' -> forall p, assoc p d' = after_entries entries p (assoc p d)).
Proof.
  intros w entries. induction entries as [|[p c] es IH]; intros n d0 d t o s' K H; cbn [extract_into] in H.
  - injection H as <- <- <-. split; [constructor|]. split; [exact K|]. exists false. split; [reflexivity|]. intros _ d' [= <-] q. reflexivity.
  - cbn [after_entries]. destruct (valid p) eqn:EV.
    + destruct (entry_fails w n).
      * apply bind_inv in H. destruct H as (t1 & r1 & s1 & H1 & H2). apply (IH _ _ _ _ _ _ K) in H1. destruct H1 as (F & KS & bad & -> & _). destruct H2 as (t2 & H2 & ->). injection H2 as <- <- <-. rewrite app_nil_r.
        split; [exact F|]. split; [exact KS|]. exists true. split; [reflexivity|discriminate].
      * apply bind_inv in H. destruct H as (t1 & r1 & s1 & H1 & H2). rewrite put_eq in H1. injection H1 as <- <- <-. destruct H2 as (t2 & H2 & ->). cbn [files] in *.
        apply (IH _ d0) in H2; [|apply keeps_set; assumption]. destruct H2 as (F & KS & bad & -> & HB). split.
        { constructor; [apply keeps_set; assumption|]. constructor; [apply keeps_set; assumption|exact F]. }
        split; [exact KS|]. exists bad. split; [reflexivity|]. intros Hb d' E q. rewrite (HB Hb d' E q), assoc_set. reflexivity.
    + apply (IH _ d0) in H; [|exact K]. destruct H as (F & KS & bad & -> & HB). split; [exact F|]. split; [exact KS|]. exists bad. split; [reflexivity|]. intros Hb d' E q. rewrite (HB Hb d' E q). reflexivity.
Qed.
Lemma extract_temp_spec : forall w entries n t, NoDup (map fst t) -> NoDup (map fst (fst (extract_temp w n entries t))) /\
  (forall p, valid p = false -> assoc p (fst (extract_temp w n entries t)) = assoc p t) /\
  (snd (extract_temp w n entries t) = false -> forall p, assoc p (fst (extract_temp w n entries t)) = after_entries entries p (assoc p t)).
Proof.
  intros w entries. induction entries as [|[p c] es IH]; intros n t ND; cbn [extract_temp after_entries].
  - auto.
  - destruct (valid p) eqn:EV.
    + destruct (entry_fails w n).
      * cbn [fst snd]. destruct (IH (S n) t ND) as (A & B & _). split; [exact A|]. split; [exact B|discriminate].
      * destruct (IH (S n) (set_key p c t) (set_key_NoDup _ _ _ _ ND)) as (A & B & C). split; [exact A|]. split.
        { intros q HQ. rewrite (B q HQ), assoc_set_other; [reflexivity|]. intros ->. congruence. }
        intros Hb q. rewrite (C Hb q), assoc_set. reflexivity.
    + apply IH, ND.
Qed.

Section Proofs.
Variable sha : string -> string.
Variable untar : string -> list (string * string) * bool.

Lemma after_holds : forall bytes d old, snd (untar bytes) = false -> existsb (fun e => valid (fst e)) (fst (untar bytes)) = true ->
  (forall p, valid p = true -> assoc p d = after_entries (fst (untar bytes)) p (old p)) -> holds_headers untar d bytes.
Proof.
  intros bytes d old HW HE HA. split.
  - split; [exact HW|]. clear HA HW. unfold archived. induction (fst (untar bytes)) as [|[p c] es IH]; [discriminate|]. cbn [existsb fst] in HE.
    destruct (existsb (fun e => valid (fst e)) es) eqn:E.
    + destruct (IH eq_refl) as (q & d' & (b & a & -> & N) & HQ). exists q, d'. split; [exists ((p, c) :: b), a; auto|exact HQ].
    + rewrite orb_false_r in HE. exists p, c. split; [|apply valid_iff, HE]. exists [], es. split; [reflexivity|]. intros X. apply in_map_iff in X. destruct X as ([q x] & E1 & X). cbn in E1. subst q.
      assert (Y : existsb (fun e : string * string => valid (fst e)) es = true) by (apply existsb_exists; exists (p, x); auto). congruence.
  - intros p c HP (b & a & E & N). apply valid_iff in HP. rewrite (HA p HP), E. apply after_entries_last; assumption.
Qed.

Definition source_bytes (r : request) (w : happening) (bytes : string) (sums : list (string * string)) : Prop :=
  match local_tarball r with
  | Some b => bytes = b /\ sums = []
  | None => tar_answer w = Answer 200 bytes true /\ sums = [(tar_name r, sha bytes)]
  end.
Lemma get_tarball_spec : forall r w d t x s', get_tarball sha untar r w (Some d) = (t, x, s') ->
  if win r then t = [] /\ s' = Some d /\ forall tmp sums, x = Some (tmp, sums) -> NoDup (map fst tmp) /\ (forall p, valid p = false -> assoc p tmp = None) /\ exists bytes, source_bytes r w bytes sums /\ holds_headers untar tmp bytes
  else Forall (keeps d) t /\ keeps d s' /\ forall tmp sums, x = Some (tmp, sums) -> exists bytes d', s' = Some d' /\ source_bytes r w bytes sums /\ holds_headers untar d' bytes.
Proof.
  intros r w d t x s' H. unfold get_tarball in H.
  assert (EX : forall bytes t x s', extract untar r w bytes (Some d) = (t, x, s') ->
    exists tmp bad, x = Some (tmp, bad) /\
      if win r then t = [] /\ s' = Some d /\ NoDup (map fst tmp) /\ (forall p, valid p = false -> assoc p tmp = None) /\ (bad = false -> snd (untar bytes) = false /\ forall p, assoc p tmp = after_entries (fst (untar bytes)) p None)
      else Forall (keeps d) t /\ keeps d s' /\ (bad = false -> snd (untar bytes) = false /\ forall d', s' = Some d' -> forall p, assoc p d' = after_entries (fst (untar bytes)) p (assoc p d))).
  { clear. intros bytes t x s' H. unfold extract in H. destruct (untar bytes) as [entries warned]. cbn [fst snd]. destruct (win r).
    - pose proof (extract_temp_spec w entries 0 [] (NoDup_nil _)) as (A & B & C). destruct (extract_temp w 0 entries []) as [tmp bad]. cbn [fst snd] in *. injection H as <- <- <-. exists tmp, (bad || warned). split; [reflexivity|].
      split; [reflexivity|]. split; [reflexivity|]. split; [exact A|]. split; [exact B|]. intros Hb. apply orb_false_elim in Hb. destruct Hb as [-> ->]. split; [reflexivity|]. apply C. reflexivity.
    - apply bind_inv in H. destruct H as (t1 & r1 & s1 & H1 & H2). assert (K : keeps d (Some d)) by (exists d; auto). apply (extract_into_spec _ _ _ d) in H1; [|exact K]. destruct H1 as (F & KS & bad & -> & HB). destruct H2 as (t2 & H2 & ->).
      injection H2 as <- <- <-. rewrite app_nil_r. exists [], (bad || warned). split; [reflexivity|]. split; [exact F|]. split; [exact KS|]. intros Hb. apply orb_false_elim in Hb. destruct Hb as [-> ->]. auto. }
  assert (K : keeps d (Some d)) by (exists d; auto).
  assert (NO : forall t' o' s'', @throw (dir * list (string * string)) (Some d) = (t', o', s'') -> t' = [] /\ o' = None /\ s'' = Some d) by (intros ? ? ? [= <- <- <-]; auto).
  apply bind_inv in H. destruct H as (t1 & r1 & s1 & H1 & H2).
  assert (STEP : (exists bytes tmp bad sums t0, extract untar r w bytes (Some d) = (t0, Some (tmp, bad), s1) /\ t1 = t0 /\ (r1 = None \/ (r1 = Some (tmp, bad, bytes, sums) /\ source_bytes r w bytes sums))) \/ (t1 = [] /\ r1 = None /\ s1 = Some d)).
  { unfold source_bytes. destruct (local_tarball r) as [b|].
    - destruct (fails w OpenTar); [injection H1 as <- <- <-; auto|]. apply bind_inv in H1. destruct H1 as (t2 & r2 & s2 & H3 & H4). destruct (EX _ _ _ _ H3) as (tmp & bad & -> & _). destruct H4 as (t3 & H4 & ->). injection H4 as <- <- <-. rewrite app_nil_r.
      left. exists b, tmp, bad, [], t2. auto 12.
    - destruct (tar_answer w) as [|status body complete]; [injection H1 as <- <- <-; auto|]. destruct (N.eqb_spec status 200) as [->|]; cbn [negb] in H1; [|injection H1 as <- <- <-; auto].
      apply bind_inv in H1. destruct H1 as (t2 & r2 & s2 & H3 & H4). destruct (EX _ _ _ _ H3) as (tmp & bad & -> & _). destruct H4 as (t3 & H4 & ->). left. exists body, tmp, bad, [(tar_name r, sha body)], t2.
      destruct complete; injection H4 as <- <- <-; rewrite app_nil_r; auto 12. }
  destruct STEP as [(bytes & tmp & bad & sums & t0 & HX & -> & HR)|(-> & -> & ->)].
  - destruct (EX _ _ _ _ HX) as (tmp' & bad' & [= <- <-] & HC). destruct HR as [->|(-> & HS)].
    + destruct H2 as (-> & -> & ->). destruct (win r).
      * destruct HC as (-> & -> & _). split; [reflexivity|]. split; [reflexivity|discriminate].
      * destruct HC as (F & KS & _). split; [exact F|]. split; [exact KS|discriminate].
    + destruct H2 as (t2 & H2 & ->). destruct (bad || negb (existsb (fun e => valid (fst e)) (fst (untar bytes)))) eqn:EB; injection H2 as <- <- <-; rewrite app_nil_r.
      * destruct (win r).
        -- destruct HC as (-> & -> & _). split; [reflexivity|]. split; [reflexivity|discriminate].
        -- destruct HC as (F & KS & _). split; [exact F|]. split; [exact KS|discriminate].
      * apply orb_false_elim in EB. destruct EB as [-> EV]. apply negb_false_iff in EV. destruct (win r).
        -- destruct HC as (-> & -> & ND & HN & HA). split; [reflexivity|]. split; [reflexivity|]. intros ? ? [= <- <-]. split; [exact ND|]. split; [exact HN|]. exists bytes. split; [exact HS|]. destruct (HA eq_refl) as [HW HA'].
           apply (after_holds _ _ (fun _ => None)); auto.
        -- destruct HC as (F & KS & HA). split; [exact F|]. split; [exact KS|]. intros ? ? [= <- <-]. destruct KS as (d' & ED & _). exists bytes, d'. split; [exact ED|]. split; [exact HS|]. destruct (HA eq_refl) as [HW HA'].
           apply (after_holds _ _ (fun p => assoc p d)); auto.
  - destruct H2 as (-> & -> & ->). destruct (win r); [split; [reflexivity|]; split; [reflexivity|discriminate]|]. split; [constructor|]. split; [exact K|discriminate].
Qed.

(** ** Copying *)
Lemma copy_files_spec : forall r w fs n d t s', (forall n, busy w n = false) -> NoDup (map fst fs) -> copy_files r w n fs (Some d) = (t, Some tt, s') ->
  exists d', s' = Some d' /\ forall p, assoc p d' = match assoc p fs with Some c => Some c | None => assoc p d end.
Proof.
  intros r w fs. induction fs as [|[p c] fs IH]; intros n d t s' HB ND H; cbn [copy_files] in H.
  - injection H as <- <-. exists d. auto.
  - apply bind_inv in H. destruct H as (t1 & r1 & s1 & H1 & H2). injection H1 as <- <- <-. destruct H2 as (t2 & H2 & ->). rewrite HB in H2. apply bind_inv in H2. destruct H2 as (t3 & r3 & s3 & H3 & H4).
    destruct (fails w (Copy n)); [injection H3 as <- <- <-; destruct H4 as (_ & X & _); discriminate|]. rewrite put_eq in H3. injection H3 as <- <- <-. destruct H4 as (t4 & H4 & ->). cbn [files] in H4. inversion ND as [|? ? NI ND']; subst.
    apply IH in H4; [|exact HB|exact ND']. destruct H4 as (d' & -> & HA). exists d'. split; [reflexivity|]. intros q. rewrite HA. cbn [assoc]. rewrite assoc_set. destruct (String.eqb_spec p q) as [<-|N].
    + rewrite String.eqb_refl. destruct (assoc p fs) eqn:E; [|reflexivity]. exfalso. apply NI. apply assoc_In in E. apply in_map_iff. exists (p, s). auto.
    + destruct (String.eqb_spec q p); [congruence|reflexivity].
Qed.

Lemma get_sums_Some : forall w e, get_sums w = Some e -> exists text, sums_answer w = Answer 200 text true /\ e = expected_sums text.
Proof.
  intros w e H. unfold get_sums in H. destruct (sums_answer w) as [|status text complete]; [discriminate|]. destruct complete; [|discriminate]. destruct (N.eqb_spec status 200) as [->|]; [|discriminate]. injection H as <-. exists text. auto.
Qed.
Lemma sums_match_In : forall contents expected name sum, sums_match contents expected = true -> In (name, sum) contents -> assoc name expected = Some sum.
Proof.
  intros contents expected name sum H HI. unfold sums_match in H. rewrite forallb_forall in H. specialize (H _ HI). cbn [fst snd] in H. destruct (assoc name expected) as [e|]; [|discriminate]. apply String.eqb_eq in H. congruence.
Qed.
Lemma get_lib_Some : forall w lib, get_lib w = Some lib -> lib_answer w = Answer 200 lib true.
Proof.
  intros w lib H. unfold get_lib in H. destruct (fails w MkdirLib); [discriminate|]. destruct (lib_answer w) as [|status body complete]; [discriminate|]. destruct complete; [|discriminate]. destruct (fails w WriteLib); [discriminate|].
  destruct (N.eqb_spec status 200) as [->|]; [|discriminate]. congruence.
Qed.
Lemma source_verified : forall r w bytes sums contents text, source_bytes r w bytes sums -> sums_answer w = Answer 200 text true -> sums_match contents (expected_sums text) = true ->
  (forall x, In x sums -> In x contents) -> verified_source sha r w bytes.
Proof.
  intros r w bytes sums contents text HS HT HM HI. unfold source_bytes, verified_source in *. destruct (local_tarball r); [apply HS|]. destruct HS as [HA ->]. split; [exact HA|]. exists text. split; [exact HT|]. apply expected_listed.
  apply (sums_match_In contents); [exact HM|]. apply HI. left. reflexivity.
Qed.
Lemma holds_same : forall d d' bytes, holds_headers untar d bytes -> (forall p, valid p = true -> assoc p d' = assoc p d) -> holds_headers untar d' bytes.
Proof. intros d d' bytes [S H] E. split; [exact S|]. intros p c HP HA. rewrite E; [apply H; assumption|apply valid_iff, HP]. Qed.

(** What a completed run leaves. *)
Definition left_by (r : request) (w : happening) (want_tarball : bool) (d0 d : dir) : Prop :=
  marked_with d (needed r) /\
  (if want_tarball then exists bytes, verified_source sha r w bytes /\ holds_headers untar d bytes
   else forall p, p <> lib_file r -> p <> "installVersion" -> assoc p d = assoc p d0) /\
  (win r = true -> exists lib, verified_lib sha r w lib /\ assoc (lib_file r) d = Some lib).

Lemma marked_after : forall r d, (0 < needed r)%Z -> marked_with (set_key "installVersion" (version_text r) d) (needed r).
Proof. intros r d H. exists (version_text r). split; [apply assoc_set_same|apply version_whole, H]. Qed.

Lemma go_posix : forall r w s t s', win r = false -> (0 < needed r)%Z -> go sha untar r w true s = (t, Some Installed, s') ->
  exists d, s' = Some d /\ left_by r w true (files s) d /\
    exists t1 d1, t = (t1 ++ [Some (set_key "installVersion" "" d1); s'])%list /\ Forall (keeps (files s)) t1.
Proof.
  intros r w s t s' HW Hn H. unfold go in H. destruct (fails w Mkdir) as [[|]|]; [discriminate|discriminate|].
  apply bind_inv in H. destruct H as (t1 & r1 & s1 & H1 & H2). injection H1 as <- <- <-. destruct H2 as (t2 & H & ->). cbn [app].
  apply bind_inv in H. destruct H as (t3 & r3 & s3 & H3 & H2). injection H3 as <- <- <-. destruct H2 as (t4 & H & ->). rewrite HW in H.
  apply bind_inv in H. destruct H as (t5 & r5 & s5 & H5 & H2). apply get_tarball_spec in H5. rewrite HW in H5. destruct H5 as (F5 & K5 & HX). destruct r5 as [[tmp sums]|]; [|destruct H2 as (_ & X & _); discriminate].
  destruct (HX tmp sums eq_refl) as (bytes & d & -> & HS & HH). destruct H2 as (t6 & H & ->).
  assert (WV : forall d t o s', write_version r w (Some d) = (t, o, s') -> o <> None -> t = [Some (set_key "installVersion" "" d); s'] /\ s' = Some (set_key "installVersion" (version_text r) d)).
  { clear. intros d t o s' H HO. unfold write_version in H. destruct (fails w WriteVersion); [injection H as <- <- <-; congruence|]. rewrite put_eq in H. cbn [files] in H. injection H as <- <- <-. split; [|reflexivity]. destruct (version_text r); reflexivity. }
  assert (FIN : forall d1, holds_headers untar (set_key "installVersion" (version_text r) d1) bytes <-> holds_headers untar d1 bytes).
  { intros d1. split; intros HHH; (eapply holds_same; [exact HHH|]); intros p HV; rewrite assoc_set; (destruct (String.eqb_spec "installVersion" p) as [<-|]; [rewrite version_not_valid in HV; discriminate|reflexivity]). }
  destruct (local_tarball r) as [b|] eqn:EL.
  - apply bind_inv in H. destruct H as (t7 & r7 & s7 & H7 & H8). destruct r7 as [[]|]; [|destruct H8 as (_ & X & _); discriminate]. apply WV in H7; [|discriminate]. destruct H7 as [-> ES]. destruct H8 as (t8 & H8 & ->). injection H8 as <- <-. subst s7.
    exists (set_key "installVersion" (version_text r) d). split; [reflexivity|]. split.
    + split; [apply marked_after, Hn|]. split; [|rewrite HW; discriminate]. exists bytes. split; [unfold verified_source, source_bytes in *; rewrite EL in *; apply HS|]. apply FIN, HH.
    + exists (Some (files s) :: t5), d. split; [reflexivity|]. constructor; [|exact F5]. exists (files s). auto.
  - destruct (get_sums w) as [expected|] eqn:EG.
    + apply bind_inv in H. destruct H as (t7 & r7 & s7 & H7 & H8). destruct r7 as [[]|]; [|destruct H8 as (_ & X & _); discriminate]. apply WV in H7; [|discriminate]. destruct H7 as [-> ES]. destruct H8 as (t8 & H8 & ->). cbn [snd] in H8.
      destruct (sums_match sums expected) eqn:EM; [|discriminate]. injection H8 as <- <-. subst s7.
      apply get_sums_Some in EG. destruct EG as (text & ET & ->).
      exists (set_key "installVersion" (version_text r) d). split; [reflexivity|]. split.
      * split; [apply marked_after, Hn|]. split; [|rewrite HW; discriminate]. exists bytes. split; [apply (source_verified r w bytes sums sums text); auto|]. apply FIN, HH.
      * exists (Some (files s) :: t5), d. split; [reflexivity|]. constructor; [|exact F5]. exists (files s). auto.
    + destruct (sums_first w); [discriminate|]. apply bind_inv in H. destruct H as (t7 & r7 & s7 & H7 & H8). destruct r7 as [[]|]; [|destruct H8 as (_ & X & _); discriminate]. destruct H8 as (t8 & X & _). discriminate.
Qed.

Lemma go_windows : forall r w want s t s', win r = true -> (0 < needed r)%Z -> undisturbed w -> lib_path r <> tar_name r -> go sha untar r w want s = (t, Some Installed, s') ->
  exists d, s' = Some d /\ left_by r w want (files s) d.
Proof.
  intros r w want s t s' HW Hn [HB HO] HL H. unfold go in H. destruct (fails w Mkdir) as [[|]|]; [discriminate|discriminate|].
  apply bind_inv in H. destruct H as (t1 & r1 & s1 & H1 & H2). injection H1 as <- <- <-. destruct H2 as (t2 & H & ->). cbn [app].
  apply bind_inv in H. destruct H as (t3 & r3 & s3 & H3 & H2). injection H3 as <- <- <-. destruct H2 as (t4 & H & ->). rewrite HW in H.
  destruct (fails w Mkdtemp); [discriminate|].
  apply bind_inv in H. destruct H as (t5 & r5 & s5 & H5 & H2). destruct r5 as [[tmp sums]|]; [|destruct H2 as (_ & X & _); discriminate]. destruct H2 as (t6 & H & ->).
  assert (TMP : s5 = Some (files s) /\ NoDup (map fst tmp) /\ (forall p, valid p = false -> assoc p tmp = None) /\ if want then exists bytes, source_bytes r w bytes sums /\ holds_headers untar tmp bytes else tmp = []).
  { destruct want.
    - apply get_tarball_spec in H5. rewrite HW in H5. destruct H5 as (_ & -> & HX). destruct (HX tmp sums eq_refl) as (A & B & C). auto.
    - injection H5 as _ <- <- <-. split; [reflexivity|]. split; [constructor|]. auto. }
  destruct TMP as (-> & ND & HN & HC).
  destruct (get_lib w) as [lib|] eqn:ELib; [|discriminate]. destruct (fails w WriteVersion); [discriminate|]. destruct (get_sums w) as [expected|] eqn:EG; [|discriminate].
  destruct (sums_match (set_key (lib_path r) (sha lib) sums) expected) eqn:EM; [|discriminate]. destruct (fails w CopyStart); [discriminate|].
  apply bind_inv in H. destruct H as (t7 & r7 & s7 & H7 & H8). destruct r7 as [[]|]; [|destruct H8 as (_ & X & _); discriminate]. destruct H8 as (t8 & H8 & ->). injection H8 as _ <-.
  set (all := set_key "installVersion" (version_text r) (set_key (lib_file r) lib tmp)) in *. assert (NDA : NoDup (map fst all)) by (apply set_key_NoDup, set_key_NoDup, ND).
  assert (NDO : NoDup (map fst (list_order w all))) by (eapply Permutation_NoDup; [apply Permutation_map, Permutation_sym, HO|exact NDA]).
  apply copy_files_spec in H7; [|exact HB|exact NDO]. destruct H7 as (d & -> & HA). exists d. split; [reflexivity|].
  assert (HA' : forall p, assoc p d = match assoc p all with Some c => Some c | None => assoc p (files s) end) by (intros p; rewrite HA; rewrite (assoc_perm _ (list_order w all) all p NDO (HO all)); reflexivity).
  clear HA. apply get_sums_Some in EG. destruct EG as (text & ET & ->). apply get_lib_Some in ELib. split; [|split].
  - exists (version_text r). split; [rewrite HA'; unfold all; rewrite assoc_set_same; reflexivity|apply version_whole, Hn].
  - destruct want.
    + destruct HC as (bytes & HS & HH). exists bytes. split.
      * apply (source_verified r w bytes sums (set_key (lib_path r) (sha lib) sums) text); [exact HS|exact ET|exact EM|]. intros x HI. unfold source_bytes in HS. destruct (local_tarball r); [destruct HS as [_ ->]; destruct HI|]. destruct HS as [_ ->]. destruct HI as [<-|[]].
        cbn [set_key]. destruct (String.eqb_spec (lib_path r) (tar_name r)) as [E|]; [congruence|left; reflexivity].
      * destruct HH as [HSA HH]. split; [exact HSA|]. intros p c HP HAr. rewrite HA'. unfold all. rewrite !assoc_set. pose proof (proj2 (valid_iff p) HP) as HV.
        destruct (String.eqb_spec "installVersion" p) as [<-|]; [rewrite version_not_valid in HV; discriminate|]. destruct (String.eqb_spec (lib_file r) p) as [<-|]; [rewrite lib_not_valid in HV; discriminate|]. rewrite (HH p c HP HAr). reflexivity.
    + intros p N1 N2. rewrite HA'. unfold all. rewrite HC, !assoc_set. destruct (String.eqb_spec "installVersion" p); [congruence|]. destruct (String.eqb_spec (lib_file r) p); [congruence|]. reflexivity.
  - intros _. exists lib. split.
    + split; [exact ELib|]. exists text. split; [exact ET|]. apply expected_listed. apply (sums_match_In _ _ _ _ EM). apply assoc_In, assoc_set_same.
    + rewrite HA'. unfold all. rewrite assoc_set_other by (intros X; apply (lib_not_version r); congruence). rewrite assoc_set_same. reflexivity.
Qed.

Lemma go_fallback : forall r w want s t s', go sha untar r w want s = (t, Some Fallback, s') -> t = [] /\ s' = s.
Proof.
  intros r w want s t s' H. unfold go in H. destruct (fails w Mkdir) as [[|]|]; [injection H as <- <-; auto|discriminate|]. exfalso.
  apply bind_inv in H. destruct H as (t1 & r1 & s1 & H1 & H2). injection H1 as <- <- <-. destruct H2 as (t2 & H & _).
  apply bind_inv in H. destruct H as (t3 & r3 & s3 & H3 & H2). injection H3 as <- <- <-. destruct H2 as (t4 & H & _). destruct (win r).
  - destruct (fails w Mkdtemp); [discriminate|]. apply bind_inv in H. destruct H as (t5 & r5 & s5 & H5 & H2). destruct r5 as [[tmp sums]|]; [|destruct H2 as (_ & X & _); discriminate]. destruct H2 as (t6 & H & _).
    destruct (get_lib w); [|discriminate]. destruct (fails w WriteVersion); [discriminate|]. destruct (get_sums w); [|discriminate]. destruct (sums_match _ _); [|discriminate]. destruct (fails w CopyStart); [discriminate|].
    apply bind_inv in H. destruct H as (t7 & r7 & s7 & H7 & H8). destruct r7; [|destruct H8 as (_ & X & _); discriminate]. destruct H8 as (t8 & X & _). discriminate.
  - apply bind_inv in H. destruct H as (t5 & r5 & s5 & H5 & H2). destruct r5 as [x|]; [|destruct H2 as (_ & X & _); discriminate]. destruct H2 as (t6 & H & _). destruct (local_tarball r).
    + apply bind_inv in H. destruct H as (t7 & r7 & s7 & H7 & H8). destruct r7; [|destruct H8 as (_ & X & _); discriminate]. destruct H8 as (t8 & X & _). discriminate.
    + destruct (get_sums w) as [e|].
      * apply bind_inv in H. destruct H as (t7 & r7 & s7 & H7 & H8). destruct r7; [|destruct H8 as (_ & X & _); discriminate]. destruct H8 as (t8 & X & _). destruct (sums_match _ _); discriminate.
      * destruct (sums_first w); [discriminate|]. apply bind_inv in H. destruct H as (t7 & r7 & s7 & H7 & H8). destruct r7; [|destruct H8 as (_ & X & _); discriminate]. destruct H8 as (t8 & X & _). discriminate.
Qed.

Lemma rm_files_end : forall w ps n s t s', rm_files w n ps s = (t, Some tt, s') -> s' = None.
Proof.
  intros w ps. induction ps as [|p ps IH]; intros n s t s' H; cbn [rm_files] in H; [injection H as <- <-; reflexivity|]. destruct (fails w (Rm n)); [discriminate|].
  apply bind_inv in H. destruct H as (t1 & r1 & s1 & H1 & H2). injection H1 as <- <- <-. destruct H2 as (t2 & H & ->). apply bind_inv in H. destruct H as (t3 & r3 & s3 & H3 & H2). injection H3 as <- <- <-. destruct H2 as (t4 & H & ->). apply IH in H. exact H.
Qed.
Lemma remove_end : forall w s t s', remove w s = (t, Some tt, s') -> s' = None.
Proof.
  intros w s t s' H. unfold remove in H. destruct (fails w StatRemove); [discriminate|]. apply bind_inv in H. destruct H as (t1 & r1 & s1 & H1 & H2). injection H1 as <- <- <-. destruct H2 as (t2 & H & ->).
  destruct s as [d|]; [apply rm_files_end in H; exact H|injection H as <- <-; reflexivity].
Qed.

(** ** Whole runs *)
Lemma roll_back_inv : forall r w want s t o s', go_or_roll_back sha untar r w want s = (t, Some o, s') ->
  (o = Done /\ go sha untar r w want s = (t, Some Installed, s')) \/ (o = ElseWhere /\ s' = s) \/ (o = Threw /\ s' = None) \/ o = NotRolledBack.
Proof.
  intros r w want s t o s' H. unfold go_or_roll_back in H. destruct (go sha untar r w want s) as [[t1 x] s1] eqn:EG. destruct x as [[|]|].
  - injection H as <- <- <-. auto.
  - injection H as <- <- <-. apply go_fallback in EG. destruct EG as [_ ->]. auto.
  - destruct (remove w s1) as [[t2 y] s2] eqn:ER. injection H as <- <- <-. destruct y as [[]|]; [|auto]. apply remove_end in ER. subst. auto.
Qed.
Lemma install_inv : forall r w s t o s', install sha untar r w s = (t, Some o, s') ->
  (t = [] /\ s' = s /\ (o = ElseWhere \/ o = Threw \/ (o = Skipped /\ ensure r = true /\ exists d, s = Some d /\ (needed r <= version_of d)%Z /\ (win r = true -> has_key (arch r ++ "/node.lib") d = true)))) \/
  go_or_roll_back sha untar r w true s = (t, Some o, s') \/
  (win r = true /\ ensure r = true /\ (exists d, s = Some d /\ (needed r <= version_of d)%Z) /\ go_or_roll_back sha untar r w false s = (t, Some o, s')).
Proof.
  intros r w s t o s' H. unfold install in H. destruct (ensure r); [|auto]. destruct (fails w StatDev) as [[|]|]; [injection H as <- <- <-; auto 8|injection H as <- <- <-; auto 8|]. destruct s as [d|]; [|auto].
  destruct (fails w ReadVersion); [injection H as <- <- <-; auto 8|]. destruct (Z.ltb_spec (version_of d) (needed r)) as [L|L]; [auto|]. destruct (win r).
  - destruct (fails w StatLib) as [[|]|]; [injection H as <- <- <-; auto 8|injection H as <- <- <-; auto 8|]. destruct (has_key (arch r ++ "/node.lib") d) eqn:EK.
    + injection H as <- <- <-. left. split; [reflexivity|]. split; [reflexivity|]. right. right. split; [reflexivity|]. split; [reflexivity|]. exists d. auto.
    + right. right. split; [reflexivity|]. split; [reflexivity|]. split; [exists d; auto|exact H].
  - injection H as <- <- <-. left. split; [reflexivity|]. split; [reflexivity|]. right. right. split; [reflexivity|]. split; [reflexivity|]. exists d. split; [reflexivity|]. split; [exact L|discriminate].
Qed.

Lemma installed_spec : forall r w s t s', (0 < needed r)%Z -> undisturbed w -> lib_path r <> tar_name r -> install sha untar r w s = (t, Some Done, s') ->
  exists d, s' = Some d /\ marked_with d (needed r) /\
    ((exists bytes, verified_source sha r w bytes /\ holds_headers untar d bytes) \/
     (win r = true /\ ensure r = true /\ exists d0 n, s = Some d0 /\ marked_with d0 n /\ (needed r <= n)%Z /\ forall p, p <> lib_file r -> p <> "installVersion" -> assoc p d = assoc p d0)) /\
    (win r = true -> exists lib, verified_lib sha r w lib /\ assoc (lib_file r) d = Some lib).
Proof.
  intros r w s t s' Hn HU HL H. apply install_inv in H. destruct H as [(_ & _ & [X|[X|(X & _)]])|[H|(HW & HE & (d0 & -> & HV) & H)]]; try discriminate X.
  - apply roll_back_inv in H. destruct H as [(_ & H)|[(X & _)|[(X & _)|X]]]; try discriminate X. destruct (win r) eqn:HW.
    + apply go_windows in H; auto. destruct H as (d & -> & A & B & C). exists d. rewrite HW in C. auto.
    + apply go_posix in H; auto. destruct H as (d & -> & (A & B & C) & _). exists d. split; [reflexivity|]. split; [exact A|]. split; [auto|discriminate].
  - apply roll_back_inv in H. destruct H as [(_ & H)|[(X & _)|[(X & _)|X]]]; try discriminate X. apply go_windows in H; auto. destruct H as (d & -> & A & B & C). exists d. split; [reflexivity|]. split; [exact A|]. split; [|exact C].
    right. split; [exact HW|]. split; [exact HE|]. exists d0, (version_of d0). split; [reflexivity|]. split; [apply version_of_iff; [lia|reflexivity]|]. split; [exact HV|exact B].
Qed.

Lemma failed_spec : forall r w s t o s', (0 < needed r)%Z -> install sha untar r w s = (t, Some o, s') ->
  (o = Threw -> s' = None \/ s' = s) /\ (o = ElseWhere -> s' = s) /\
  (o = Skipped -> s' = s /\ t = [] /\ ensure r = true /\ exists d n, s = Some d /\ marked_with d n /\ (needed r <= n)%Z).
Proof.
  intros r w s t o s' Hn H. apply install_inv in H. destruct H as [(-> & -> & HO)|[H|(_ & _ & _ & H)]].
  - destruct HO as [->|[->|(-> & HE & d & -> & HV & _)]]; (split; [|split]); try discriminate; auto. intros _. split; [reflexivity|]. split; [reflexivity|]. split; [exact HE|]. exists d, (version_of d). split; [reflexivity|]. split; [apply version_of_iff; [lia|reflexivity]|exact HV].
  - apply roll_back_inv in H. destruct H as [(-> & _)|[(-> & ->)|[(-> & ->)| ->]]]; (split; [|split]); try discriminate; auto.
  - apply roll_back_inv in H. destruct H as [(-> & _)|[(-> & ->)|[(-> & ->)| ->]]]; (split; [|split]); try discriminate; auto.
Qed.

Lemma skips_spec : forall r w d n, ensure r = true -> fails w StatDev = None -> fails w ReadVersion = None -> fails w StatLib = None -> (0 < n)%Z -> marked_with d n -> (needed r <= n)%Z ->
  (win r = true -> exists lib, assoc (arch r ++ "/node.lib") d = Some lib) -> install sha untar r w (Some d) = ([], Some Skipped, Some d).
Proof.
  intros r w d n HE F1 F2 F3 Hn HM HL HW. unfold install. rewrite HE, F1, F2, F3. apply version_of_iff in HM; [|exact Hn]. destruct (Z.ltb_spec (version_of d) (needed r)); [lia|]. destruct (win r); [|reflexivity].
  destruct (HW eq_refl) as (lib & EL). apply assoc_In in EL. assert (X : has_key (arch r ++ "/node.lib") d = true) by (apply mem_In, in_map_iff; exists (arch r ++ "/node.lib", lib); auto).
  rewrite X. reflexivity.
Qed.

Lemma history_spec : forall genuine s, history sha untar genuine s -> forall d, s = Some d -> marked d -> exists bytes, genuine bytes /\ holds_headers untar d bytes.
Proof.
  intros genuine s H. induction H as [|s r w t o s' _ IH (Hn & HU & HL & HG & HT) HI HNR|s w t s' _ _ HR|s r w t o s' d' _ _ _ _ NM|s w t o s' d' _ _ _ _ NM|s r w t s' k _ IH (Hn & HU & HL & HG & HT) HW NM HI HK]; intros d E HM.
  - discriminate.
  - destruct o.
    + apply installed_spec in HI; auto. destruct HI as (d1 & -> & _ & HD & _). injection E as <-. destruct HD as [(bytes & HV & HH)|(_ & _ & d0 & n & -> & HM0 & HN & HS)].
      * exists bytes. split; [|exact HH]. unfold verified_source in HV. destruct (local_tarball r); [subst; auto|]. destruct HV as (_ & text & ET & HLst). apply (HG text); assumption.
      * destruct (IH d0 eq_refl) as (bytes & HGn & HH); [exists n; split; [lia|exact HM0]|]. exists bytes. split; [exact HGn|]. apply (holds_same d0); [exact HH|]. intros p HV. apply HS.
        -- intros ->. rewrite lib_not_valid in HV. discriminate.
        -- intros ->. rewrite version_not_valid in HV. discriminate.
    + apply failed_spec in HI; [|exact Hn]. destruct HI as (_ & _ & HS). destruct (HS eq_refl) as (-> & _). apply (IH d E HM).
    + apply failed_spec in HI; [|exact Hn]. destruct HI as (_ & HS & _). rewrite (HS eq_refl) in E. apply (IH d E HM).
    + apply failed_spec in HI; [|exact Hn]. destruct HI as (HS & _). destruct (HS eq_refl) as [->| ->]; [discriminate|]. apply (IH d E HM).
    + congruence.
  - apply remove_end in HR. subst. discriminate.
  - injection E as <-. contradiction.
  - injection E as <-. contradiction.
  - subst k. pose proof HI as HI'. apply install_inv in HI. destruct HI as [(_ & _ & [X|[X|(X & _)]])|[HI|(X & _)]]; try discriminate X; [|congruence].
    apply roll_back_inv in HI. destruct HI as [(_ & HI)|[(X & _)|[(X & _)|X]]]; try discriminate X. apply go_posix in HI; auto. destruct HI as (d1 & -> & (_ & (bytes & HV & HH) & _) & t1 & d2 & -> & HF).
    apply in_app_or in HK. destruct HK as [HK|[HK|[HK|[]]]].
    + exfalso. rewrite Forall_forall in HF. destruct (HF _ HK) as (d3 & [= <-] & HKeep). destruct s as [d0|].
      * apply (NM d0 eq_refl). apply marked_iff. apply marked_iff in HM. pose proof (HKeep "installVersion" version_not_valid) as HK2. cbn [files] in HK2. unfold version_of in *. rewrite HK2 in HM. exact HM.
      * apply marked_iff in HM. unfold version_of in HM. rewrite (HKeep "installVersion" version_not_valid) in HM. cbn in HM. lia.
    + exfalso. injection HK as <-. apply marked_iff in HM. unfold version_of in HM. rewrite assoc_set_same in HM. cbn in HM. lia.
    + injection HK as <-. exists bytes. split; [|exact HH]. unfold verified_source in HV. destruct (local_tarball r); [subst; auto|]. destruct HV as (_ & text & ET & HLst). apply (HG text); assumption.
Qed.
End Proofs.
