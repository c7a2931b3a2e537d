(** Proofs about the selection of a version and the script that sets up its compiler. *)
From Verif Require Import Lib Str Model_Path Model_Vcxproj Model_VsVersion Spec_VsVersion Proof_VsVersion.
Local Open Scope string_scope.

Definition paired (ys vs : list string) : Prop := Forall2 (fun y v => In (y, v) numbers) ys vs.
Ltac pairs := unfold paired, preference; repeat apply Forall2_cons; try apply Forall2_nil; cbn [numbers In]; repeat first [left; reflexivity|right].
Lemma map_sought a ls : assoc a version_map = Some ls -> exists ys, sought a ys (has_char "e" a) /\ paired ys ls.
Proof.
  intros H. apply assoc_in in H. cbn [version_map In] in H.
  destruct H as [H|H]; [injection H as <- <-; exists preference; split; [exact sought_auto|pairs]|].
  repeat (destruct H as [H|H]; [injection H as <- <-;
    first [eexists; split; [apply sought_full; cbn [preference In]; repeat first [left; reflexivity|right]; fail|pairs; fail]
          |match goal with |- exists ys, sought ?n _ _ /\ _ => let y := eval vm_compute in (substring 0 4 n) in
             exists [y]; split; [exact (sought_express y ltac:(cbn [In]; tauto))|pairs] end]|]).
  destruct H.
Qed.
Lemma sought_map a ys ex : sought a ys ex -> exists ls, assoc a version_map = Some ls /\ ex = has_char "e" a /\ paired ys ls.
Proof.
  intros H. destruct H as [|y H|y H].
  - eexists. split; [reflexivity|]. split; [reflexivity|pairs].
  - cbn [preference In] in H. repeat (destruct H as [H|H]; [subst y; eexists; split; [reflexivity|]; split; [reflexivity|pairs]|]). destruct H.
  - cbn [In] in H. repeat (destruct H as [H|H]; [subst y; eexists; split; [reflexivity|]; split; [reflexivity|pairs]|]). destruct H.
Qed.

Lemma paired_in ys ls : paired ys ls -> (forall v, In v ls -> exists y, In y ys /\ In (y, v) numbers) /\ (forall y, In y ys -> exists v, In v ls /\ In (y, v) numbers).
Proof.
  intros H. induction H as [|y v ys ls P H [IH1 IH2]]; [split; intros ? []|]. split.
  - intros u [<-|U]; [exists y; split; [left; reflexivity|exact P]|]. destruct (IH1 u U) as [z [Z Q]]. exists z; split; [right; exact Z|exact Q].
  - intros u [<-|U]; [exists v; split; [left; reflexivity|exact P]|]. destruct (IH2 u U) as [z [Z Q]]. exists z; split; [right; exact Z|exact Q].
Qed.

Section Detect.
Variables (m : machine) (ex : bool).
Lemma detect_none ys ls : paired ys ls -> (detect m ex ls = None <-> exists y n w s, In y ys /\ installed m ex y n w s /\ ~ In n known).
Proof.
  intros P. destruct (paired_in _ _ P) as [P1 P2]. unfold detect. rewrite all_none. split.
  - intros [v [V D]]. destruct (P1 v V) as [y [Y Q]]. destruct (proj1 (one_none m ex y v Q) D) as [n [w [s [I N]]]]. exists y, n, w, s. tauto.
  - intros [y [n [w [s [Y [I N]]]]]]. destruct (P2 y Y) as [v [V Q]]. exists v. split; [exact V|]. apply (one_none m ex y v Q). exists n, w, s. tauto.
Qed.
Lemma detect_nil ys ls : paired ys ls -> detect m ex ls = Some [] -> forall y n w s, In y ys -> ~ installed m ex y n w s.
Proof.
  intros P D y n w s Y. destruct (paired_in _ _ P) as [_ P2]. destruct (P2 y Y) as [v [V Q]].
  apply (one_nil m ex y v Q). exact (all_nil _ _ D v V).
Qed.
Lemma detect_head ys ls x o : paired ys ls -> detect m ex ls = Some (x :: o) ->
  exists better y worse n w s, ys = (better ++ y :: worse)%list /\ installed m ex y n w s /\ is_version x n (Some w) s /\
    (s = true -> forall n' w', ~ installed m ex y n' w' false) /\
    forall y' n' w' s', In y' better -> ~ installed m ex y' n' w' s'.
Proof.
  intros P D. apply all_head in D as [l1 [v [l2 [o' [-> [D N]]]]]].
  apply Forall2_app_inv_r in P as [better [t [P1 [P2 ->]]]]. inversion P2 as [|y ? worse ? Q P3]; subst.
  destruct (one_head m ex y v Q x o' D) as [n [w [s [I [X S']]]]].
  exists better, y, worse, n, w, s. split; [reflexivity|]. split; [exact I|]. split; [exact X|]. split; [exact S'|].
  intros y' n' w' s' B. destruct (paired_in _ _ P1) as [_ R]. destruct (R y' B) as [v' [V' Q']].
  apply (one_nil m ex y' v' Q'). exact (N v' V').
Qed.
End Detect.

Lemma select_plain m env version fb : no_override env -> select m env version fb =
  let a := asked env version in
  match assoc a version_map with
  | None => Key_error
  | Some l => match detect m (has_char "e" a) l with
              | None => Key_error
              | Some (x :: _) => Selected x
              | Some [] => if negb fb then Value_error "Could not locate Visual Studio installation."
                           else if String.eqb a "auto" then created (create_version "2005" None false) else created (create_version a None false)
              end
  end.
Proof. intros [H|H]; unfold select, asked; rewrite H; reflexivity. Qed.
Lemma fallback_name a ys ex : sought a ys ex -> In (if String.eqb a "auto" then "2005" else a) known.
Proof.
  intros H. destruct H as [|y H|y H].
  - cbn. tauto.
  - cbn [preference In] in H. repeat (destruct H as [H|H]; [subst y; cbn; tauto|]). destruct H.
  - cbn [In] in H. repeat (destruct H as [H|H]; [subst y; cbn; tauto|]). destruct H.
Qed.
Lemma create_fallback a ys ex : sought a ys ex -> exists x,
  (if String.eqb a "auto" then created (create_version "2005" None false) else created (create_version a None false)) = Selected x /\
  is_version x (if String.eqb a "auto" then "2005" else a) None false.
Proof.
  intros H. apply fallback_name in H. destruct (create_known _ None false H) as [x X].
  exists x. split; [|apply create_some; [discriminate|exact X]]. destruct (String.eqb a "auto"); rewrite X; reflexivity.
Qed.

Lemma selected m env version fb x : no_override env -> select m env version fb = Selected x ->
  exists years express, sought (asked env version) years express /\
  ((exists better y worse n w s, years = (better ++ y :: worse)%list /\ installed m express y n w s /\ is_version x n (Some w) s /\
      (s = true -> forall n' w', ~ installed m express y n' w' false) /\
      forall y' n' w' s', In y' better -> ~ installed m express y' n' w' s') \/
   fb = true /\ (forall y n w s, In y years -> ~ installed m express y n w s) /\
   is_version x (if String.eqb (asked env version) "auto" then "2005" else asked env version) None false).
Proof.
  intros O. rewrite (select_plain _ _ _ _ O). cbv zeta. destruct (assoc (asked env version) version_map) as [ls|] eqn:A; [|discriminate].
  destruct (map_sought _ _ A) as [ys [S' P]].
  destruct (detect m (has_char "e" (asked env version)) ls) as [[|z o]|] eqn:D; [| |discriminate].
  - destruct fb; cbn [negb]; [|discriminate]. intros H. exists ys, (has_char "e" (asked env version)). split; [exact S'|]. right.
    split; [reflexivity|]. split; [exact (detect_nil _ _ _ _ P D)|].
    destruct (create_fallback _ _ _ S') as [x' [E X]]. rewrite E in H. injection H as <-. exact X.
  - intros H; injection H as ->. exists ys, (has_char "e" (asked env version)). split; [exact S'|]. left. exact (detect_head _ _ _ _ _ _ P D).
Qed.
Lemma key_error m env version fb : no_override env -> (select m env version fb = Key_error <->
  (forall years express, ~ sought (asked env version) years express) \/
  exists years express y n w s, sought (asked env version) years express /\ In y years /\ installed m express y n w s /\ ~ In n known).
Proof.
  intros O. rewrite (select_plain _ _ _ _ O). cbv zeta. destruct (assoc (asked env version) version_map) as [ls|] eqn:A.
  - destruct (map_sought _ _ A) as [ys [S' P]]. split.
    + destruct (detect m (has_char "e" (asked env version)) ls) as [[|z o]|] eqn:D.
      * destruct fb; cbn [negb]; [|discriminate]. destruct (create_fallback _ _ _ S') as [x' [E _]]. rewrite E. discriminate.
      * discriminate.
      * intros _. right. apply (proj1 (detect_none _ _ _ _ P)) in D as [y [n [w [s H]]]]. exists ys, (has_char "e" (asked env version)), y, n, w, s. tauto.
    + intros [H|[ys' [ex' [y [n [w [s [S2 [Y [I N]]]]]]]]]]; [elim (H _ _ S')|].
      destruct (sought_map _ _ _ S2) as [ls' [A' [-> P']]]. rewrite A in A'. injection A' as <-.
      rewrite (proj2 (detect_none _ _ _ _ P')); [reflexivity|]. exists y, n, w, s. tauto.
  - split; [|reflexivity]. intros _. left. intros ys ex S2. destruct (sought_map _ _ _ S2) as [ls' [A' _]]. congruence.
Qed.
Lemma overridden m env version fb v p : env "GYP_MSVS_OVERRIDE_PATH" = Some p -> p <> "" -> env "GYP_MSVS_VERSION" = Some v -> v <> "" ->
  if (mem v known : bool) then exists x, select m env version fb = Selected x /\ is_version x v (Some p) true else select m env version fb = Key_error.
Proof.
  intros P Np V Nv.
  assert (E : select m env version fb = created (create_version v (Some p) true)).
  { unfold select. rewrite P, V. destruct (String.eqb_spec p "") as [->|_]; [elim Np; reflexivity|]. cbn [negb]. destruct v; [elim Nv; reflexivity|reflexivity]. }
  rewrite E. destruct (mem v known) eqn:M.
  - assert (K : In v known) by (apply existsb_exists in M as [u [U W]]; apply String.eqb_eq in W; subst; exact U).
    destruct (create_known v (Some p) true K) as [x X]. exists x. rewrite X. split; [reflexivity|]. apply create_some; [congruence|exact X].
  - rewrite (proj2 (create_none v (Some p) true)); [reflexivity|]. intros K.
    assert (T : mem v known = true) by (apply existsb_exists; exists v; split; [exact K|apply String.eqb_refl]). congruence.
Qed.

(** ** the script *)
Definition is64 (env : string -> option string) : bool :=
  (match env "PROCESSOR_ARCHITECTURE" with Some a => String.eqb a "AMD64" | None => false end ||
   match env "PROCESSOR_ARCHITEW6432" with Some a => String.eqb a "AMD64" | None => false end).
Lemma is64_spec env b : (b = true <-> sixty_four env) -> is64 env = b.
Proof.
  intros H. apply Bool.eq_iff_eq_true. rewrite H. unfold is64, sixty_four. rewrite orb_true_iff.
  destruct (env "PROCESSOR_ARCHITECTURE") as [a|], (env "PROCESSOR_ARCHITEW6432") as [c|]; rewrite ?String.eqb_eq;
    split; intros [X|X]; first [discriminate X|left; congruence|right; congruence].
Qed.
Lemma setenv_dec m env : let d := match env "WindowsSDKDir" with Some d => d | None => "" end in
  negb (String.eqb d "") && exists_path m (join_path [d; "Bin"; "SetEnv.Cmd"]) = true <-> has_setenv m env (join_path [d; "Bin"; "SetEnv.Cmd"]).
Proof.
  cbv zeta. unfold has_setenv. destruct (env "WindowsSDKDir") as [d|].
  - rewrite andb_true_iff, negb_true_iff, String.eqb_neq. split.
    + intros [H1 H2]. exists d. split; [exact H1|]. split; [reflexivity|]. split; [reflexivity|exact H2].
    + intros [d' [H1 [H2 [_ H3]]]]. injection H2 as <-. split; [exact H1|exact H3].
  - split; [discriminate|intros [d' [_ [X _]]]; discriminate X].
Qed.
Lemma script_sdk m env x target s : In target ["x86"; "x64"] -> sdk_based x = true -> has_setenv m env s ->
  setup_script m env x target = Runs [s; "/" ++ target].
Proof.
  intros T B H. pose proof H as [d [Nd [E [-> F]]]]. unfold setup_script, setup_internal. rewrite E, B.
  assert (M : mem target ["x86"; "x64"] = true) by (destruct T as [<-|[<-|[]]]; reflexivity). rewrite M. cbn [negb].
  apply String.eqb_neq in Nd. rewrite Nd. cbn [negb andb].
  change (join_path [d; "Bin"; "SetEnv.Cmd"]) with (in_dir d ["Bin"; "SetEnv.Cmd"]). rewrite F, F. reflexivity.
Qed.
Lemma script_plain m env x target host64 : In target ["x86"; "x64"] -> In (short_name x) known -> (host64 = true <-> sixty_four env) ->
  sdk_based x = false \/ (forall s, ~ has_setenv m env s) ->
  setup_script m env x target = match path x with None => Type_err | Some p => provided m (script_for (short_name x) host64 target p) end.
Proof.
  intros T K H64 NS. apply is64_spec in H64.
  assert (C : sdk_based x && negb (String.eqb match env "WindowsSDKDir" with Some d => d | None => "" end "") &&
     exists_path m (join_path [match env "WindowsSDKDir" with Some d => d | None => "" end; "Bin"; "SetEnv.Cmd"]) = false).
  { destruct NS as [->|NS]; [reflexivity|]. rewrite <- andb_assoc. apply andb_false_iff. right.
    apply not_true_is_false. intros X. apply (proj1 (setenv_dec m env)) in X. exact (NS _ X). }
  assert (M : mem target ["x86"; "x64"] = true) by (destruct T as [<-|[<-|[]]]; reflexivity).
  unfold setup_script, setup_internal. rewrite M. cbn [negb]. rewrite C. fold (is64 env). rewrite H64.
  destruct (path x) as [p|]; [|reflexivity].
  cbn [known In] in K. destruct T as [<-|[<-|[]]], host64;
    repeat (destruct K as [K|K]; [rewrite <- K; reflexivity|]); destruct K.
Qed.
Lemma script_bad m env x target : ~ In target ["x86"; "x64"] -> setup_script m env x target = Assertion.
Proof.
  intros H. unfold setup_script, setup_internal. destruct (mem target ["x86"; "x64"]) eqn:M; [|reflexivity].
  elim H. apply existsb_exists in M as [u [U W]]; apply String.eqb_eq in W; subst; exact U.
Qed.

Lemma configured m env version fb year p : In year ["2013"; "2015"; "2017"; "2019"; "2022"] -> p <> "" ->
  exists x, select m (configure_env year p env) version fb = Selected x /\ is_version x (if String.eqb year "2013" then "2013" else "2015") (Some p) true.
Proof.
  intros Y Np.
  assert (V : configure_env year p env "GYP_MSVS_VERSION" = Some (if String.eqb year "2013" then "2013" else "2015"))
    by (cbn [In] in Y; repeat (destruct Y as [Y|Y]; [subst year; reflexivity|]); destruct Y).
  pose proof (overridden m (configure_env year p env) version fb (if String.eqb year "2013" then "2013" else "2015") p eq_refl Np V) as H.
  destruct (String.eqb year "2013"); apply H; discriminate.
Qed.

Lemma value_error m env version fb : no_override env ->
  ((exists s, select m env version fb = Value_error s) <->
   fb = false /\ exists years express, sought (asked env version) years express /\ forall y n w s, In y years -> ~ installed m express y n w s).
Proof.
  intros O. split.
  - rewrite (select_plain _ _ _ _ O). cbv zeta. intros [msg H]. destruct (assoc (asked env version) version_map) as [ls|] eqn:A; [|discriminate].
    destruct (map_sought _ _ A) as [ys [S' P]].
    destruct (detect m (has_char "e" (asked env version)) ls) as [[|z o]|] eqn:D; [|discriminate|discriminate].
    destruct fb; cbn [negb] in H.
    + destruct (create_fallback _ _ _ S') as [x' [E _]]. rewrite E in H. discriminate.
    + split; [reflexivity|]. exists ys, (has_char "e" (asked env version)). split; [exact S'|exact (detect_nil _ _ _ _ P D)].
  - intros [-> [ys [ex [S' N]]]]. rewrite (select_plain _ _ _ _ O). cbv zeta.
    destruct (sought_map _ _ _ S') as [ls [A [-> P]]]. rewrite A.
    destruct (detect m (has_char "e" (asked env version)) ls) as [[|z o]|] eqn:D.
    + eexists; reflexivity.
    + destruct (detect_head _ _ _ _ _ _ P D) as [b [y [c [n [w [s [E [I _]]]]]]]].
      elim (N y n w s); [rewrite E; apply in_elt|exact I].
    + apply (proj1 (detect_none _ _ _ _ P)) in D as [y [n [w [s [Y [I _]]]]]]. elim (N y n w s Y I).
Qed.
Lemma override_needs m env version fb p : env "GYP_MSVS_OVERRIDE_PATH" = Some p -> p <> "" -> env "GYP_MSVS_VERSION" = None \/ env "GYP_MSVS_VERSION" = Some "" ->
  exists s, select m env version fb = Value_error s.
Proof.
  intros P Np V. unfold select. rewrite P. destruct (String.eqb_spec p "") as [->|_]; [elim Np; reflexivity|]. cbn [negb].
  destruct V as [->| ->]; eexists; reflexivity.
Qed.
