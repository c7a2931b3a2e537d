From Verif Require Import Lib LibFacts Model_Memo Model_Graph Proof_Graph.

Section MemoProofs.
  Variables Arg Res Exn : Type.
  Variable dec : forall x y : Arg, {x = y} + {x <> y}.
  Variable f : Arg -> Res + Exn.

  Definition cache_ok (c : list (Arg * Res)) : Prop := forall a r, cache_get _ _ dec a c = Some r -> f a = inl r.

  Lemma memo_results : forall calls m, cache_ok (m_cache _ _ m) ->
    snd (memo_run _ _ _ dec f m calls) = map f calls.
  Proof.
    induction calls as [|a cs IH]; intros m H; cbn [memo_run]; [reflexivity|].
    unfold memo_call. destruct (cache_get _ _ dec a (m_cache _ _ m)) as [r|] eqn:E.
    - specialize (IH m H). destruct (memo_run _ _ _ dec f m cs) as [m2 rs]. cbn in *. rewrite (H a r E), IH. reflexivity.
    - destruct (f a) as [r|e] eqn:Ef.
      + set (m1 := mk_memo Arg Res ((a, r) :: m_cache _ _ m) (m_log _ _ m ++ [a])).
        assert (H1 : cache_ok (m_cache _ _ m1)).
        { intros b rb. cbn. destruct (dec b a) as [->|]; [intros X; congruence|apply H]. }
        specialize (IH m1 H1). destruct (memo_run _ _ _ dec f m1 cs) as [m2 rs]. cbn in *. rewrite Ef, IH. reflexivity.
      + set (m1 := mk_memo Arg Res (m_cache _ _ m) (m_log _ _ m ++ [a])).
        specialize (IH m1 H). destruct (memo_run _ _ _ dec f m1 cs) as [m2 rs]. cbn in *. rewrite Ef, IH. reflexivity.
  Qed.

  (** Successful calls are logged at most once per argument. *)
  Definition ok_arg (a : Arg) : bool := match f a with inl _ => true | inr _ => false end.
  Definition log_ok (m : memo Arg Res) : Prop :=
    cache_ok (m_cache _ _ m) /\ NoDup (filter ok_arg (m_log _ _ m)) /\
    forall a, In a (filter ok_arg (m_log _ _ m)) -> cache_get _ _ dec a (m_cache _ _ m) <> None.

  Lemma memo_log : forall calls m, log_ok m -> log_ok (fst (memo_run _ _ _ dec f m calls)).
  Proof.
    induction calls as [|a cs IH]; intros m H; cbn [memo_run]; [exact H|].
    assert (H1 : log_ok (fst (memo_call _ _ _ dec f m a))).
    { unfold memo_call. destruct (cache_get _ _ dec a (m_cache _ _ m)) as [r|] eqn:E; [exact H|].
      destruct H as [H1 [H2 H3]]. destruct (f a) as [r|e] eqn:Ef; cbn; unfold log_ok; cbn [m_cache m_log]; split; try split.
      - intros b rb. cbn. destruct (dec b a) as [->|]; [intros X; congruence|apply H1].
      - rewrite filter_app. cbn. unfold ok_arg at 2. rewrite Ef. apply NoDup_snoc; [exact H2|]. intros C. apply (H3 a C E).
      - intros b Hb. cbn. destruct (dec b a); [discriminate|]. apply H3. rewrite filter_app in Hb. cbn in Hb.
        unfold ok_arg at 2 in Hb. rewrite Ef in Hb. apply in_app_or in Hb. destruct Hb as [Hb|[Hb|[]]]; [exact Hb|congruence].
      - exact H1.
      - rewrite filter_app. cbn. unfold ok_arg at 2. rewrite Ef. rewrite app_nil_r. exact H2.
      - intros b Hb. apply H3. rewrite filter_app in Hb. cbn in Hb. unfold ok_arg at 2 in Hb. rewrite Ef, app_nil_r in Hb. exact Hb. }
    destruct (memo_call _ _ _ dec f m a) as [m1 r]. cbn [fst] in H1. specialize (IH m1 H1).
    destruct (memo_run _ _ _ dec f m1 cs) as [m2 rs]. exact IH.
  Qed.

  Lemma memo_transparent : forall calls,
    snd (memo_run _ _ _ dec f (mk_memo Arg Res [] []) calls) = map f calls /\
    forall a r, f a = inl r -> count_occ dec (m_log _ _ (fst (memo_run _ _ _ dec f (mk_memo Arg Res [] []) calls))) a <= 1.
  Proof.
    intros calls. split; [apply memo_results; intros a r C; discriminate|].
    intros a r Ef. assert (H : log_ok (mk_memo Arg Res [] [])) by (split; [intros b rb C; discriminate|split; [constructor|intros b []]]).
    apply (memo_log calls) in H. destruct H as [_ [H _]].
    set (log := m_log _ _ (fst (memo_run _ _ _ dec f (mk_memo Arg Res [] []) calls))) in *.
    assert (E : count_occ dec log a = count_occ dec (filter ok_arg log) a).
    { clear H. induction log as [|b log IH]; [reflexivity|]. cbn. destruct (dec b a) as [->|Hn].
      - unfold ok_arg at 1. rewrite Ef. cbn. destruct (dec a a); [|congruence]. f_equal. exact IH.
      - destruct (ok_arg b); cbn; [destruct (dec b a); [congruence|]|]; exact IH. }
    rewrite E. apply (NoDup_count_occ dec). exact H.
  Qed.
End MemoProofs.

Section ConditionCacheProofs.
  Variables Code Vars Exn : Type.
  Variable compile : string -> Code + Exn.
  Variable eval : Code -> Vars -> bool + Exn.

  Lemma eval_transparent_gen : forall qs cache,
    (forall s c, assoc s cache = Some c -> compile s = inl c) ->
    eval_run Code Vars Exn compile eval cache qs =
    map (fun q => match compile (fst q) with inl c => eval c (snd q) | inr e => inr e end) qs.
  Proof.
    induction qs as [|q qs IH]; intros cache H; cbn [eval_run map]; [reflexivity|]. unfold eval_cached.
    destruct (assoc (fst q) cache) as [c|] eqn:E; [rewrite (H _ _ E), (IH cache H); reflexivity|].
    destruct (compile (fst q)) as [c|e] eqn:Ec; [|rewrite (IH cache H); reflexivity].
    rewrite IH; [reflexivity|]. intros s c'. cbn. destruct (String.eqb_spec s (fst q)) as [->|]; [intros X; congruence|apply H].
  Qed.

  Lemma eval_transparent : forall qs,
    eval_run Code Vars Exn compile eval [] qs =
    map (fun q => match compile (fst q) with inl c => eval c (snd q) | inr e => inr e end) qs.
  Proof. intros qs. apply eval_transparent_gen. intros s c C; discriminate. Qed.
End ConditionCacheProofs.

Section UniquerProofs.
  Variables Item Marker : Type.
  Variable dec : forall x y : Marker, {x = y} + {x <> y}.
  Variable idfun : Item -> Marker.

  Lemma uniquer_loop_spec : forall seq seen result,
    exists r, uniquer_loop _ _ dec idfun seen result seq = result ++ r /\ sublist r seq /\
      NoDup (map idfun r) /\ (forall x, In x r -> ~ In (idfun x) seen) /\
      (forall x, In x seq -> In (idfun x) seen \/ In (idfun x) (map idfun r)) /\
      (forall l1 x l2, seq = l1 ++ x :: l2 -> ~ In (idfun x) seen -> ~ In (idfun x) (map idfun l1) -> In x r).
  Proof.
    induction seq as [|i seq IH]; intros seen result; cbn [uniquer_loop].
    - exists []. rewrite app_nil_r. split; [reflexivity|]. split; [constructor|]. split; [constructor|]. split; [intros x []|]. split; [intros x []|]. intros [|a l1] x l2 E; discriminate.
    - destruct (in_dec dec (idfun i) seen) as [Hi|Hi].
      + destruct (IH seen result) as [r [E [S [N [D [C F]]]]]]. exists r. split; [exact E|]. split; [constructor; exact S|].
        split; [exact N|]. split; [exact D|]. split.
        * intros x [<-|Hx]; [left; exact Hi|apply C; exact Hx].
        * intros [|a l1] x l2 El H1 H2; cbn [app] in El; inversion El; subst; [contradiction|].
          apply (F l1 x l2 eq_refl H1). intros C'. apply H2. right. exact C'.
      + destruct (IH (idfun i :: seen) (result ++ [i])) as [r [E [S [N [D [C F]]]]]]. exists (i :: r).
        split; [rewrite E, <- app_assoc; reflexivity|]. split; [constructor; exact S|]. split.
        * cbn [map]. constructor; [|exact N]. intros C'. apply in_map_iff in C'. destruct C' as [x [Ex Hx]].
          apply (D x Hx). left. symmetry. exact Ex.
        * split; [|split].
          -- intros x [<-|Hx]; [exact Hi|]. intros C'. apply (D x Hx). right. exact C'.
          -- intros x [<-|Hx]; [right; left; reflexivity|]. destruct (C x Hx) as [[H|H]|H]; [right; left; exact H|left; exact H|right; right; exact H].
          -- intros [|a l1] x l2 El H1 H2; cbn [app] in El; inversion El; subst; [left; reflexivity|].
             right. apply (F l1 x l2 eq_refl).
             ++ intros [C'|C']; [apply H2; left; exact C'|contradiction].
             ++ intros C'. apply H2. right. exact C'.
  Qed.

  Lemma uniquer_spec : forall seq,
    let r := uniquer _ _ dec idfun seq in
    sublist r seq /\ NoDup (map idfun r) /\ (forall x, In x seq -> In (idfun x) (map idfun r)) /\
    (forall l1 x l2, seq = l1 ++ x :: l2 -> ~ In (idfun x) (map idfun l1) -> In x r).
  Proof.
    intros seq. unfold uniquer. destruct (uniquer_loop_spec seq [] []) as [r [E [S [N [D [C F]]]]]]. cbn zeta. rewrite E. cbn [app].
    split; [exact S|]. split; [exact N|]. split.
    - intros x Hx. destruct (C x Hx) as [[]|H]. exact H.
    - intros l1 x l2 El H. apply (F l1 x l2 El); [intros []|exact H].
  Qed.
End UniquerProofs.

(** [Unify] (input.py:1597-1600) and [Filter] (1613-1616). *)
Lemma unify_from_sublist : forall l seen, sublist (unify_from seen l) l.
Proof.
  induction l as [|x l IH]; intros seen; cbn [unify_from]; [constructor|].
  destruct (mem x seen); constructor; apply IH.
Qed.

Lemma unify_from_first : forall l seen l1 x l2, l = l1 ++ x :: l2 -> ~ In x l1 -> ~ In x seen ->
  exists r1 r2, unify_from seen l = r1 ++ x :: r2 /\ (forall y, In y r1 <-> In y l1 /\ ~ In y seen).
Proof.
  induction l as [|a l IH]; intros seen l1 x l2 E H1 H2; [destruct l1; discriminate|].
  destruct l1 as [|b l1]; cbn [app] in E; inversion E; subst; cbn [unify_from].
  - destruct (mem_spec x seen); [contradiction|]. exists [], (unify_from (x :: seen) l2). split; [reflexivity|]. intros y. simpl. tauto.
  - destruct (mem_spec b seen) as [Hb|Hb].
    + destruct (IH seen l1 x l2 eq_refl) as [r1 [r2 [E1 E2]]]; [intros C; apply H1; right; exact C|exact H2|].
      exists r1, r2. split; [exact E1|]. intros y. rewrite E2. simpl. split; [tauto|]. intros [[<-|H] H']; [contradiction|tauto].
    + destruct (IH (b :: seen) l1 x l2 eq_refl) as [r1 [r2 [E1 E2]]].
      * intros C; apply H1; right; exact C.
      * intros [->|C]; [apply H1; left; reflexivity|contradiction].
      * exists (b :: r1), r2. split; [rewrite E1; reflexivity|]. intros y. simpl. rewrite E2. simpl. split.
        -- intros [<-|[H H']]; [tauto|]. split; [right; exact H|tauto].
        -- intros [[<-|H] H']; [left; reflexivity|]. destruct (string_dec b y) as [->|Hn]; [left; reflexivity|right; tauto].
Qed.

Lemma unify_spec : forall l,
  sublist (unify l) l /\ NoDup (unify l) /\ (forall x, In x (unify l) <-> In x l) /\
  (forall l1 x l2, l = l1 ++ x :: l2 -> ~ In x l1 ->
     exists r1 r2, unify l = r1 ++ x :: r2 /\ forall y, In y r1 <-> In y l1).
Proof.
  intros l. split; [apply unify_from_sublist|]. split; [apply unify_from_NoDup|]. split; [intros x; apply unify_In|].
  intros l1 x l2 E H. destruct (unify_from_first l [] l1 x l2 E H) as [r1 [r2 [E1 E2]]]; [intros []|].
  exists r1, r2. split; [exact E1|]. intros y. rewrite E2. simpl. tauto.
Qed.

Lemma filter_out_spec : forall l item,
  sublist (filter_out l item) l /\ (forall x, In x (filter_out l item) <-> In x l /\ x <> item) /\
  (forall x, x <> item -> count_occ string_dec (filter_out l item) x = count_occ string_dec l x).
Proof.
  intros l item. unfold filter_out. split; [apply sublist_filter|]. split.
  - intros x. rewrite filter_In, negb_true_iff, String.eqb_neq. tauto.
  - intros x Hx. induction l as [|y l IH]; [reflexivity|]. cbn [filter]. destruct (String.eqb_spec y item) as [->|Hn]; cbn [negb].
    + cbn [count_occ]. destruct (string_dec item x); [congruence|exact IH].
    + cbn [count_occ]. destruct (string_dec y x); [f_equal; exact IH|exact IH].
Qed.
