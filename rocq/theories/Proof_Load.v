(** Proofs about included files and literals. *)
From Verif Require Import LibFacts Model_Value Model_Load Spec_Load Proof_Merge2 Proof_Filter Proof_Filter2.
Local Open Scope string_scope.

(** ** Included files *)
Section Included.
  Variable aux : list (string * list string).

  Lemma included_sound : forall fuel f acc l, included_build_files fuel aux f acc = Val l ->
    exists new, l = (acc ++ new)%list /\ In f l /\ (NoDup acc -> NoDup l) /\
      (forall x, In x new -> includes_star aux f x) /\
      (forall x y, In x new -> includes aux x y -> In y l) /\
      (forall x, In x new -> In x (map fst aux)) /\
      (~ In f acc -> exists r, new = f :: r).
  Proof.
    induction fuel as [|fuel IH]; intros f acc l H; [discriminate|]. cbn [included_build_files] in H. destruct (mem_spec f acc) as [Hf|Hf].
    - inversion H; subst. exists []. rewrite app_nil_r. split; [reflexivity|]. split; [exact Hf|]. split; [auto|]. split; [intros x []|]. split; [intros x y []|]. split; [intros x []|]. intros N; contradiction.
    - destruct (assoc f aux) as [fs|] eqn:EA; [|discriminate].
      assert (G : forall gs acc0 l0, rfold (fun acc g => included_build_files fuel aux g acc) gs acc0 = Val l0 ->
        exists new, l0 = (acc0 ++ new)%list /\ (forall g, In g gs -> In g l0) /\ (NoDup acc0 -> NoDup l0) /\
          (forall x, In x new -> exists g, In g gs /\ includes_star aux g x) /\
          (forall x y, In x new -> includes aux x y -> In y l0) /\ (forall x, In x new -> In x (map fst aux))).
      { induction gs as [|g gs IHg]; intros acc0 l0 E.
        - inversion E; subst. exists []. rewrite app_nil_r. split; [reflexivity|]. split; [intros g []|]. split; [auto|]. split; [intros x []|]. split; [intros x y []|intros x []].
        - cbn [rfold] in E. apply rbind_Val in E. destruct E as (a1 & E1 & E2). destruct (IH _ _ _ E1) as (n1 & -> & H1 & H2 & H3 & H4 & H5 & _).
          destruct (IHg _ _ E2) as (n2 & -> & K1 & K2 & K3 & K4 & K5). exists (n1 ++ n2)%list. rewrite app_assoc. split; [reflexivity|]. split; [|split; [|split; [|split]]].
          + intros x [<-|Hx]; [apply in_app_iff; left; exact H1|apply K1; exact Hx].
          + intros ND. apply K2, H2, ND.
          + intros x Hx. apply in_app_iff in Hx. destruct Hx as [Hx|Hx]; [exists g; split; [left; reflexivity|apply H3; exact Hx]|].
            destruct (K3 _ Hx) as (g' & Hg & HR). exists g'. split; [right; exact Hg|exact HR].
          + intros x y Hx Hxy. apply in_app_iff in Hx. destruct Hx as [Hx|Hx]; [apply in_app_iff; left; eapply H4; eassumption|eapply K4; eassumption].
          + intros x Hx. apply in_app_iff in Hx. destruct Hx; auto. }
      destruct (G _ _ _ H) as (new & -> & G1 & G2 & G3 & G4 & G5). exists (f :: new). rewrite <- app_assoc. split; [reflexivity|].
      assert (If : In f (acc ++ [f] ++ new)%list) by (apply in_app_iff; right; left; reflexivity).
      rewrite <- app_assoc in *. split; [exact If|]. split; [intros ND; apply G2, NoDup_snoc; assumption|]. split; [|split; [|split]].
      + intros x [<-|Hx]; [apply rt_refl|]. destruct (G3 _ Hx) as (g & Hg & HR). apply rt_trans with g; [apply rt_step; exists fs; auto|exact HR].
      + intros x y [<-|Hx] Hxy; [|eapply G4; eassumption]. destruct Hxy as (fs' & E & Hy). rewrite EA in E. inversion E; subst. apply G1. exact Hy.
      + intros x [<-|Hx]; [|apply G5; exact Hx]. apply assoc_In in EA. apply (in_map fst) in EA. exact EA.
      + intros _. eauto.
  Qed.

  Theorem included_closure : forall fuel f l, included_build_files fuel aux f [] = Val l ->
    NoDup l /\ (exists r, l = f :: r) /\ forall x, In x l <-> includes_star aux f x.
  Proof.
    intros fuel f l H. destruct (included_sound _ _ _ _ H) as (new & -> & H1 & H2 & H3 & H4 & _ & H5). cbn [app] in *.
    split; [apply H2; constructor|]. split; [apply H5; intros []|]. intros x. split; [apply H3|].
    intros HR. apply clos_rt_rtn1 in HR. induction HR as [|y z Hyz HR IH]; [exact H1|]. eapply H4; eassumption.
  Qed.

  (** The recursion is never deeper than the number of known files. *)
  Lemma included_nn : forall fuel f acc, NoDup acc -> incl acc (map fst aux) -> S (length aux) <= fuel + length acc ->
    included_build_files fuel aux f acc <> Exn NoFuel.
  Proof.
    induction fuel as [|fuel IH]; intros f acc ND HI HF.
    - pose proof (NoDup_incl_length ND HI) as L. rewrite map_length in L. lia.
    - cbn [included_build_files]. destruct (mem_spec f acc) as [Hf|Hf]; [discriminate|]. destruct (assoc f aux) as [fs|] eqn:EA; [|discriminate].
      assert (ND' : NoDup (acc ++ [f])%list) by (apply NoDup_snoc; assumption).
      assert (HI' : incl (acc ++ [f])%list (map fst aux)).
      { intros x Hx. apply in_app_iff in Hx. destruct Hx as [Hx|[<-|[]]]; [apply HI; exact Hx|]. apply assoc_In in EA. apply (in_map fst) in EA. exact EA. }
      assert (HF' : S (length aux) <= fuel + length (acc ++ [f])%list) by (rewrite app_length; cbn [length]; lia).
      revert ND' HI' HF'. generalize (acc ++ [f])%list as a0. clear EA. induction fs as [|g fs IHg]; intros a0 N0 I0 F0; [discriminate|].
      cbn [rfold]. destruct (included_build_files fuel aux g a0) as [a1|e] eqn:E; cbn [rbind].
      + destruct (included_sound _ _ _ _ E) as (new & -> & _ & H2 & _ & _ & H5 & _). apply IHg.
        * apply H2. exact N0.
        * intros x Hx. apply in_app_iff in Hx. destruct Hx; auto.
        * rewrite app_length. lia.
      + intros Ee. rewrite Ee in E. exact (IH g a0 N0 I0 F0 E).
  Qed.

  (** It fails only on a file that is not known. *)
  Lemma included_exn : forall fuel f acc e, included_build_files fuel aux f acc = Exn e ->
    e = NoFuel \/ exists x, e = KeyError x /\ includes_star aux f x /\ ~ In x (map fst aux).
  Proof.
    induction fuel as [|fuel IH]; intros f acc e H; [inversion H; auto|]. cbn [included_build_files] in H. destruct (mem_spec f acc); [discriminate|].
    destruct (assoc f aux) as [fs|] eqn:EA.
    - assert (S : forall g, In g fs -> includes aux f g) by (intros g Hg; exists fs; auto). clear EA. revert S H. generalize (acc ++ [f])%list as a0.
      induction fs as [|g fs IHg]; intros a0 S H; [discriminate|]. cbn [rfold] in H. destruct (included_build_files fuel aux g a0) as [a1|e'] eqn:E; cbn [rbind] in H.
      + apply IHg in H; [exact H|]. intros; apply S; right; assumption.
      + inversion H; subst. apply IH in E. destruct E as [->|(x & -> & HR & HN)]; [left; reflexivity|]. right. exists x. split; [reflexivity|]. split; [|exact HN].
        apply rt_trans with g; [apply rt_step, S; left; reflexivity|exact HR].
    - inversion H; subst. right. exists f. split; [reflexivity|]. split; [apply rt_refl|]. apply assoc_None. exact EA.
  Qed.
  Theorem included_total : forall fuel f, length aux < fuel ->
    (forall x, includes_star aux f x -> In x (map fst aux)) -> exists l, included_build_files fuel aux f [] = Val l.
  Proof.
    intros fuel f HF HK. destruct (included_build_files fuel aux f []) as [l|e] eqn:E; [eauto|]. exfalso. destruct (included_exn _ _ _ _ E) as [->|(x & _ & HR & HN)].
    - revert E. apply included_nn; [constructor|intros ? []|cbn; lia].
    - apply HN, HK, HR.
  Qed.
End Included.

(** ** Literals *)
Section NodeInd.
  Variable P : node -> Prop.
  Hypothesis HS : forall s, P (NStr s).
  Hypothesis HL : forall l, Forall P l -> P (NList l).
  Hypothesis HD : forall d, Forall (fun e => P (snd e)) d -> P (NDict d).
  Hypothesis HO : forall c, P (NOther c).
  Fixpoint node_nested_ind (n : node) : P n :=
    match n with
    | NStr s => HS s
    | NList l => HL l ((fix go l : Forall P l := match l with [] => Forall_nil _ | x :: l' => Forall_cons x (node_nested_ind x) (go l') end) l)
    | NDict d => HD d ((fix go d : Forall (fun e => P (snd e)) d := match d with [] => Forall_nil _ | e :: d' => Forall_cons e (node_nested_ind (snd e)) (go d') end) d)
    | NOther c => HO c
    end.
End NodeInd.

Fixpoint check_list (ns : list node) : result (list value) :=
  match ns with
  | [] => Val []
  | c :: ns' => rbind (check_node c) (fun w => rbind (check_list ns') (fun ws => Val (w :: ws)))
  end.
Fixpoint check_dict (es : list (option node * node)) (acc : dict) : result dict :=
  match es with
  | [] => Val acc
  | (Some (NStr k), v) :: es' => if has_key k acc then Exn (GypError k) else rbind (check_node v) (fun w => check_dict es' (set_key k w acc))
  | _ => Exn (AssertionError "key")
  end.
Lemma check_list_eq : forall l, check_node (NList l) = rbind (check_list l) (fun l' => Val (VList l')).
Proof. reflexivity. Qed.
Lemma check_dict_eq : forall d, check_node (NDict d) = rbind (check_dict d []) (fun d' => Val (VDict d')).
Proof. reflexivity. Qed.
Lemma check_other_eq : forall c, check_node (NOther c) = Exn (TypeError c).
Proof. reflexivity. Qed.
Opaque check_node.

Lemma set_key_new : forall B k (v : B) d, ~ In k (map fst d) -> set_key k v d = (d ++ [(k, v)])%list.
Proof.
  intros B k v d. induction d as [|[k' v'] d IH]; intros H; [reflexivity|]. cbn [set_key]. destruct (String.eqb_spec k k') as [->|n]; [exfalso; apply H; left; reflexivity|].
  rewrite IH; [reflexivity|]. intros Hin. apply H. right. exact Hin.
Qed.

Theorem check_denotes : forall n v, check_node n = Val v <-> denotes n v.
Proof.
  apply (node_nested_ind (fun n => forall v, check_node n = Val v <-> denotes n v)).
  - intros s v. split; intros H; inversion H; [constructor|reflexivity].
  - intros l F v. rewrite check_list_eq.
    assert (G : forall l', check_list l = Val l' <-> Forall2 denotes l l').
    { induction F as [|n l Hn F IH]; intros l'; cbn [check_list].
      - split; intros H; inversion H; [constructor|reflexivity].
      - split.
        + intros H. apply rbind_Val in H. destruct H as (w & H1 & H). apply rbind_Val in H. destruct H as (ws & H2 & H). inversion H. constructor; [apply Hn; exact H1|apply IH; exact H2].
        + intros H. inversion H as [|? w ? ws H1 H2]; subst. apply Hn in H1. apply IH in H2. rewrite H1. cbn [rbind]. rewrite H2. reflexivity. }
    split.
    + intros H. apply rbind_Val in H. destruct H as (l' & H1 & H). inversion H. constructor. apply G. exact H1.
    + intros H. inversion H as [|? l' HF|]; subst. apply G in HF. rewrite HF. reflexivity.
  - intros d F v. rewrite check_dict_eq.
    assert (G : forall acc d', NoDup (map fst acc) -> (check_dict d acc = Val d' <-> exists new, d' = (acc ++ new)%list /\ NoDup (map fst d') /\
                  Forall2 (fun e e' => fst e = Some (NStr (fst e')) /\ denotes (snd e) (snd e')) d new)).
    { induction F as [|[k n] d Hn F IH]; intros acc d' ND; cbn [check_dict].
      - split.
        + intros H. inversion H; subst. exists []. rewrite app_nil_r. repeat split; [exact ND|constructor].
        + intros (new & -> & _ & HF). inversion HF. rewrite app_nil_r. reflexivity.
      - cbn [snd] in Hn. split.
        + intros H. destruct k as [[k| | |]|]; try discriminate. destruct (has_key k acc) eqn:EK; [discriminate|].
          assert (NK : ~ In k (map fst acc)) by (intros Hin; apply mem_In in Hin; unfold has_key in EK; congruence).
          apply rbind_Val in H. destruct H as (w & H1 & H). rewrite set_key_new in H by exact NK. apply IH in H.
          * destruct H as (new & -> & ND' & HF). exists ((k, w) :: new). rewrite <- app_assoc in *. split; [reflexivity|]. split; [exact ND'|].
            constructor; [|exact HF]. split; [reflexivity|]. apply Hn. exact H1.
          * rewrite map_app. apply NoDup_snoc; assumption.
        + intros (new & -> & ND' & HF). inversion HF as [|? [k' w] ? new' [E H1] HF']; subst. cbn [fst snd] in *. subst k.
          assert (NK : ~ In k' (map fst acc)).
          { rewrite map_app in ND'. apply NoDup_app_inv in ND'. destruct ND' as (_ & _ & D). intros Hin. apply (D _ Hin). left. reflexivity. }
          assert (EK : has_key k' acc = false) by (apply mem_false; exact NK). rewrite EK. apply Hn in H1. rewrite H1. cbn [rbind].
          rewrite set_key_new by exact NK. apply IH; [rewrite map_app; apply NoDup_snoc; assumption|]. exists new'. rewrite <- app_assoc. auto. }
    split.
    + intros H. apply rbind_Val in H. destruct H as (d' & H1 & H). inversion H. apply G in H1; [|constructor]. destruct H1 as (new & -> & ND & HF). constructor; assumption.
    + intros H. inversion H as [| |? d' HF ND]; subst. assert (E : check_dict d [] = Val d') by (apply G; [constructor|]; exists d'; auto). rewrite E. reflexivity.
  - intros c v. split; intros H; inversion H.
Qed.

Theorem check_rejects : forall n, (exists e, check_node n = Exn e) <-> (forall v, ~ denotes n v).
Proof.
  intros n. split.
  - intros (e & E) v H. apply check_denotes in H. congruence.
  - intros H. destruct (check_node n) as [v|e] eqn:E; [exfalso; apply (H v); apply check_denotes; exact E|eauto].
Qed.

(** Why it fails. *)
Theorem check_reason : forall n e, check_node n = Exn e ->
  (exists d k, e = GypError k /\ occurs (NDict d) n /\ repeats d k) \/
  (exists d k v, e = AssertionError "key" /\ occurs (NDict d) n /\ In (k, v) d /\ forall s, k <> Some (NStr s)) \/
  (exists c, e = TypeError c /\ occurs (NOther c) n).
Proof.
  intros n. induction n using node_nested_ind.
  - discriminate.
  - rename H into F. intros e. rewrite check_list_eq. intros H.
    assert (G : exists x, In x l /\ check_node x = Exn e).
    { destruct (check_list l) as [l'|e'] eqn:E; cbn in H; inversion H; subst. clear H F. revert E. induction l as [|x l IH]; [discriminate|]. cbn [check_list].
      destruct (check_node x) as [w|e0] eqn:Ex; cbn [rbind]; [|intros H; inversion H; subst; exists x; split; [left; reflexivity|exact Ex]].
      destruct (check_list l) as [ws|e1]; cbn [rbind]; [discriminate|]. intros H. destruct (IH H) as (y & Hy & E). exists y. split; [right; exact Hy|exact E]. }
    destruct G as (x & Hx & E). rewrite Forall_forall in F. destruct (F x Hx e E) as [(d & k & H1 & H2 & H3)|[(d & k & v & H1 & H2 & H3)|(c & H1 & H2)]].
    + left. exists d, k. split; [exact H1|]. split; [eapply oc_list; eassumption|exact H3].
    + right. left. exists d, k, v. split; [exact H1|]. split; [eapply oc_list; eassumption|exact H3].
    + right. right. exists c. split; [exact H1|eapply oc_list; eassumption].
  - rename H into F. intros e. rewrite check_dict_eq. intros H. assert (E : check_dict d [] = Exn e) by (destruct (check_dict d []); cbn in H; congruence). clear H.
    assert (G : forall d2 d1 acc, d = (d1 ++ d2)%list -> (forall k, In k (map fst acc) -> exists v, In (Some (NStr k), v) d1) -> check_dict d2 acc = Exn e ->
       (exists k x, In (k, x) d /\ check_node x = Exn e) \/ (exists k, e = GypError k /\ repeats d k) \/ (exists k v, e = AssertionError "key" /\ In (k, v) d /\ forall s, k <> Some (NStr s))).
    { induction d2 as [|[k x] d2 IH]; intros d1 acc Ed HA H; [discriminate|]. cbn [check_dict] in H.
      assert (Hin : In (k, x) d) by (rewrite Ed; apply in_app_iff; right; left; reflexivity).
      destruct k as [[k|l|dd|c]|]; try (inversion H; subst e; right; right; eexists; eexists; split; [reflexivity|]; split; [exact Hin|discriminate]).
      destruct (has_key k acc) eqn:EK.
      - inversion H; subst e. right. left. exists k. split; [reflexivity|]. apply mem_In in EK. destruct (HA _ EK) as (v & Hv). apply in_split in Hv. destruct Hv as (a & b & ->).
        exists a, v, b, x, d2. rewrite Ed, <- app_assoc. reflexivity.
      - destruct (check_node x) as [w|e0] eqn:Ex; cbn [rbind] in H.
        + apply (IH (d1 ++ [(Some (NStr k), x)])%list (set_key k w acc)); [rewrite <- app_assoc; exact Ed| |exact H].
          intros k' Hk. rewrite set_key_keys in Hk. apply in_app_iff in Hk. destruct Hk as [Hk|Hk].
          * destruct (HA _ Hk) as (v & Hv). exists v. apply in_app_iff. left. exact Hv.
          * destruct (mem k (map fst acc)); [destruct Hk|]. destruct Hk as [<-|[]]. exists x. apply in_app_iff. right. left. reflexivity.
        + inversion H; subst e0. left. exists (Some (NStr k)), x. auto. }
    destruct (G d [] [] eq_refl (fun k (Hk : In k []) => match Hk with end) E) as [(k & x & Hx & Ex)|[(k & H1 & H2)|(k & v & H1 & H2 & H3)]].
    + rewrite Forall_forall in F. destruct (F (k, x) Hx e Ex) as [(d0 & k0 & H1 & H2 & H3)|[(d0 & k0 & v & H1 & H2 & H3)|(c & H1 & H2)]].
      * left. exists d0, k0. split; [exact H1|]. split; [eapply oc_dict; eassumption|exact H3].
      * right. left. exists d0, k0, v. split; [exact H1|]. split; [eapply oc_dict; eassumption|exact H3].
      * right. right. exists c. split; [exact H1|eapply oc_dict; eassumption].
    + left. exists d, k. split; [exact H1|]. split; [constructor|exact H2].
    + right. left. exists d, k, v. split; [exact H1|]. split; [constructor|]. split; assumption.
  - intros e H. rewrite check_other_eq in H. right. right. exists c. split; [congruence|constructor].
Qed.
