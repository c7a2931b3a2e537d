(** Proofs about the build order: [flatten_to_list], [build_dependency_list]. *)
From Verif Require Import Lib LibFacts Model_Graph Spec_Graph.

(** ** Finite graphs without sinks have cycles *)

Section Cycles.
  Variable R : string -> string -> Prop.

  Lemma chain_from : forall (S : list string),
    (forall x, In x S -> exists y, In y S /\ R x y) ->
    forall n x, In x S -> exists l, length l = n /\ incl (x :: l) S /\ chain R (x :: l).
  Proof.
    intros S HS n. induction n as [|n IH]; intros x Hx.
    - exists []. repeat split. intros y [<-|[]]; exact Hx.
    - destruct (HS x Hx) as [y [Hy Hr]]. destruct (IH y Hy) as [l [Hl [Hi Hc]]].
      exists (y :: l). split; [simpl; congruence|]. split; [intros z [<-|Hz]; [exact Hx|apply Hi; exact Hz]|].
      simpl. split; assumption.
  Qed.

  Lemma chain_app_r : forall l r, chain R (l ++ r) -> chain R r.
  Proof.
    induction l as [|x l IH]; simpl; intros r H; [exact H|].
    apply IH. destruct (l ++ r); [exact I|apply H].
  Qed.

  Lemma chain_trans : forall l x y r, chain R (x :: l ++ y :: r) -> clos_trans string R x y.
  Proof.
    induction l as [|z l IH]; intros x y r H; simpl in H.
    - apply t_step. apply H.
    - destruct H as [H1 H2]. apply t_trans with z; [apply t_step; exact H1|].
      apply (IH z y r). exact H2.
  Qed.

  Lemma not_NoDup_split : forall l : list string, ~ NoDup l -> exists a l1 l2 l3, l = l1 ++ a :: l2 ++ a :: l3.
  Proof.
    induction l as [|x l IH]; intros H; [exfalso; apply H; constructor|].
    destruct (in_dec string_dec x l) as [Hx|Hx].
    - apply in_split in Hx. destruct Hx as [l2 [l3 E]]. exists x, [], l2, l3. subst. reflexivity.
    - destruct IH as [a [l1 [l2 [l3 E]]]].
      + intros C. apply H. constructor; assumption.
      + exists a, (x :: l1), l2, l3. subst. reflexivity.
  Qed.

  Lemma no_sink_cycle : forall (S : list string) x,
    In x S -> (forall x, In x S -> exists y, In y S /\ R x y) -> exists a, clos_trans string R a a.
  Proof.
    intros S x Hx HS. destruct (chain_from S HS (length S) x Hx) as [l [Hl [Hi Hc]]].
    assert (Hn : ~ NoDup (x :: l)).
    { intros Hnd. apply (NoDup_incl_length Hnd) in Hi. simpl in Hi. lia. }
    apply not_NoDup_split in Hn. destruct Hn as [a [l1 [l2 [l3 E]]]]. exists a.
    rewrite E in Hc. apply chain_app_r in Hc. eapply chain_trans. exact Hc.
  Qed.
End Cycles.

(** ** The worklist of FlattenToList, over an abstract graph *)

Section Flatten.
  Variable U : list string.                      (* all nodes *)
  Variable dependencies dependents : string -> list string.
  Hypothesis HU : NoDup U.
  Hypothesis Hdependents : forall d t, In t (dependents d) <-> In t U /\ In d (dependencies t).
  Hypothesis HdependentsND : forall d, NoDup (dependents d).

  Record inv (stack flat : list string) : Prop := {
    inv_nodup : NoDup (stack ++ flat);
    inv_stack : incl stack U;
    inv_flat : incl flat U;
    inv_ready : forall t d, In t stack -> In d (dependencies t) -> In d flat;
    inv_order : forall t d, In t flat -> In d (dependencies t) -> before d t flat;
    inv_complete : forall t, In t U -> dependencies t <> [] \/ In t (stack ++ flat) ->
                   (forall d, In d (dependencies t) -> In d flat) -> In t (stack ++ flat)
  }.

  Definition ready_of (flat' : list string) (node : string) : list string :=
    filter (fun d => forallb (fun dd => mem dd flat') (sort (dependencies d))) (sort (dependents node)).

  Lemma ready_In : forall flat' node t,
    In t (ready_of flat' node) <->
    In t U /\ In node (dependencies t) /\ forall d, In d (dependencies t) -> In d flat'.
  Proof.
    intros flat' node t. unfold ready_of. rewrite filter_In, sort_In, Hdependents, forallb_forall.
    split.
    - intros [[H1 H2] H3]. repeat split; try assumption. intros d Hd. apply mem_In. apply H3. apply sort_In. exact Hd.
    - intros [H1 [H2 H3]]. repeat split; try assumption. intros d Hd. apply mem_In. apply H3. apply sort_In. exact Hd.
  Qed.

  Lemma inv_step : forall node stack flat,
    inv (node :: stack) flat ->
    oset_add node flat = flat ++ [node] /\
    inv (rev (ready_of (flat ++ [node]) node) ++ stack) (flat ++ [node]).
  Proof.
    intros node stack flat [Hnd Hs Hf Hr Ho Hc].
    assert (Hnode : ~ In node flat).
    { simpl in Hnd. inversion Hnd as [|? ? H _]; subst. intros C. apply H. apply in_or_app. right. exact C. }
    assert (Hnode_s : ~ In node stack).
    { simpl in Hnd. inversion Hnd as [|? ? H _]; subst. intros C. apply H. apply in_or_app. left. exact C. }
    split.
    { unfold oset_add. destruct (mem_spec node flat); [contradiction|reflexivity]. }
    simpl in Hnd. inversion Hnd as [|? ? _ Hnd']; subst. apply NoDup_app_inv in Hnd'.
    destruct Hnd' as [Hnds [Hndf Hdis]].
    assert (Hfresh : forall t, In t (ready_of (flat ++ [node]) node) -> ~ In t stack /\ ~ In t flat /\ t <> node).
    { intros t Ht. apply ready_In in Ht. destruct Ht as [HtU [Htn _]]. repeat split.
      - intros C. apply Hnode. apply (Hr t node); [right; exact C|exact Htn].
      - intros C. apply Hnode. apply (before_In _ _ _ _ (Ho t node C Htn)).
      - intros ->. apply Hnode. apply (Hr node node); [left; reflexivity|exact Htn]. }
    constructor.
    - rewrite <- app_assoc. apply NoDup_app_intro.
      + apply NoDup_rev. unfold ready_of. apply NoDup_filter. apply sort_NoDup. apply HdependentsND.
      + apply NoDup_app_intro; [exact Hnds|apply NoDup_snoc; assumption|].
        intros x Hx C. apply in_app_or in C. destruct C as [C|[<-|[]]]; [apply (Hdis x); assumption|contradiction].
      + intros x Hx C. rewrite <- in_rev in Hx. apply Hfresh in Hx. destruct Hx as [H1 [H2 H3]].
        apply in_app_or in C. destruct C as [C|C]; [contradiction|].
        apply in_app_or in C. destruct C as [C|[C|[]]]; [contradiction|congruence].
    - intros x Hx. apply in_app_or in Hx. destruct Hx as [Hx|Hx].
      + rewrite <- in_rev in Hx. apply ready_In in Hx. apply Hx.
      + apply Hs. right. exact Hx.
    - intros x Hx. apply in_app_or in Hx. destruct Hx as [Hx|[<-|[]]]; [apply Hf; exact Hx|apply Hs; left; reflexivity].
    - intros t d Ht Hd. apply in_app_or in Ht. destruct Ht as [Ht|Ht].
      + rewrite <- in_rev in Ht. apply ready_In in Ht. apply Ht. exact Hd.
      + apply in_or_app. left. apply (Hr t d); [right; exact Ht|exact Hd].
    - intros t d Ht Hd. apply in_app_or in Ht. destruct Ht as [Ht|[<-|[]]].
      + apply before_app_l. apply Ho; assumption.
      + apply before_snoc. apply (Hr node d); [left; reflexivity|exact Hd].
    - intros t HtU Hor Hall.
      destruct (in_dec string_dec node (dependencies t)) as [Hn|Hn].
      + apply in_or_app. left. apply in_or_app. left. apply in_rev. rewrite rev_involutive.
        apply ready_In. repeat split; assumption.
      + assert (Hin : In t ((node :: stack) ++ flat)).
        { apply Hc; [exact HtU| |].
          - destruct Hor as [H|H]; [left; exact H|].
            apply in_app_or in H. destruct H as [H|H].
            + apply in_app_or in H. destruct H as [H|H].
              * rewrite <- in_rev in H. apply ready_In in H. destruct H as [_ [H _]]. contradiction.
              * right. apply in_or_app. left. right. exact H.
            + apply in_app_or in H. destruct H as [H|[<-|[]]]; right; apply in_or_app; [right; exact H|left; left; reflexivity].
          - intros d Hd. specialize (Hall d Hd). apply in_app_or in Hall. destruct Hall as [Ha|[<-|[]]]; [exact Ha|contradiction]. }
        simpl in Hin. destruct Hin as [<-|Hin].
        * apply in_or_app. right. apply in_or_app. right. left. reflexivity.
        * apply in_app_or in Hin. apply in_or_app. destruct Hin as [Hin|Hin].
          -- left. apply in_or_app. right. exact Hin.
          -- right. apply in_or_app. left. exact Hin.
  Qed.

  Lemma flatten_loop_inv : forall fuel stack flat,
    inv stack flat -> length U < fuel + length flat ->
    exists res, flatten_loop fuel dependents dependencies stack flat = Some res /\ inv [] res.
  Proof.
    induction fuel as [|fuel IH]; intros stack flat Hinv Hlen.
    - exfalso. destruct Hinv as [Hnd _ Hf _ _ _]. apply NoDup_app_inv in Hnd. destruct Hnd as [_ [Hnd _]].
      apply (NoDup_incl_length Hnd) in Hf. lia.
    - cbn [flatten_loop]. destruct stack as [|node stack].
      + exists flat. split; [reflexivity|exact Hinv].
      + destruct (inv_step _ _ _ Hinv) as [E Hinv']. rewrite E. apply IH; [exact Hinv'|].
        rewrite app_length. simpl. lia.
  Qed.

  Variable roots : list string.
  Hypothesis Hroots : forall t, In t roots <-> In t U /\ dependencies t = [].
  Hypothesis HrootsND : NoDup roots.

  Lemma inv_init : inv (rev (sort roots)) [].
  Proof.
    constructor.
    - rewrite app_nil_r. apply NoDup_rev. apply sort_NoDup. exact HrootsND.
    - intros x Hx. rewrite <- in_rev in Hx. rewrite sort_In in Hx. apply Hroots in Hx. apply Hx.
    - intros x [].
    - intros t d Ht Hd. rewrite <- in_rev in Ht. rewrite sort_In in Ht. apply Hroots in Ht. destruct Ht as [_ E].
      rewrite E in Hd. destruct Hd.
    - intros t d [].
    - intros t HtU [Hne|Hin] Hall; [|exact Hin]. exfalso. apply Hne.
      destruct (dependencies t) as [|d ds]; [reflexivity|]. exfalso. apply (Hall d). left. reflexivity.
  Qed.

  Lemma flatten_spec : exists res,
    flatten_to_list (S (length U)) dependents dependencies roots = Some res /\
    NoDup res /\ incl res U /\
    (forall t d, In t res -> In d (dependencies t) -> before d t res) /\
    (forall t, In t U -> (forall d, In d (dependencies t) -> In d res) -> In t res).
  Proof.
    destruct (flatten_loop_inv (S (length U)) (rev (sort roots)) []) as [res [E Hinv]].
    - apply inv_init.
    - simpl. lia.
    - exists res. split; [exact E|]. destruct Hinv as [Hnd _ Hf _ Ho Hc]. cbn [app] in *.
      repeat split; try assumption.
      intros t HtU Hall. destruct (dependencies t) as [|d ds] eqn:Ed.
      + (* a root: it was on the initial stack; it never leaves stack ++ flat *)
        assert (Hmono : forall fuel stack flat r, inv stack flat ->
                  flatten_loop fuel dependents dependencies stack flat = Some r ->
                  forall x, In x (stack ++ flat) -> In x r).
        { clear -HU Hdependents HdependentsND. intros fuel; induction fuel as [|fuel IH]; intros stack flat r Hi Hr x Hx; [discriminate|].
          cbn [flatten_loop] in Hr. destruct stack as [|n stack].
          - inversion Hr; subst. exact Hx.
          - destruct (inv_step _ _ _ Hi) as [E2 Hi']. rewrite E2 in Hr.
            apply (IH _ _ _ Hi' Hr). simpl in Hx. destruct Hx as [<-|Hx].
            + apply in_or_app. right. apply in_or_app. right. left. reflexivity.
            + apply in_app_or in Hx. destruct Hx as [Hx|Hx].
              * apply in_or_app. left. apply in_or_app. right. exact Hx.
              * apply in_or_app. right. apply in_or_app. left. exact Hx. }
        apply (Hmono _ _ _ _ inv_init E). rewrite app_nil_r. apply in_rev. rewrite rev_involutive.
        apply sort_In. apply Hroots. split; assumption.
      + apply Hc; [exact HtU|left; rewrite Ed; discriminate|]. rewrite Ed. exact Hall.
  Qed.
End Flatten.

Lemma flatten_loop_ext : forall fuel deps1 deps2 dents1 dents2 stack flat,
  (forall n, sort (dents1 n) = sort (dents2 n)) -> (forall n, sort (deps1 n) = sort (deps2 n)) ->
  flatten_loop fuel dents1 deps1 stack flat = flatten_loop fuel dents2 deps2 stack flat.
Proof.
  induction fuel as [|fuel IH]; intros deps1 deps2 dents1 dents2 stack flat H1 H2; [reflexivity|].
  cbn [flatten_loop]. destruct stack as [|n stack]; [reflexivity|].
  rewrite H1.
  assert (E : filter (fun d => forallb (fun dd => mem dd (oset_add n flat)) (sort (deps1 d))) (sort (dents2 n)) =
              filter (fun d => forallb (fun dd => mem dd (oset_add n flat)) (sort (deps2 d))) (sort (dents2 n))).
  { apply filter_ext. intros a. rewrite H2. reflexivity. }
  rewrite E. apply IH; assumption.
Qed.

(** ** The graph built from the targets *)

Lemma node_dependencies_In : forall ts t d, is_dict ts ->
  In d (node_dependencies ts t) <-> depends_on ts t d.
Proof.
  intros ts t d Hd. unfold node_dependencies, depends_on. split.
  - destruct (assoc t ts) as [s|] eqn:E; [|intros []]. unfold deps_list.
    destruct (sp_deps s) as [l|] eqn:El; [|intros []]. intros H. exists s, l.
    repeat split; try assumption. apply assoc_In. exact E.
  - intros [s [l [Hi [El Hl]]]]. rewrite (In_assoc _ _ _ _ Hd Hi). unfold deps_list. rewrite El. exact Hl.
Qed.

Lemma depends_on_source : forall ts t d, depends_on ts t d -> In t (names ts).
Proof.
  intros ts t d [s [l [Hi _]]]. unfold names. apply in_map_iff. exists (t, s). split; [reflexivity|exact Hi].
Qed.

Lemma node_dependents_In : forall ts t d,
  In t (node_dependents ts d) <-> depends_on ts t d.
Proof.
  intros ts t d. unfold node_dependents, depends_on. rewrite in_flat_map. split.
  - intros [[t' s] [Hi Hm]]. apply in_map_iff in Hm. destruct Hm as [x [E Hx]]. subst t'.
    apply filter_In in Hx. destruct Hx as [Hx He]. apply String.eqb_eq in He. subst x.
    unfold deps_list in Hx. destruct (sp_deps s) as [l|] eqn:El; [|destruct Hx].
    exists s, l. repeat split; assumption.
  - intros [s [l [Hi [El Hl]]]]. exists (t, s). split; [exact Hi|]. apply in_map_iff. exists d.
    split; [reflexivity|]. apply filter_In. split; [unfold deps_list; rewrite El; exact Hl|apply String.eqb_refl].
Qed.

Definition dup_free_deps (ts : targets) : Prop := forall t s, In (t, s) ts -> NoDup (deps_list s).

Lemma filter_eqb_NoDup : forall d l, NoDup l -> length (filter (String.eqb d) l) <= 1.
Proof.
  intros d l H; induction H as [|x l Hx Hnd IH]; simpl; [lia|].
  destruct (String.eqb_spec d x) as [->|Hn]; [|exact IH]. simpl.
  assert (E : filter (String.eqb x) l = []).
  { clear -Hx. induction l as [|y l IH]; [reflexivity|]. simpl. destruct (String.eqb_spec x y) as [->|Hn].
    - exfalso. apply Hx. left. reflexivity.
    - apply IH. intros C. apply Hx. right. exact C. }
  rewrite E. simpl. lia.
Qed.

Lemma node_dependents_NoDup : forall ts d, is_dict ts -> dup_free_deps ts -> NoDup (node_dependents ts d).
Proof.
  intros ts d. unfold is_dict, names. induction ts as [|[t s] ts IH]; simpl; intros Hd Hf; [constructor|].
  inversion Hd as [|? ? Ht Hd']; subst.
  apply NoDup_app_intro.
  - assert (Hl := filter_eqb_NoDup d _ (Hf t s (or_introl eq_refl))).
    destruct (filter (String.eqb d) (deps_list s)) as [|a [|b r]]; simpl in *; [constructor| |lia].
    constructor; [intros []|constructor].
  - apply IH; [exact Hd'|]. intros t' s' H'. apply (Hf t' s'). right. exact H'.
  - intros x Hx Hx'. apply in_map_iff in Hx. destruct Hx as [y [<- _]].
    apply Ht. apply (node_dependents_In ts t d) in Hx'. apply depends_on_source in Hx'. exact Hx'.
Qed.

Lemma root_dependents_In : forall ts t, is_dict ts ->
  In t (root_dependents ts) <-> In t (names ts) /\ node_dependencies ts t = [].
Proof.
  intros ts t Hd. unfold root_dependents, names. rewrite in_map_iff. split.
  - intros [[t' s] [E Hi]]. simpl in E. subst t'. apply filter_In in Hi. destruct Hi as [Hi He]. split.
    + apply in_map_iff. exists (t, s). split; [reflexivity|exact Hi].
    + unfold node_dependencies. rewrite (In_assoc _ _ _ _ Hd Hi). destruct (deps_list s); [reflexivity|discriminate].
  - intros [Ht He]. apply in_map_iff in Ht. destruct Ht as [[t' s] [E Hi]]. simpl in E; subst t'.
    exists (t, s). split; [reflexivity|]. apply filter_In. split; [exact Hi|].
    unfold node_dependencies in He. rewrite (In_assoc _ _ _ _ Hd Hi) in He. rewrite He. reflexivity.
Qed.

Lemma root_dependents_NoDup : forall ts, is_dict ts -> NoDup (root_dependents ts).
Proof.
  intros ts. unfold is_dict, names, root_dependents. induction ts as [|[t s] ts IH]; simpl; intros Hd; [constructor|].
  inversion Hd as [|? ? Ht Hd']; subst. destruct (deps_list s); simpl; [|apply IH; exact Hd'].
  constructor; [|apply IH; exact Hd'].
  intros C. apply Ht. apply in_map_iff in C. destruct C as [[t' s'] [E Hi]]. apply filter_In in Hi.
  apply in_map_iff. exists (t', s'). split; [exact E|apply Hi].
Qed.

Lemma find_missing_in_spec : forall nms t ds,
  (find_missing_in nms t ds = None <-> forall d, In d ds -> In d nms) /\
  (forall d t', find_missing_in nms t ds = Some (d, t') -> t' = t /\ In d ds /\ ~ In d nms).
Proof.
  intros nms t ds; induction ds as [|d ds [IH1 IH2]]; simpl.
  - split; [split; [intros _ d []|reflexivity]|intros; discriminate].
  - destruct (mem_spec d nms) as [H|H]; split.
    + rewrite IH1. split; [intros Hx x [<-|Hi]; auto|intros Hx x Hi; apply Hx; right; exact Hi].
    + intros d' t' E. destruct (IH2 d' t' E) as [H1 [H2 H3]]. repeat split; auto.
    + split; [discriminate|]. intros Hx. exfalso. apply H. apply Hx. left. reflexivity.
    + intros d' t' E. inversion E; subst. repeat split; auto.
Qed.

Lemma find_missing_None : forall nms ts,
  find_missing nms ts = None <-> forall t s d, In (t, s) ts -> In d (deps_list s) -> In d nms.
Proof.
  intros nms ts; induction ts as [|[t s] ts IH]; simpl.
  - split; [intros _ t s d []|reflexivity].
  - destruct (find_missing_in_spec nms t (deps_list s)) as [H1 H2].
    destruct (find_missing_in nms t (deps_list s)) as [[d' t']|] eqn:E.
    + split; [discriminate|]. intros H. destruct (H2 d' t' eq_refl) as [-> [Hd Hn]].
      exfalso. apply Hn. apply (H t s d'); [left; reflexivity|exact Hd].
    + rewrite IH. split.
      * intros H t' s' d [Ei|Hi] Hd; [inversion Ei; subst; apply (proj1 H1); auto|apply (H t' s'); assumption].
      * intros H t' s' d Hi Hd. apply (H t' s'); [right; exact Hi|exact Hd].
Qed.

Lemma find_missing_Some : forall nms ts d t,
  find_missing nms ts = Some (d, t) -> exists s, In (t, s) ts /\ In d (deps_list s) /\ ~ In d nms.
Proof.
  intros nms ts d t; induction ts as [|[t' s'] ts IH]; simpl; [discriminate|].
  destruct (find_missing_in_spec nms t' (deps_list s')) as [_ H2].
  destruct (find_missing_in nms t' (deps_list s')) as [[d' t'']|] eqn:E.
  - intros Eq; inversion Eq; subst. destruct (H2 d t eq_refl) as [-> [Hd Hn]]. exists s'.
    repeat split; [left; reflexivity|exact Hd|exact Hn].
  - intros Eq. destruct (IH Eq) as [s [Hi [Hd Hn]]]. exists s. repeat split; [right; exact Hi|exact Hd|exact Hn].
Qed.

Lemma depends_on_deps_list : forall ts t d, depends_on ts t d <-> exists s, In (t, s) ts /\ In d (deps_list s).
Proof.
  intros ts t d. unfold depends_on, deps_list. split.
  - intros [s [l [Hi [El Hl]]]]. exists s. rewrite El. split; assumption.
  - intros [s [Hi Hl]]. destruct (sp_deps s) as [l|] eqn:El; [|destruct Hl]. exists s, l. repeat split; assumption.
Qed.

Lemma find_missing_closed : forall ts, find_missing (map fst ts) ts = None <-> closed ts.
Proof.
  intros ts. rewrite find_missing_None. unfold closed, names. split.
  - intros H t d Hd. apply depends_on_deps_list in Hd. destruct Hd as [s [Hi Hd]]. apply (H t s d); assumption.
  - intros H t s d Hi Hd. apply (H t d). apply depends_on_deps_list. exists s. split; assumption.
Qed.

(** ** FindCycles terminates and reports real cycles *)

Section FindCycles.
  Variable U : list string.
  Variable dependents : string -> list string.
  Hypothesis Hdents : forall d t, In t (dependents d) -> In t U.

  Lemma find_cycles_term : forall fuel path children st,
    NoDup path -> incl path U -> incl children U -> length U < fuel + length path ->
    exists st', find_cycles_visit fuel dependents path children st = Some st'.
  Proof.
    induction fuel as [|fuel IH]; intros path children st Hnd Hp Hc Hlen.
    - exfalso. apply (NoDup_incl_length Hnd) in Hp. lia.
    - cbn [find_cycles_visit]. revert st. induction children as [|c children IHc]; intros st.
      + exists st. reflexivity.
      + assert (Hc' : incl children U) by (intros x Hx; apply Hc; right; exact Hx).
        destruct (mem_spec c path) as [Hcp|Hcp]; [apply IHc; exact Hc'|].
        destruct (mem_spec c (fst st)) as [Hv|Hv]; [apply IHc; exact Hc'|].
        destruct (IH (c :: path) (dependents c) (c :: fst st, snd st)) as [st' E].
        * constructor; assumption.
        * intros x [<-|Hx]; [apply Hc; left; reflexivity|apply Hp; exact Hx].
        * intros x Hx. apply (Hdents c). exact Hx.
        * simpl. lia.
        * rewrite E. apply IHc; exact Hc'.
  Qed.

  (** [R x y]: x depends on y *)
  Variable R : string -> string -> Prop.
  Hypothesis HR : forall d t, In t (dependents d) -> R t d.

  Definition good_cycle (c : list string) : Prop :=
    2 <= length c /\ hd_error c = Some (last c EmptyString) /\ chain R c.

  Lemma upto_props : forall x path, In x path -> chain R path ->
    upto x path <> [] /\ last (upto x path) EmptyString = x /\ chain R (upto x path) /\
    hd_error (upto x path) = hd_error path.
  Proof.
    intros x path; induction path as [|y path IH]; simpl; [intros []|]. intros Hx Hc.
    destruct (String.eqb_spec x y) as [->|Hn].
    - repeat split; discriminate || reflexivity.
    - destruct Hx as [<-|Hx]; [congruence|].
      assert (Hc' : chain R path) by (destruct path; [exact I|apply Hc]).
      destruct (IH Hx Hc') as [H1 [H2 [H3 H4]]]. repeat split; try discriminate.
      + destruct (upto x path) eqn:E; [congruence|]. simpl in *. exact H2.
      + destruct (upto x path) as [|z r] eqn:E; [congruence|]. simpl. split; [|exact H3].
        destruct path as [|z' path']; [discriminate|]. simpl in H4. inversion H4; subst. apply Hc.
  Qed.

  Lemma find_cycles_sound : forall fuel path children st st',
    chain R path ->
    (forall c, In c children -> match path with [] => True | p :: _ => R c p end) ->
    Forall good_cycle (snd st) ->
    find_cycles_visit fuel dependents path children st = Some st' -> Forall good_cycle (snd st').
  Proof.
    induction fuel as [|fuel IH]; intros path children st st' Hp Hc Hg E; [discriminate|].
    cbn [find_cycles_visit] in E. revert st Hg E. induction children as [|c children IHc]; intros st Hg E.
    - inversion E; subst. exact Hg.
    - assert (Hc' : forall c, In c children -> match path with [] => True | p :: _ => R c p end)
        by (intros x Hx; apply Hc; right; exact Hx).
      destruct (mem_spec c path) as [Hcp|Hcp].
      + apply (IHc Hc' _) in E; [exact E|]. simpl. apply Forall_app. split; [exact Hg|].
        constructor; [|constructor]. destruct (upto_props c path Hcp Hp) as [H1 [H2 [H3 H4]]].
        unfold good_cycle. destruct (upto c path) as [|z r] eqn:Eu; [congruence|].
        repeat split.
        * simpl. lia.
        * cbn [hd_error]. f_equal. rewrite <- H2 at 1. reflexivity.
        * destruct path as [|p path]; [discriminate|]. simpl in H4.
          replace z with p by congruence. apply (Hc c). left. reflexivity.
        * exact H3.
      + destruct (mem_spec c (fst st)) as [Hv|Hv]; [apply (IHc Hc' st); assumption|].
        destruct (find_cycles_visit fuel dependents (c :: path) (dependents c) (c :: fst st, snd st)) as [st2|] eqn:E2; [|discriminate].
        apply (IHc Hc' st2); [|exact E].
        eapply IH; [| | |exact E2].
        * destruct path as [|p path]; [exact I|]. simpl. split; [|exact Hp]. apply (Hc c). left; reflexivity.
        * intros x Hx. apply HR. exact Hx.
        * exact Hg.
  Qed.
End FindCycles.

(** ** BuildDependencyList *)

Section Build.
  Variable ts : targets.
  Hypothesis Hd : is_dict ts.
  Hypothesis Hf : dup_free_deps ts.

  Lemma build_cases :
    (~ closed ts /\ exists d t, build_dependency_list ts = Err (MissingDependency d t) /\
                                depends_on ts t d /\ ~ In d (names ts)) \/
    (closed ts /\ ~ cyclic ts /\ exists flat, build_dependency_list ts = Ok flat /\ build_order ts flat) \/
    (closed ts /\ cyclic ts /\ exists cs, build_dependency_list ts = Err (CircularDependency cs) /\
                                          Forall (real_cycle ts) cs).
  Proof.
    unfold build_dependency_list. destruct (find_missing (map fst ts) ts) as [[d t]|] eqn:Em.
    - left. destruct (find_missing_Some _ _ _ _ Em) as [s [Hi [Hds Hn]]].
      assert (Hdep : depends_on ts t d) by (apply depends_on_deps_list; exists s; split; assumption).
      split; [intros C; apply Hn; apply (C t d Hdep)|].
      exists d, t. repeat split; try assumption.
    - right. assert (Hcl : closed ts) by (apply find_missing_closed; exact Em).
      assert (Hlen : length ts = length (names ts)) by (unfold names; rewrite map_length; reflexivity).
      destruct (flatten_spec (names ts) (node_dependencies ts) (node_dependents ts)) with (roots := root_dependents ts)
        as [flat [E [Hnd [Hinc [Hord Hcomp]]]]].
      + intros d t. rewrite node_dependents_In, node_dependencies_In by exact Hd.
        split; [intros H; split; [eapply depends_on_source; exact H|exact H]|intros [_ H]; exact H].
      + intros d. apply node_dependents_NoDup; assumption.
      + intros t. apply root_dependents_In. exact Hd.
      + apply root_dependents_NoDup. exact Hd.
      + rewrite <- Hlen in E. rewrite E.
        assert (Hord' : forall t d, In t flat -> depends_on ts t d -> before d t flat)
          by (intros t d Ht Hdd; apply Hord; [exact Ht|apply node_dependencies_In; assumption]).
        destruct (Nat.eqb_spec (length flat) (length ts)) as [El|El].
        * left. split; [exact Hcl|].
          assert (Hp : Permutation flat (names ts)).
          { apply NoDup_Permutation_bis; [exact Hnd|lia|exact Hinc]. }
          assert (Hbo : build_order ts flat).
          { split; [exact Hp|]. intros t d Hdd. apply Hord'; [|exact Hdd].
            apply (Permutation_in _ (Permutation_sym Hp)). eapply depends_on_source; exact Hdd. }
          split; [|exists flat; split; [reflexivity|exact Hbo]].
          intros [t Ht].
          assert (Hb : forall x y, depends_transitively ts x y -> before y x flat).
          { intros x y Hxy. unfold depends_transitively in Hxy. induction Hxy as [x y H|x y z _ IH1 _ IH2].
            - apply Hbo. exact H.
            - eapply before_trans; eassumption. }
          apply (before_irrefl _ t flat Hnd). apply Hb. exact Ht.
        * right. split; [exact Hcl|]. split.
          -- (* some name is not in flat *)
             assert (Hex : exists x, In x (filter (fun x => negb (mem x flat)) (names ts))).
             { destruct (filter (fun x => negb (mem x flat)) (names ts)) as [|x r] eqn:Ef; [|exists x; left; reflexivity].
               exfalso. apply El. assert (Hi : incl (names ts) flat).
               { intros x Hx. destruct (mem_spec x flat) as [H|H]; [exact H|]. exfalso.
                 assert (Hc : In x (filter (fun x => negb (mem x flat)) (names ts))).
                 { apply filter_In. split; [exact Hx|]. apply negb_true_iff. apply mem_false. exact H. }
                 rewrite Ef in Hc. destruct Hc. }
               apply (NoDup_incl_length Hd) in Hi. apply (NoDup_incl_length Hnd) in Hinc.
               fold (names ts) in *. lia. }
             destruct Hex as [x Hx].
             destruct (no_sink_cycle (depends_on ts) (filter (fun x => negb (mem x flat)) (names ts)) x Hx) as [a Ha].
             ++ intros y Hy. apply filter_In in Hy. destruct Hy as [Hy Hm]. apply negb_true_iff in Hm. apply mem_false in Hm.
                destruct (filter (fun d => negb (mem d flat)) (node_dependencies ts y)) as [|d r] eqn:Ef.
                ** exfalso. apply Hm. apply Hcomp; [exact Hy|]. intros d Hdd.
                   destruct (mem_spec d flat) as [H|H]; [exact H|]. exfalso.
                   assert (Hc : In d (filter (fun d => negb (mem d flat)) (node_dependencies ts y))).
                   { apply filter_In. split; [exact Hdd|]. apply negb_true_iff. apply mem_false. exact H. }
                   rewrite Ef in Hc. destruct Hc.
                ** assert (Hc : In d (filter (fun d => negb (mem d flat)) (node_dependencies ts y)))
                     by (rewrite Ef; left; reflexivity).
                   apply filter_In in Hc. destruct Hc as [Hc1 Hc2]. apply node_dependencies_In in Hc1; [|exact Hd].
                   exists d. split; [|exact Hc1]. apply filter_In. split; [apply (Hcl y d Hc1)|exact Hc2].
             ++ exists a. exact Ha.
          -- set (roots := match root_dependents ts with [] => match ts with [] => [] | (t, _) :: _ => [t] end | r => r end).
             assert (Hri : incl roots (names ts)).
             { unfold roots. destruct (root_dependents ts) as [|r rs] eqn:Er.
               - destruct ts as [|[t s] ts']; [intros x []|]. intros x [<-|[]]. left. reflexivity.
               - rewrite <- Er. intros x Hx. apply root_dependents_In in Hx; [apply Hx|exact Hd]. }
             unfold find_cycles.
             destruct (find_cycles_term (names ts) (node_dependents ts)) with (fuel := S (S (length ts))) (path := @nil string)
               (children := roots) (st := (@nil string, @nil (list string))) as [st' Est].
             ++ intros d t H. apply node_dependents_In in H. eapply depends_on_source; exact H.
             ++ constructor.
             ++ intros x [].
             ++ exact Hri.
             ++ simpl. lia.
             ++ rewrite Est. cbn [option_map]. exists (snd st'). split; [reflexivity|].
                assert (Hs := find_cycles_sound (node_dependents ts) (depends_on ts)).
                eapply Hs; [| | | |exact Est].
                ** intros d t H. apply node_dependents_In. exact H.
                ** exact I.
                ** intros c _. exact I.
                ** constructor.
  Qed.
End Build.

(** ** RemoveDuplicateDependencies *)

Lemma unify_from_In : forall items seen x, In x (unify_from seen items) <-> In x items /\ ~ In x seen.
Proof.
  induction items as [|e items IH]; intros seen x; simpl; [tauto|].
  destruct (mem_spec e seen) as [H|H].
  - rewrite IH. firstorder congruence.
  - simpl. rewrite IH. simpl. destruct (string_dec e x) as [->|Hn]; firstorder congruence.
Qed.

Lemma unify_In : forall items x, In x (unify items) <-> In x items.
Proof. intros. unfold unify. rewrite unify_from_In. simpl. tauto. Qed.

Lemma unify_from_NoDup : forall items seen, NoDup (unify_from seen items).
Proof.
  induction items as [|e items IH]; intros seen; simpl; [constructor|].
  destruct (mem e seen); [apply IH|]. constructor; [|apply IH].
  rewrite unify_from_In. intros [_ H]. apply H. left. reflexivity.
Qed.

Lemma names_rdd : forall ts, names (remove_duplicate_dependencies ts) = names ts.
Proof.
  intros ts. unfold names, remove_duplicate_dependencies. rewrite map_map. apply map_ext. intros [t s]. reflexivity.
Qed.

Lemma depends_on_rdd : forall ts t d, depends_on (remove_duplicate_dependencies ts) t d <-> depends_on ts t d.
Proof.
  intros ts t d. unfold depends_on, remove_duplicate_dependencies. split.
  - intros [s' [l [Hi [El Hl]]]]. apply in_map_iff in Hi. destruct Hi as [[t0 s] [E Hi]]. inversion E; subst.
    simpl in El. destruct (sp_deps s) as [l0|] eqn:E0; [|discriminate]. simpl in El. inversion El; subst.
    exists s, l0. split; [exact Hi|]. split; [exact E0|]. apply (proj1 (unify_In _ _) Hl).
  - intros [s [l [Hi [El Hl]]]].
    exists (set_exports (set_deps s (option_map unify (sp_deps s))) (unify (sp_exports s))), (unify l). repeat split.
    + apply in_map_iff. exists (t, s). split; [reflexivity|exact Hi].
    + simpl. rewrite El. reflexivity.
    + apply unify_In. exact Hl.
Qed.

Lemma dup_free_rdd : forall ts, dup_free_deps (remove_duplicate_dependencies ts).
Proof.
  intros ts t s' H. unfold remove_duplicate_dependencies in H. apply in_map_iff in H.
  destruct H as [[t0 s] [E Hi]]. inversion E; subst. unfold deps_list. simpl.
  destruct (sp_deps s) as [l|]; simpl; [apply unify_from_NoDup|constructor].
Qed.

Lemma clos_trans_iff : forall (R R' : string -> string -> Prop), (forall x y, R x y -> R' x y) ->
  forall x y, clos_trans string R x y -> clos_trans string R' x y.
Proof. intros R R' H x y Hxy. induction Hxy; [apply t_step; auto|eapply t_trans; eassumption]. Qed.

Lemma cyclic_rdd : forall ts, cyclic (remove_duplicate_dependencies ts) <-> cyclic ts.
Proof.
  intros ts. unfold cyclic, depends_transitively. split; intros [t Ht]; exists t;
    (eapply clos_trans_iff; [|exact Ht]); intros x y; apply depends_on_rdd.
Qed.

Lemma closed_rdd : forall ts, closed (remove_duplicate_dependencies ts) <-> closed ts.
Proof.
  intros ts. unfold closed. split; intros H t d Hd.
  - rewrite <- (names_rdd ts). apply (H t d). apply depends_on_rdd. exact Hd.
  - rewrite (names_rdd ts). apply (H t d). apply depends_on_rdd. exact Hd.
Qed.

Lemma build_order_rdd : forall ts flat, build_order (remove_duplicate_dependencies ts) flat <-> build_order ts flat.
Proof.
  intros ts flat. unfold build_order. rewrite names_rdd. split; intros [H1 H2]; split; try exact H1;
    intros t d Hd; apply H2; apply depends_on_rdd; exact Hd.
Qed.

Lemma chain_impl : forall (R R' : string -> string -> Prop) l, (forall x y, R x y -> R' x y) -> chain R l -> chain R' l.
Proof.
  intros R R' l H; induction l as [|x l IH]; simpl; [tauto|]. destruct l; [tauto|].
  intros [H1 H2]. split; [apply H; exact H1|apply IH; exact H2].
Qed.

Lemma phase_cases : forall ts, is_dict ts ->
    (~ closed ts /\ exists d t, dependency_phase ts = Err (MissingDependency d t) /\
                                depends_on ts t d /\ ~ In d (names ts)) \/
    (closed ts /\ ~ cyclic ts /\ exists flat, dependency_phase ts = Ok flat /\ build_order ts flat) \/
    (closed ts /\ cyclic ts /\ exists cs, dependency_phase ts = Err (CircularDependency cs) /\
                                          Forall (real_cycle ts) cs).
Proof.
  intros ts Hd. unfold dependency_phase.
  destruct (build_cases (remove_duplicate_dependencies ts)) as [[H1 [d [t [H2 [H3 H4]]]]]|[[H1 [H2 [flat [H3 H4]]]]|[H1 [H2 [cs [H3 H4]]]]]].
  - unfold is_dict. rewrite names_rdd. exact Hd.
  - apply dup_free_rdd.
  - left. split; [rewrite <- closed_rdd; exact H1|]. exists d, t. split; [exact H2|].
    split; [apply depends_on_rdd; exact H3|rewrite names_rdd in H4; exact H4].
  - right; left. split; [apply closed_rdd; exact H1|]. split; [rewrite <- cyclic_rdd; exact H2|].
    exists flat. split; [exact H3|apply build_order_rdd; exact H4].
  - right; right. split; [apply closed_rdd; exact H1|]. split; [apply cyclic_rdd; exact H2|].
    exists cs. split; [exact H3|]. eapply Forall_impl; [|exact H4]. intros c [Hc1 [Hc2 Hc3]]. repeat split; try assumption.
    eapply chain_impl; [|exact Hc3]. intros x y. apply depends_on_rdd.
Qed.

(** ** The five statements used in Props_Graph *)

Lemma phase_order : forall ts flat, is_dict ts -> dependency_phase ts = Ok flat -> build_order ts flat.
Proof.
  intros ts flat Hd E. destruct (phase_cases ts Hd) as [[_ [d [t [H _]]]]|[[_ [_ [f [H Hb]]]]|[_ [_ [cs [H _]]]]]]; congruence.
Qed.

Lemma phase_circular : forall ts, is_dict ts -> closed ts ->
  ((exists cs, dependency_phase ts = Err (CircularDependency cs)) <-> cyclic ts) /\
  ((exists flat, dependency_phase ts = Ok flat) <-> ~ cyclic ts).
Proof.
  intros ts Hd Hc. destruct (phase_cases ts Hd) as [[H _]|[[_ [Hn [f [H Hb]]]]|[_ [Hn [cs [H _]]]]]]; [contradiction| |].
  - split; split; intros Hx; try assumption.
    + destruct Hx as [cs Hx]. congruence.
    + contradiction.
    + exists f. exact H.
  - split; split; intros Hx; try assumption.
    + exists cs. exact H.
    + destruct Hx as [f Hx]. congruence.
    + contradiction.
Qed.

Lemma phase_missing : forall ts, is_dict ts ->
  ((exists d t, dependency_phase ts = Err (MissingDependency d t)) <-> ~ closed ts) /\
  (forall d t, dependency_phase ts = Err (MissingDependency d t) -> depends_on ts t d /\ ~ In d (names ts)) /\
  (~ closed ts -> forall flat, dependency_phase ts <> Ok flat).
Proof.
  intros ts Hd. destruct (phase_cases ts Hd) as [[Hn [d [t [H Hb]]]]|[[Hcl [Hn [f [H Hb]]]]|[Hcl [Hn [cs [H _]]]]]].
  - split; [split; intros; [exact Hn|exists d, t; exact H]|]. split.
    + intros d' t' E. rewrite H in E. inversion E; subst. exact Hb.
    + intros _ flat C. congruence.
  - split; [split; [intros [d [t E]]; congruence|intros C; contradiction]|]. split; [intros d t E; congruence|intros C; contradiction].
  - split; [split; [intros [d [t E]]; congruence|intros C; contradiction]|]. split; [intros d t E; congruence|intros C; contradiction].
Qed.

Lemma same_sets_sort : forall l l' : list string, NoDup l -> NoDup l' -> (forall x, In x l <-> In x l') -> sort l = sort l'.
Proof. intros l l' H1 H2 H. apply sort_perm_eq. apply NoDup_Permutation; assumption. Qed.

Lemma node_dependencies_NoDup : forall ts t, is_dict ts -> dup_free_deps ts -> NoDup (node_dependencies ts t).
Proof.
  intros ts t Hd Hf. unfold node_dependencies. destruct (assoc t ts) as [s|] eqn:E; [|constructor].
  apply (Hf t s). apply assoc_In. exact E.
Qed.

Lemma build_order_indep : forall ts ts', is_dict ts -> dup_free_deps ts -> dup_free_deps ts' -> same_graph ts ts' ->
  forall flat, build_dependency_list ts = Ok flat -> build_dependency_list ts' = Ok flat.
Proof.
  intros ts ts' Hd Hf Hf' [Hp Hs] flat.
  assert (Hd' : is_dict ts') by (unfold is_dict; eapply Permutation_NoDup; [exact Hp|exact Hd]).
  assert (Hlen : length ts = length ts').
  { apply Permutation_length in Hp. unfold names in Hp. rewrite !map_length in Hp. exact Hp. }
  unfold build_dependency_list.
  destruct (find_missing (map fst ts) ts) as [[d t]|] eqn:Em; [discriminate|].
  apply find_missing_closed in Em.
  assert (Em' : find_missing (map fst ts') ts' = None).
  { apply find_missing_closed. intros t d H. apply Hs in H. apply (Permutation_in _ Hp). apply (Em t d H). }
  rewrite Em'.
  assert (E : flatten_to_list (S (length ts)) (node_dependents ts) (node_dependencies ts) (root_dependents ts) =
              flatten_to_list (S (length ts')) (node_dependents ts') (node_dependencies ts') (root_dependents ts')).
  { unfold flatten_to_list. rewrite Hlen.
    assert (Er : sort (root_dependents ts) = sort (root_dependents ts')).
    { apply same_sets_sort; try (apply root_dependents_NoDup; assumption).
      intros x. rewrite !root_dependents_In by assumption.
      assert (Hx : In x (names ts) <-> In x (names ts')).
      { split; apply Permutation_in; [|symmetry]; exact Hp. }
      rewrite Hx. assert (Hn : node_dependencies ts x = [] <-> node_dependencies ts' x = []).
      { split; intros H0.
        - destruct (node_dependencies ts' x) as [|y r] eqn:Ey; [reflexivity|]. exfalso.
          assert (Hy : In y (node_dependencies ts x)).
          { apply node_dependencies_In; [exact Hd|]. apply Hs. apply node_dependencies_In; [exact Hd'|].
            rewrite Ey. left. reflexivity. }
          rewrite H0 in Hy. destruct Hy.
        - destruct (node_dependencies ts x) as [|y r] eqn:Ey; [reflexivity|]. exfalso.
          assert (Hy : In y (node_dependencies ts' x)).
          { apply node_dependencies_In; [exact Hd'|]. apply Hs. apply node_dependencies_In; [exact Hd|].
            rewrite Ey. left. reflexivity. }
          rewrite H0 in Hy. destruct Hy. }
      rewrite Hn. tauto. }
    rewrite Er. apply flatten_loop_ext.
    - intros n. apply same_sets_sort; try (apply node_dependents_NoDup; assumption).
      intros x. rewrite !node_dependents_In. apply Hs.
    - intros n. apply same_sets_sort; try (apply node_dependencies_NoDup; assumption).
      intros x. rewrite !node_dependencies_In by assumption. apply Hs. }
  rewrite <- E. destruct (flatten_to_list (S (length ts)) (node_dependents ts) (node_dependencies ts) (root_dependents ts)) as [fl|]; [|discriminate].
  rewrite <- Hlen. destruct (Nat.eqb (length fl) (length ts)); [tauto|].
  destruct (find_cycles _ _ _); discriminate.
Qed.

Lemma phase_indep : forall ts ts' flat, is_dict ts -> same_graph ts ts' ->
  dependency_phase ts = Ok flat -> dependency_phase ts' = Ok flat.
Proof.
  intros ts ts' flat Hd Hs E. unfold dependency_phase in *.
  apply (build_order_indep (remove_duplicate_dependencies ts)); try apply dup_free_rdd; try assumption.
  - unfold is_dict. rewrite names_rdd. exact Hd.
  - destruct Hs as [H1 H2]. split; [rewrite !names_rdd; exact H1|]. intros t d. rewrite !depends_on_rdd. apply H2.
Qed.

Lemma phase_cycles_real : forall ts cs, is_dict ts ->
  dependency_phase ts = Err (CircularDependency cs) -> Forall (real_cycle ts) cs.
Proof.
  intros ts cs Hd E. destruct (phase_cases ts Hd) as [[_ [d [t [H _]]]]|[[_ [_ [f [H Hb]]]]|[_ [_ [cs' [H Hr]]]]]]; congruence.
Qed.

Lemma phase_no_out_of_fuel : forall ts, is_dict ts -> dependency_phase ts <> Err OutOfFuel.
Proof.
  intros ts Hd E. destruct (phase_cases ts Hd) as [[_ [d [t [H _]]]]|[[_ [_ [f [H Hb]]]]|[_ [_ [cs' [H Hr]]]]]]; congruence.
Qed.

Lemma phase_total : forall ts, is_dict ts ->
  (exists flat, dependency_phase ts = Ok flat) \/
  (exists d t, dependency_phase ts = Err (MissingDependency d t)) \/
  (exists cs, dependency_phase ts = Err (CircularDependency cs)).
Proof.
  intros ts Hd. destruct (phase_cases ts Hd) as [[_ [d [t [H _]]]]|[[_ [_ [f [H Hb]]]]|[_ [_ [cs' [H Hr]]]]]].
  - right; left; exists d, t; exact H.
  - left; exists f; exact H.
  - right; right; exists cs'; exact H.
Qed.
