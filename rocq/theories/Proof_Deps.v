(** Proofs about dependency queries: deep, imported and link dependencies. *)
From Verif Require Import Lib LibFacts Model_Graph Spec_Graph Proof_Graph.

Lemma ofold_app : forall A B (f : A -> B -> outcome A) l1 l2 acc,
  ofold f (l1 ++ l2) acc = bind (ofold f l1 acc) (ofold f l2).
Proof.
  intros A B f l1; induction l1 as [|x l1 IH]; intros l2 acc; simpl; [reflexivity|].
  destruct (f acc x) as [a|e]; simpl; [apply IH|reflexivity].
Qed.

(** ** DeepDependencies *)

Section Deep.
  Variable links : string -> list string.
  Definition edge (x y : string) : Prop := In y (links x).
  Let reach := clos_trans string edge.

  Record deep_good (acc : list string) : Prop := {
    dg_nodup : NoDup acc;
    dg_order : forall x d, In x acc -> edge x d -> before d x acc
  }.

  Lemma deep_good_closed : forall acc, deep_good acc -> forall x y, In x acc -> reach x y -> In y acc.
  Proof.
    intros acc [_ Ho] x y Hx Hr. induction Hr as [x y H|x y z _ IH1 _ IH2].
    - apply (before_In _ _ _ _ (Ho x y Hx H)).
    - apply IH2. apply IH1. exact Hx.
  Qed.

  Section Acyclic.
    Variable rank : string -> nat.
    Hypothesis Hrank : forall t d, edge t d -> rank d < rank t.

    Lemma rank_reach : forall t d, reach t d -> rank d < rank t.
    Proof. intros t d H. induction H as [x y H|x y z _ IH1 _ IH2]; [apply Hrank; exact H|lia]. Qed.

    Lemma deep_spec : forall fuel t acc, rank t < fuel -> deep_good acc ->
      exists r, deep_dependencies fuel links t acc = Ok (acc ++ r) /\ deep_good (acc ++ r) /\
                forall x, In x (acc ++ r) <-> In x acc \/ reach t x.
    Proof.
      induction fuel as [|fuel IH]; intros t acc Hr Hg; [lia|].
      cbn [deep_dependencies].
      assert (H : forall l acc, deep_good acc -> (forall d, In d l -> edge t d) ->
        exists r, ofold (fun acc d => if mem d acc then Ok acc
                       else bind (deep_dependencies fuel links d acc) (fun acc' => Ok (oset_add d acc'))) l acc = Ok (acc ++ r) /\
                  deep_good (acc ++ r) /\
                  forall x, In x (acc ++ r) <-> In x acc \/ exists d, In d l /\ (x = d \/ reach d x)).
      { clear acc Hg. intros l; induction l as [|d l IHl]; intros acc Hg Hl; cbn [ofold].
        - exists []. rewrite app_nil_r. split; [reflexivity|]. split; [exact Hg|].
          intros x. split; [tauto|]. intros [H|[d [[] _]]]; exact H.
        - assert (Hd : edge t d) by (apply Hl; left; reflexivity).
          assert (Hl' : forall d, In d l -> edge t d) by (intros y Hy; apply Hl; right; exact Hy).
          destruct (mem_spec d acc) as [Hm|Hm].
          + cbn [bind]. destruct (IHl acc Hg Hl') as [r [E [Hg' Hx]]]. exists r. split; [exact E|]. split; [exact Hg'|].
            intros x. rewrite Hx. split.
            * intros [H|[d' [H1 H2]]]; [left; exact H|right; exists d'; split; [right; exact H1|exact H2]].
            * intros [H|[d' [[<-|H1] H2]]]; [left; exact H| |right; exists d'; split; assumption].
              left. destruct H2 as [->|H2]; [exact Hm|]. eapply deep_good_closed; eassumption.
          + destruct (IH d acc) as [r1 [E1 [Hg1 Hx1]]]; [specialize (Hrank t d Hd); lia|exact Hg|].
            rewrite E1. cbn [bind].
            assert (Hnd : ~ In d (acc ++ r1)).
            { rewrite Hx1. intros [C|C]; [contradiction|]. apply rank_reach in C. lia. }
            unfold oset_add. destruct (mem_spec d (acc ++ r1)) as [C|_]; [contradiction|].
            assert (Hg2 : deep_good ((acc ++ r1) ++ [d])).
            { destruct Hg1 as [Hn1 Ho1]. constructor; [apply NoDup_snoc; assumption|].
              intros x y Hxi Hxy. apply in_app_or in Hxi. destruct Hxi as [Hxi|[<-|[]]].
              - apply before_app_l. apply Ho1; assumption.
              - apply before_snoc. apply Hx1. right. apply t_step. exact Hxy. }
            destruct (IHl _ Hg2 Hl') as [r2 [E2 [Hg3 Hx2]]]. exists (r1 ++ [d] ++ r2).
            replace (acc ++ r1 ++ [d] ++ r2) with (((acc ++ r1) ++ [d]) ++ r2) by (rewrite <- !app_assoc; reflexivity).
            split; [exact E2|]. split; [exact Hg3|]. intros x. rewrite Hx2.
            rewrite in_app_iff, Hx1. simpl. split.
            * intros [[[H|H]|[<-|[]]]|[d' [H1 H2]]].
              -- left; exact H.
              -- right. exists d. split; [left; reflexivity|right; exact H].
              -- right. exists d. split; [left; reflexivity|left; reflexivity].
              -- right. exists d'. split; [right; exact H1|exact H2].
            * intros [H|[d' [[<-|H1] H2]]].
              -- left; left; left; exact H.
              -- destruct H2 as [->|H2]; [left; right; left; reflexivity|left; left; right; exact H2].
              -- right. exists d'. split; assumption. }
      destruct (H (links t) acc Hg) as [r [E [Hg' Hx]]]; [intros d Hd; exact Hd|].
      exists r. split; [exact E|]. split; [exact Hg'|]. intros x. rewrite Hx. split.
      - intros [H0|[d [Hd [->|H0]]]]; [left; exact H0|right; apply t_step; exact Hd|].
        right. eapply t_trans; [apply t_step; exact Hd|exact H0].
      - intros [H0|H0]; [left; exact H0|right].
        apply clos_trans_t1n in H0. inversion H0 as [y Hy|y z Hy Hz]; subst.
        + exists x. split; [exact Hy|left; reflexivity].
        + exists y. split; [exact Hy|right; apply clos_t1n_trans; exact Hz].
    Qed.
  End Acyclic.

  (** With a cycle behind the target the recursion never returns. *)
  Definition meets_cycle (t : string) : Prop := exists x, clos_refl_trans string edge t x /\ reach x x.

  Lemma meets_cycle_child : forall t, meets_cycle t -> exists d, edge t d /\ meets_cycle d.
  Proof.
    intros t [x [H1 H2]]. apply clos_rt_rt1n in H1. inversion H1 as [|y z Hy Hz]; subst.
    - assert (H2' := H2). unfold reach in H2. apply clos_trans_t1n in H2. inversion H2 as [y Hy|y z Hy Hz]; subst.
      + exists x. split; [exact Hy|]. exists x. split; [apply rt_refl|exact H2'].
      + exists y. split; [exact Hy|]. exists x. split; [|exact H2'].
        apply clos_t1n_trans in Hz. clear -Hz. induction Hz; [apply rt_step; assumption|eapply rt_trans; eassumption].
    - exists y. split; [exact Hy|]. exists x. split; [apply clos_rt1n_rt; exact Hz|exact H2].
  Qed.

  Lemma deep_cyclic : forall fuel t acc res,
    (forall x, In x acc -> ~ meets_cycle x) -> deep_dependencies fuel links t acc = Ok res ->
    ~ meets_cycle t /\ (forall x, In x res -> ~ meets_cycle x).
  Proof.
    induction fuel as [|fuel IH]; intros t acc res Ha E; [discriminate|]. cbn [deep_dependencies] in E.
    assert (H : forall l acc res, (forall x, In x acc -> ~ meets_cycle x) ->
      ofold (fun acc d => if mem d acc then Ok acc
              else bind (deep_dependencies fuel links d acc) (fun acc' => Ok (oset_add d acc'))) l acc = Ok res ->
      (forall d, In d l -> ~ meets_cycle d) /\ (forall x, In x res -> ~ meets_cycle x)).
    { clear -IH. induction l as [|d l IHl]; intros acc res Ha E; cbn [ofold] in E.
      - inversion E; subst. split; [intros d []|exact Ha].
      - destruct (mem_spec d acc) as [Hm|Hm]; cbn [bind] in E.
        + destruct (IHl acc res Ha E) as [H1 H2]. split; [|exact H2].
          intros x [<-|Hx]; [apply Ha; exact Hm|apply H1; exact Hx].
        + destruct (deep_dependencies fuel links d acc) as [a1|] eqn:E1; [|discriminate]. cbn [bind] in E.
          destruct (IH d acc a1 Ha E1) as [Hd Ha1].
          destruct (IHl (oset_add d a1) res) as [H1 H2]; [|exact E|].
          * intros x Hx. apply oset_add_In in Hx. destruct Hx as [->|Hx]; [exact Hd|apply Ha1; exact Hx].
          * split; [|exact H2]. intros x [<-|Hx]; [exact Hd|apply H1; exact Hx]. }
    destruct (H (links t) acc res Ha E) as [H1 H2]. split; [|exact H2].
    intros C. apply meets_cycle_child in C. destruct C as [d [Hd C]]. exact (H1 d Hd C).
  Qed.
End Deep.

(** Position in a list, used as rank. *)
Fixpoint index (x : string) (l : list string) : nat :=
  match l with
  | [] => 0
  | y :: l' => if String.eqb x y then 0 else S (index x l')
  end.

Lemma index_lt : forall x l, In x l -> index x l < length l.
Proof.
  intros x l; induction l as [|y l IH]; simpl; [intros []|].
  destruct (String.eqb_spec x y); intros H; [lia|]. destruct H as [->|H]; [congruence|]. specialize (IH H). lia.
Qed.

Lemma index_app_not : forall x l r, ~ In x l -> index x (l ++ r) = length l + index x r.
Proof.
  intros x l r; induction l as [|y l IH]; simpl; intros H; [reflexivity|].
  destruct (String.eqb_spec x y) as [->|Hn]; [exfalso; apply H; left; reflexivity|].
  rewrite IH; [reflexivity|]. intros C; apply H; right; exact C.
Qed.

Lemma before_index : forall x y l, NoDup l -> before x y l -> index x l < index y l.
Proof.
  intros x y l Hnd [l1 [l2 [l3 E]]]. subst l.
  assert (Hx : ~ In x l1 /\ ~ In x (l2 ++ y :: l3)).
  { apply NoDup_remove in Hnd. destruct Hnd as [_ H]. split; intros C; apply H; apply in_or_app; [left|right]; exact C. }
  assert (Hnd' : NoDup ((l1 ++ x :: l2) ++ y :: l3)) by (rewrite <- app_assoc; exact Hnd).
  assert (Hy : ~ In y (l1 ++ x :: l2)).
  { apply NoDup_remove_2 in Hnd'. intros C. apply Hnd'. apply in_or_app. left. exact C. }
  replace (l1 ++ x :: l2 ++ y :: l3) with ((l1 ++ x :: l2) ++ y :: l3) at 2 by (rewrite <- app_assoc; reflexivity).
  rewrite (index_app_not y _ _ Hy). simpl (index y (y :: l3)). rewrite String.eqb_refl.
  rewrite (index_app_not x l1 _ (proj1 Hx)). simpl (index x (x :: _)). rewrite String.eqb_refl.
  rewrite app_length. simpl. lia.
Qed.

(** What the callers compute (input.py:2062; common.py:297-313): deep
    dependencies of one target of a loaded set. *)
Definition deep_of (ts : targets) (t : string) : outcome (list string) :=
  deep_dependencies (S (length ts)) (node_dependencies ts) t [].

Lemma acyclic_order : forall ts, is_dict ts -> closed ts -> ~ cyclic ts ->
  exists flat, build_order ts flat.
Proof.
  intros ts Hd Hc Hn. destruct (proj2 (phase_circular ts Hd Hc)) as [_ H]. destruct (H Hn) as [flat E].
  exists flat. apply phase_order; assumption.
Qed.

Lemma deep_of_spec : forall ts t, is_dict ts -> closed ts -> ~ cyclic ts -> In t (names ts) ->
  exists l, deep_of ts t = Ok l /\ NoDup l /\
    (forall x, In x l <-> depends_transitively ts t x) /\
    (forall x d, In x l -> depends_on ts x d -> before d x l).
Proof.
  intros ts t Hd Hc Hn Ht. destruct (acyclic_order ts Hd Hc Hn) as [flat [Hp Ho]].
  assert (Hnd : NoDup flat) by (eapply Permutation_NoDup; [symmetry; exact Hp|exact Hd]).
  assert (Hedge : forall x y, edge (node_dependencies ts) x y <-> depends_on ts x y)
    by (intros x y; apply node_dependencies_In; exact Hd).
  destruct (deep_spec (node_dependencies ts) (fun x => index x flat)) with (fuel := S (length ts)) (t := t) (acc := @nil string)
    as [r [E [Hg Hx]]].
  - intros x y Hxy. apply before_index; [exact Hnd|]. apply Ho. apply Hedge. exact Hxy.
  - assert (Hi : index t flat < length flat) by (apply index_lt; apply (Permutation_in _ (Permutation_sym Hp)); exact Ht).
    apply Permutation_length in Hp. unfold names in Hp. rewrite map_length in Hp. lia.
  - constructor; [constructor|intros x d []].
  - exists r. destruct Hg as [H1 H2]. repeat split.
    + exact E.
    + exact H1.
    + intros Hxr. apply Hx in Hxr. destruct Hxr as [[]|Hxr]. eapply clos_trans_iff; [|exact Hxr]. intros a b; apply Hedge.
    + intros Hxr. apply Hx. right. eapply clos_trans_iff; [|exact Hxr]. intros a b; apply Hedge.
    + intros x d Hxr Hxd. apply H2; [exact Hxr|apply Hedge; exact Hxd].
Qed.

Lemma deep_of_diverges : forall ts t x, is_dict ts ->
  (x = t \/ depends_transitively ts t x) -> depends_transitively ts x x ->
  forall fuel res, deep_dependencies fuel (node_dependencies ts) t [] <> Ok res.
Proof.
  intros ts t x Hd Htx Hxx fuel res E.
  destruct (deep_cyclic (node_dependencies ts) fuel t [] res (fun x H => False_ind _ H) E) as [H _].
  assert (Hcv : forall a b, depends_transitively ts a b -> clos_trans string (edge (node_dependencies ts)) a b).
  { intros a b. apply clos_trans_iff. intros p q Hpq. unfold edge. apply node_dependencies_In; assumption. }
  apply H. exists x. split; [|apply Hcv; exact Hxx].
  destruct Htx as [->|Htx]; [apply rt_refl|]. apply Hcv in Htx.
  clear -Htx. induction Htx; [apply rt_step; assumption|eapply rt_trans; eassumption].
Qed.

(** ** DirectAndImportedDependencies *)

Lemma fold_oset_add : forall l acc, NoDup acc ->
  NoDup (fold_left (fun acc d => oset_add d acc) l acc) /\
  (forall x, In x (fold_left (fun acc d => oset_add d acc) l acc) <-> In x acc \/ In x l) /\
  exists r, fold_left (fun acc d => oset_add d acc) l acc = acc ++ r /\ sublist r l.
Proof.
  induction l as [|d l IH]; intros acc Hnd; simpl.
  - repeat split; try tauto. exists []. rewrite app_nil_r. split; [reflexivity|constructor].
  - destruct (IH (oset_add d acc) (oset_add_NoDup d acc Hnd)) as [H1 [H2 [r [H3 H4]]]].
    repeat split; try assumption.
    + intros Hx. apply H2 in Hx. destruct Hx as [Hx|Hx]; [|right; right; exact Hx].
      apply oset_add_In in Hx. destruct Hx as [->|Hx]; [right; left; reflexivity|left; exact Hx].
    + intros Hx. apply H2. destruct Hx as [Hx|[->|Hx]]; [left; apply oset_add_In; right; exact Hx| |right; exact Hx].
      left. apply oset_add_In. left. reflexivity.
    + rewrite H3. unfold oset_add. destruct (mem d acc).
      * exists r. split; [reflexivity|constructor; exact H4].
      * exists (d :: r). split; [rewrite <- app_assoc; reflexivity|constructor; exact H4].
Qed.

Lemma direct_dependencies_spec : forall links t,
  NoDup (direct_dependencies links t) /\
  (forall x, In x (direct_dependencies links t) <-> In x (links t)) /\
  sublist (direct_dependencies links t) (links t).
Proof.
  intros links t. unfold direct_dependencies.
  destruct (fold_oset_add (links t) [] (NoDup_nil _)) as [H1 [H2 [r [H3 H4]]]].
  split; [exact H1|]. split.
  - intros x. rewrite H2. simpl. tauto.
  - rewrite H3. exact H4.
Qed.

Lemma insert_imports_spec : forall exports done ins rest,
  NoDup (done ++ ins ++ rest) ->
  NoDup (done ++ insert_imports done ins rest exports ++ rest) /\
  (exists r, insert_imports done ins rest exports = ins ++ r /\ incl r exports) /\
  (forall x, In x exports -> In x (done ++ insert_imports done ins rest exports ++ rest)).
Proof.
  induction exports as [|i exports IH]; intros done ins rest Hnd; simpl.
  - split; [exact Hnd|]. split; [exists []; rewrite app_nil_r; split; [reflexivity|intros x []]|intros x []].
  - destruct (mem_spec i (done ++ ins ++ rest)) as [Hm|Hm].
    + destruct (IH done ins rest Hnd) as [H1 [[r [H2 H3]] H4]]. split; [exact H1|]. split.
      * exists r. split; [exact H2|]. intros x Hx. right. apply H3. exact Hx.
      * intros x [<-|Hx]; [|apply H4; exact Hx]. rewrite H2.
        apply in_app_or in Hm. apply in_or_app. destruct Hm as [Hm|Hm]; [left; exact Hm|right].
        apply in_app_or in Hm. apply in_or_app. destruct Hm as [Hm|Hm]; [left; apply in_or_app; left; exact Hm|right; exact Hm].
    + assert (Hnd' : NoDup (done ++ (ins ++ [i]) ++ rest)).
      { rewrite <- app_assoc. simpl. rewrite app_assoc. apply (Permutation_NoDup (l := i :: (done ++ ins) ++ rest)).
        - apply Permutation_middle.
        - constructor; [rewrite <- app_assoc; exact Hm|rewrite <- app_assoc; exact Hnd]. }
      destruct (IH done (ins ++ [i]) rest Hnd') as [H1 [[r [H2 H3]] H4]]. split; [exact H1|]. split.
      * exists (i :: r). split; [rewrite H2, <- app_assoc; reflexivity|].
        intros x [<-|Hx]; [left; reflexivity|right; apply H3; exact Hx].
      * intros x [<-|Hx]; [|apply H4; exact Hx]. rewrite H2.
        apply in_or_app. right. apply in_or_app. left. apply in_or_app. left. apply in_or_app. right. left. reflexivity.
Qed.

Section Imported.
  Variable ts : targets.
  Hypothesis Hd : is_dict ts.
  Hypothesis Hex : forall t d, exports_to ts t d -> In d (names ts).
  Variable direct : list string.

  Definition imported (x : string) : Prop :=
    exists d, In d direct /\ clos_refl_trans string (exports_to ts) d x.

  Lemma add_imported_spec : forall fuel done rest,
    NoDup (done ++ rest) -> incl (done ++ rest) (names ts) ->
    length (names ts) < fuel + length done ->
    (forall x y, In x done -> exports_to ts x y -> In y (done ++ rest)) ->
    (forall x, In x (done ++ rest) -> imported x) ->
    sublist direct (done ++ rest) ->
    exists res, add_imported fuel ts done rest = Ok res /\ NoDup res /\
      (forall x y, In x res -> exports_to ts x y -> In y res) /\
      (forall x, In x res -> imported x) /\ sublist direct res.
  Proof.
    induction fuel as [|fuel IH]; intros done rest Hnd Hi Hl Hcl Hs Hsub.
    - exfalso. apply NoDup_app_inv in Hnd. destruct Hnd as [Hnd _].
      assert (Hi' : incl done (names ts)) by (intros x Hx; apply Hi; apply in_or_app; left; exact Hx).
      apply (NoDup_incl_length Hnd) in Hi'. lia.
    - cbn [add_imported]. destruct rest as [|d rest].
      + rewrite app_nil_r in *. exists done. repeat split; assumption.
      + assert (HdU : In d (names ts)) by (apply Hi; apply in_or_app; right; left; reflexivity).
        destruct (assoc_Some_key _ d ts HdU) as [s Es]. rewrite Es.
        assert (Hnd1 : NoDup ((done ++ [d]) ++ [] ++ rest)) by (rewrite <- app_assoc; exact Hnd).
        destruct (insert_imports_spec (sp_exports s) (done ++ [d]) [] rest Hnd1) as [H1 [[r [H2 H3]] H4]].
        set (ins := insert_imports (done ++ [d]) [] rest (sp_exports s)) in *.
        assert (Hexp : forall y, In y (sp_exports s) <-> exports_to ts d y).
        { intros y. split.
          - intros Hy. exists s. split; [apply assoc_In; exact Es|exact Hy].
          - intros [s' [Hs' Hy]]. assert (s' = s) as ->; [|exact Hy].
            apply (In_assoc _ _ _ _ Hd) in Hs'. congruence. }
        apply IH.
        * exact H1.
        * intros x Hx. apply in_app_or in Hx. destruct Hx as [Hx|Hx].
          -- apply Hi. apply in_app_or in Hx. apply in_or_app. destruct Hx as [Hx|[<-|[]]]; [left; exact Hx|right; left; reflexivity].
          -- apply in_app_or in Hx. destruct Hx as [Hx|Hx].
             ++ rewrite H2 in Hx. simpl in Hx. apply (Hex d). apply Hexp. apply H3. exact Hx.
             ++ apply Hi. apply in_or_app. right. right. exact Hx.
        * rewrite app_length. simpl. lia.
        * intros x y Hx Hxy. apply in_app_or in Hx. destruct Hx as [Hx|[<-|[]]].
          -- specialize (Hcl x y Hx Hxy). rewrite !in_app_iff in *. simpl in *. tauto.
          -- apply H4. apply Hexp. exact Hxy.
        * intros x Hx. apply in_app_or in Hx. destruct Hx as [Hx|Hx].
          -- apply Hs. apply in_app_or in Hx. apply in_or_app. destruct Hx as [Hx|[<-|[]]]; [left; exact Hx|right; left; reflexivity].
          -- apply in_app_or in Hx. destruct Hx as [Hx|Hx].
             ++ rewrite H2 in Hx. simpl in Hx. apply H3 in Hx. apply Hexp in Hx.
                destruct (Hs d) as [d0 [Hd0 Hr0]]; [apply in_or_app; right; left; reflexivity|].
                exists d0. split; [exact Hd0|]. eapply rt_trans; [exact Hr0|apply rt_step; exact Hx].
             ++ apply Hs. apply in_or_app. right. right. exact Hx.
        * rewrite <- app_assoc. simpl. eapply sublist_trans; [exact Hsub|]. apply sublist_app; [apply sublist_refl|].
          constructor. rewrite <- (app_nil_l rest) at 1. apply sublist_app; [apply sublist_nil|apply sublist_refl].
  Qed.
End Imported.

Lemma direct_and_imported_spec : forall ts t, is_dict ts -> closed ts ->
  (forall t d, exports_to ts t d -> In d (names ts)) -> In t (names ts) ->
  exists l, direct_and_imported ts (node_dependencies ts) t = Ok l /\ NoDup l /\
    (forall x, In x l <-> exists d, depends_on ts t d /\ clos_refl_trans string (exports_to ts) d x) /\
    sublist (direct_dependencies (node_dependencies ts) t) l.
Proof.
  intros ts t Hd Hc Hex Ht.
  destruct (direct_dependencies_spec (node_dependencies ts) t) as [D1 [D2 D3]].
  set (direct := direct_dependencies (node_dependencies ts) t) in *.
  destruct (add_imported_spec ts Hd Hex direct (S (S (length ts))) [] direct) as [res [E [H1 [H2 [H3 H4]]]]]; simpl; try assumption.
  - intros x Hx. apply D2 in Hx. apply node_dependencies_In in Hx; [|exact Hd]. apply (Hc t x Hx).
  - unfold names. rewrite map_length. lia.
  - intros x y [].
  - intros x Hx. exists x. split; [exact Hx|apply rt_refl].
  - apply sublist_refl.
  - exists res. split; [exact E|]. split; [exact H1|]. split; [|exact H4].
    intros x. split.
    + intros Hx. destruct (H3 x Hx) as [d [Hdd Hr]]. exists d. split; [|exact Hr].
      apply node_dependencies_In; [exact Hd|]. apply D2. exact Hdd.
    + intros [d [Hdd Hr]]. assert (Hdr : In d res).
      { apply (sublist_In _ _ _ d H4). apply D2. apply node_dependencies_In; assumption. }
      clear Hdd. apply clos_rt_rt1n in Hr. induction Hr as [|x y z Hxy _ IH]; [exact Hdr|].
      apply IH. apply (H2 x y Hdr Hxy).
Qed.

(** ** Link dependencies *)

Section Link.
  Variable ts : targets.
  Variable inc : bool.
  Hypothesis Hd : is_dict ts.
  Hypothesis Hc : closed ts.
  Hypothesis Ht : typed ts.

  Let links := node_dependencies ts.

  Inductive behind (d : string) : string -> Prop :=
  | behind_refl : ~ final ts inc d -> behind d d
  | behind_step y x : behind d y -> transparent ts inc y -> depends_on ts y x -> ~ final ts inc x -> behind d x.

  Lemma behind_front : forall d e x, ~ final ts inc d -> transparent ts inc d -> depends_on ts d e -> behind e x -> behind d x.
  Proof.
    intros d e x Hf Htr Hde H. induction H as [Hfe|y x H IH Htr' Hyx Hfx].
    - apply (behind_step d d); try assumption. apply behind_refl. exact Hf.
    - apply (behind_step d y); assumption.
  Qed.

  Lemma linked_into_behind : forall t x, linked_into ts inc t x <-> exists d, depends_on ts t d /\ behind d x.
  Proof.
    intros t x. split.
    - intros H. induction H as [x H1 H2|y x H [d [H1 H2]] H3 H4 H5].
      + exists x. split; [exact H1|apply behind_refl; exact H2].
      + exists d. split; [exact H1|]. apply (behind_step d y); assumption.
    - intros [d [H1 H2]]. induction H2 as [H|y x H IH H3 H4 H5].
      + apply link_direct; assumption.
      + apply (link_behind _ _ _ y); assumption.
  Qed.

  Lemma lookup : forall x, In x (names ts) -> exists s ty, assoc x ts = Some s /\ sp_has_name s = true /\ sp_type s = Some ty.
  Proof.
    intros x Hx. destruct (assoc_Some_key _ x ts Hx) as [s Es]. destruct (Ht x s (assoc_In _ _ _ _ Es)) as [H1 H2].
    destruct (sp_type s) as [ty|] eqn:Ety; [|congruence]. exists s, ty. repeat split; assumption.
  Qed.

  Lemma type_is_eq : forall x s ty ty', assoc x ts = Some s -> sp_type s = Some ty -> (type_is ts x ty' <-> ty' = ty).
  Proof.
    intros x s ty ty' Es Ety. split.
    - intros [s' [Hs' H]]. apply (In_assoc _ _ _ _ Hd) in Hs'. congruence.
    - intros ->. exists s. split; [apply assoc_In; exact Es|exact Ety].
  Qed.

  Lemma final_bool : forall x s ty, assoc x ts = Some s -> sp_type s = Some ty ->
    (final ts inc x <-> mem ty final_types = true \/ (ty = "shared_library"%string /\ inc = false)).
  Proof.
    intros x s ty Es Ety. unfold final. rewrite !(type_is_eq x s ty _ Es Ety).
    rewrite mem_In. simpl. intuition congruence.
  Qed.

  Lemma opaque_bool : forall x s ty, assoc x ts = Some s -> sp_type s = Some ty ->
    (opaque ts x <-> String.eqb ty "none" && negb (sp_traverse s) = true).
  Proof.
    intros x s ty Es Ety. unfold opaque. rewrite andb_true_iff, String.eqb_eq, negb_true_iff. split.
    - intros [s' [Hs' [H1 H2]]]. apply (In_assoc _ _ _ _ Hd) in Hs'. assert (s' = s) by congruence. subst s'. split; congruence.
    - intros [-> H2]. exists s. repeat split; try assumption. apply assoc_In. exact Es.
  Qed.

  Definition U := names ts.

  Lemma link_spec : forall fuel ref acc,
    In ref U -> missing U acc < fuel -> NoDup acc ->
    exists r, link_dependencies fuel ts links inc false ref acc = Ok (acc ++ r) /\
      NoDup (acc ++ r) /\ incl r U /\
      (~ final ts inc ref -> In ref (acc ++ r)) /\
      (forall x, In x r -> transparent ts inc x -> forall y, depends_on ts x y -> ~ final ts inc y -> In y (acc ++ r)) /\
      (forall x, In x r -> behind ref x).
  Proof.
    induction fuel as [|fuel IH]; intros ref acc HrU Hm Hnd; [lia|].
    cbn [link_dependencies]. destruct (lookup ref HrU) as [s [ty [Es [En Ety]]]]. rewrite Es, En, Ety. cbn [negb andb].
    assert (Hfb := final_bool ref s ty Es Ety). assert (Hob := opaque_bool ref s ty Es Ety).
    destruct (String.eqb ty "none" && negb (sp_traverse s)) eqn:Eo.
    { assert (Ho : opaque ts ref) by (apply Hob; reflexivity).
      assert (Hnf : ~ final ts inc ref).
      { rewrite Hfb. apply andb_true_iff in Eo. destruct Eo as [E1 _]. apply String.eqb_eq in E1. subst ty.
        intros [C|[C _]]; [vm_compute in C; discriminate|discriminate]. }
      unfold oset_add. destruct (mem_spec ref acc) as [Hr|Hr].
      - exists []. rewrite app_nil_r. repeat split; try assumption; try (intros x []). intros _; exact Hr.
      - exists [ref]. repeat split.
        + apply NoDup_snoc; assumption.
        + intros x [<-|[]]. exact HrU.
        + intros _. apply in_or_app. right. left. reflexivity.
        + intros x [<-|[]] [_ [C _]]. contradiction.
        + intros x [<-|[]]. apply behind_refl. exact Hnf. }
    destruct (mem ty final_types) eqn:Ef.
    { assert (Hfin : final ts inc ref) by (apply Hfb; left; reflexivity).
      exists []. rewrite app_nil_r. repeat split; try assumption; try (intros x []). intros C; contradiction. }
    destruct (String.eqb_spec ty "shared_library") as [Esh|Esh].
    - destruct (Bool.bool_dec inc true) as [Einc|Einc];
      [assert (Ei : negb inc = false) by (rewrite Einc; reflexivity)
      |apply not_true_is_false in Einc; assert (Ei : negb inc = true) by (rewrite Einc; reflexivity)];
      cbn [negb andb]; rewrite ?Ei; cbn [negb andb].
      + assert (Hnf : ~ final ts inc ref) by (rewrite Hfb; intros [C|[_ C]]; congruence).
        destruct (mem_spec ref acc) as [Hr|Hr].
        * exists []. rewrite app_nil_r. repeat split; try assumption; try (intros x []). intros _; exact Hr.
        * replace (mem ty linkable_types) with true by (subst ty; reflexivity). cbn [orb negb].
          unfold oset_add. destruct (mem_spec ref acc) as [C|_]; [contradiction|]. exists [ref]. repeat split.
          -- apply NoDup_snoc; assumption.
          -- intros x [<-|[]]. exact HrU.
          -- intros _. apply in_or_app. right. left. reflexivity.
          -- intros x [<-|[]] [_ [_ C]]. exfalso. apply C. apply (type_is_eq ref s ty _ Es Ety). congruence.
          -- intros x [<-|[]]. apply behind_refl. exact Hnf.
      + assert (Hfin : final ts inc ref) by (apply Hfb; right; split; [exact Esh|exact Einc]).
        exists []. rewrite app_nil_r. repeat split; try assumption; try (intros x []). intros C; contradiction.
    - cbn [negb andb].
      assert (Hnf : ~ final ts inc ref) by (rewrite Hfb; intros [C|[C _]]; congruence).
      assert (Htr : transparent ts inc ref).
      { split; [exact Hnf|]. split; [rewrite Hob; discriminate|]. intros C. apply (type_is_eq ref s ty _ Es Ety) in C. congruence. }
      destruct (mem_spec ref acc) as [Hr|Hr].
      { exists []. rewrite app_nil_r. repeat split; try assumption; try (intros x []). intros _; exact Hr. }
      assert (El : mem ty linkable_types = false).
      { apply mem_false. apply mem_false in Ef. intros C. simpl in C. simpl in Ef. intuition congruence. }
      rewrite El. cbn [orb negb].
      unfold oset_add. destruct (mem_spec ref acc) as [C|_]; [contradiction|].
      assert (Hm1 : missing U (acc ++ [ref]) < fuel).
      { assert (missing U (acc ++ [ref]) < missing U acc); [|lia]. apply missing_add_lt with ref; try assumption.
        - intros x Hx. apply in_or_app. left. exact Hx.
        - apply in_or_app. right. left. reflexivity. }
      assert (Hloop : forall l acc1, incl l U -> missing U acc1 < fuel -> NoDup acc1 ->
        exists r, ofold (fun a d => link_dependencies fuel ts links inc false d a) l acc1 = Ok (acc1 ++ r) /\
          NoDup (acc1 ++ r) /\ incl r U /\
          (forall d, In d l -> ~ final ts inc d -> In d (acc1 ++ r)) /\
          (forall x, In x r -> transparent ts inc x -> forall y, depends_on ts x y -> ~ final ts inc y -> In y (acc1 ++ r)) /\
          (forall x, In x r -> exists d, In d l /\ behind d x)).
      { clear -IH. induction l as [|d l IHl]; intros acc1 Hl Hm1 Hnd1; cbn [ofold].
        - exists []. rewrite app_nil_r. repeat split; try assumption; try (intros x []).
        - destruct (IH d acc1) as [r1 [E1 [N1 [I1 [A1 [C1 B1]]]]]]; [apply Hl; left; reflexivity|exact Hm1|exact Hnd1|].
          rewrite E1. cbn [bind].
          destruct (IHl (acc1 ++ r1)) as [r2 [E2 [N2 [I2 [A2 [C2 B2]]]]]].
          + intros x Hx. apply Hl. right. exact Hx.
          + assert (missing U (acc1 ++ r1) <= missing U acc1); [|lia]. apply missing_mono. intros x Hx. apply in_or_app. left. exact Hx.
          + exact N1.
          + exists (r1 ++ r2). rewrite app_assoc. repeat split.
            * exact E2.
            * exact N2.
            * intros x Hx. apply in_app_or in Hx. destruct Hx; [apply I1|apply I2]; assumption.
            * intros x [<-|Hx] Hfx; [apply in_or_app; left; apply A1; exact Hfx|apply A2; assumption].
            * intros x Hx Htx y Hxy Hfy. apply in_app_or in Hx. destruct Hx as [Hx|Hx].
              -- apply in_or_app. left. apply (C1 x Hx Htx y Hxy Hfy).
              -- apply (C2 x Hx Htx y Hxy Hfy).
            * intros x Hx. apply in_app_or in Hx. destruct Hx as [Hx|Hx].
              -- exists d. split; [left; reflexivity|apply B1; exact Hx].
              -- destruct (B2 x Hx) as [d' [H1 H2]]. exists d'. split; [right; exact H1|exact H2]. }
      destruct (Hloop (links ref) (acc ++ [ref])) as [r [E [N [I [A [C B]]]]]].
      + intros d Hdd. apply (Hc ref d). apply node_dependencies_In; [exact Hd|exact Hdd].
      + exact Hm1.
      + apply NoDup_snoc; assumption.
      + exists ([ref] ++ r). rewrite app_assoc. repeat split.
        * exact E.
        * exact N.
        * intros x Hx. apply in_app_or in Hx. destruct Hx as [[<-|[]]|Hx]; [exact HrU|apply I; exact Hx].
        * intros _. apply in_or_app. left. apply in_or_app. right. left. reflexivity.
        * intros x Hx Htx y Hxy Hfy. apply in_app_or in Hx. destruct Hx as [[<-|[]]|Hx].
          -- apply A; [|exact Hfy]. apply node_dependencies_In; [exact Hd|exact Hxy].
          -- apply (C x Hx Htx y Hxy Hfy).
        * intros x Hx. apply in_app_or in Hx. destruct Hx as [[<-|[]]|Hx]; [apply behind_refl; exact Hnf|].
          destruct (B x Hx) as [d [H1 H2]]. apply (behind_front ref d); try assumption.
          apply node_dependencies_In; [exact Hd|exact H1].
  Qed.

  Lemma link_loop : forall fuel l acc1, incl l U -> missing U acc1 < fuel -> NoDup acc1 ->
        exists r, ofold (fun a d => link_dependencies fuel ts links inc false d a) l acc1 = Ok (acc1 ++ r) /\
          NoDup (acc1 ++ r) /\ incl r U /\
          (forall d, In d l -> ~ final ts inc d -> In d (acc1 ++ r)) /\
          (forall x, In x r -> transparent ts inc x -> forall y, depends_on ts x y -> ~ final ts inc y -> In y (acc1 ++ r)) /\
          (forall x, In x r -> exists d, In d l /\ behind d x).
  Proof.
    intros fuel. assert (IH := link_spec fuel). induction l as [|d l IHl]; intros acc1 Hl Hm1 Hnd1; cbn [ofold].
    - exists []. rewrite app_nil_r. repeat split; try assumption; try (intros x []).
    - destruct (IH d acc1) as [r1 [E1 [N1 [I1 [A1 [C1 B1]]]]]]; [apply Hl; left; reflexivity|exact Hm1|exact Hnd1|].
      rewrite E1. cbn [bind].
      destruct (IHl (acc1 ++ r1)) as [r2 [E2 [N2 [I2 [A2 [C2 B2]]]]]].
      + intros x Hx. apply Hl. right. exact Hx.
      + assert (missing U (acc1 ++ r1) <= missing U acc1); [|lia]. apply missing_mono. intros x Hx. apply in_or_app. left. exact Hx.
      + exact N1.
      + exists (r1 ++ r2). rewrite app_assoc. repeat split.
        * exact E2.
        * exact N2.
        * intros x Hx. apply in_app_or in Hx. destruct Hx; [apply I1|apply I2]; assumption.
        * intros x [<-|Hx] Hfx; [apply in_or_app; left; apply A1; exact Hfx|apply A2; assumption].
        * intros x Hx Htx y Hxy Hfy. apply in_app_or in Hx. destruct Hx as [Hx|Hx].
          -- apply in_or_app. left. apply (C1 x Hx Htx y Hxy Hfy).
          -- apply (C2 x Hx Htx y Hxy Hfy).
        * intros x Hx. apply in_app_or in Hx. destruct Hx as [Hx|Hx].
          -- exists d. split; [left; reflexivity|apply B1; exact Hx].
          -- destruct (B2 x Hx) as [d' [H1 H2]]. exists d'. split; [right; exact H1|exact H2].
  Qed.

  Lemma linkable_bool : forall x s ty, assoc x ts = Some s -> sp_type s = Some ty ->
    (linkable ts x <-> mem ty linkable_types = true).
  Proof.
    intros x s ty Es Ety. unfold linkable. rewrite !(type_is_eq x s ty _ Es Ety). rewrite mem_In. simpl. intuition congruence.
  Qed.

  Lemma link_initial : forall t, In t U ->
    (~ linkable ts t -> link_dependencies (link_fuel ts) ts links inc true t [] = Ok []) /\
    (linkable ts t -> exists r, link_dependencies (link_fuel ts) ts links inc true t [] = Ok (t :: r) /\
      NoDup (t :: r) /\ forall x, In x (t :: r) <-> x = t \/ linked_into ts inc t x).
  Proof.
    intros t HtU. unfold link_fuel. cbn [link_dependencies].
    destruct (lookup t HtU) as [s [ty [Es [En Ety]]]]. rewrite Es, En, Ety. cbn [negb andb].
    assert (Hlb := linkable_bool t s ty Es Ety). split.
    - intros Hn. destruct (mem ty linkable_types) eqn:El; [exfalso; apply Hn; apply Hlb; reflexivity|]. reflexivity.
    - intros Hl. apply Hlb in Hl. rewrite Hl. cbn [negb].
      assert (Enone : String.eqb ty "none" = false).
      { destruct (String.eqb_spec ty "none") as [->|]; [vm_compute in Hl; discriminate|reflexivity]. }
      rewrite Enone. cbn [andb negb orb mem existsb oset_add app].
      change (oset_add t []) with [t].
      destruct (link_loop (S (length ts)) (links t) [t]) as [r [E [N [I [A [C B]]]]]].
      + intros d Hdd. apply (Hc t d). apply node_dependencies_In; [exact Hd|exact Hdd].
      + assert (missing U [t] <= length U) by apply missing_le. unfold U, names in *. rewrite map_length in H. lia.
      + constructor; [intros []|constructor].
      + exists r. split; [exact E|]. split; [exact N|]. intros x. split.
        * intros [<-|Hx]; [left; reflexivity|right]. destruct (B x Hx) as [d [H1 H2]].
          apply linked_into_behind. exists d. split; [|exact H2]. apply node_dependencies_In; [exact Hd|exact H1].
        * intros [->|Hx]; [left; reflexivity|].
          induction Hx as [x H1 H2|y x H IH H3 H4 H5].
          -- apply (A x); [apply node_dependencies_In; [exact Hd|exact H1]|exact H2].
          -- destruct IH as [<-|IH]; [|apply (C y IH H3 x H4 H5)].
             exfalso. destruct H3 as [H31 [_ H33]]. apply H31. apply (final_bool t s ty Es Ety).
             left. apply mem_In. apply mem_In in Hl. simpl in Hl.
             assert (ty <> "shared_library"%string) by (intros ->; apply H33; exists s; split; [apply assoc_In; exact Es|exact Ety]).
             simpl. intuition congruence.
  Qed.
End Link.
