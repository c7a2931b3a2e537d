(** Proofs about TopologicallySorted. *)
From Verif Require Import Lib LibFacts Model_TopoSort.

Section Topo.
  Variable get_edges : string -> list string.
  Definition tedge (x y : string) : Prop := In y (get_edges x).
  Definition treach := clos_trans string tedge.
  Definition treach0 := clos_refl_trans string tedge.

  Variable U : list string.
  Hypothesis HU : forall x y, In x U -> tedge x y -> In y U.

  Record tinv (visiting : list string) (st : topo_state) : Prop := {
    ti_nodup : NoDup (snd st);
    ti_visited : forall x, In x (fst st) <-> In x (snd st) \/ In x visiting;
    ti_disj : forall x, In x visiting -> ~ In x (snd st);
    ti_order : forall x y, In x (snd st) -> tedge x y -> before x y (snd st)
  }.

  Lemma reach_snoc_rt : forall x y z, treach0 x y -> tedge y z -> treach x z.
  Proof.
    intros x y z H Hz. apply clos_rt_rt1n in H. induction H as [x|x w y Hxw _ IH]; [apply t_step; exact Hz|].
    eapply t_trans; [apply t_step; exact Hxw|apply IH; exact Hz].
  Qed.
  Lemma t_rt : forall x y, treach x y -> treach0 x y.
  Proof. intros x y H. induction H; [apply rt_step; assumption|eapply rt_trans; eassumption]. Qed.
  Lemma rt_cases : forall x y, treach0 x y -> x = y \/ treach x y.
  Proof.
    intros x y H. induction H as [x y H|x|x y z _ IH1 _ IH2]; [right; apply t_step; exact H|left; reflexivity|].
    destruct IH1 as [->|IH1]; [exact IH2|]. destruct IH2 as [<-|IH2]; right; [exact IH1|eapply t_trans; eassumption].
  Qed.

  Definition good_cycle (visiting vs : list string) (from : string -> Prop) : Prop :=
    (exists c, In c vs /\ treach c c) /\
    forall v, In v vs -> In v visiting \/ exists f, from f /\ treach0 f v.

  Definition visit_post (visiting : list string) (from : string -> Prop) (st : topo_state) (r : topo topo_state) : Prop :=
    match r with
    | Sorted st' => tinv visiting st' /\ (exists new, snd st' = new ++ snd st /\ forall x, In x new -> exists f, from f /\ treach0 f x) /\
                    (forall f, from f -> In f (snd st')) /\ incl (fst st) (fst st')
    | CycleError vs => good_cycle visiting vs from
    | TopoOutOfFuel => False
    end.

  Lemma visit_spec : forall fuel visiting node st,
    tinv visiting st -> (forall v, In v visiting -> treach v node) -> In node U ->
    missing U (fst st) < fuel ->
    visit_post visiting (eq node) st (visit fuel get_edges visiting node st).
  Proof.
    induction fuel as [|fuel IH]; intros visiting node st Hi Hv Hn Hf; [lia|]. cbn [visit].
    destruct (mem_spec node visiting) as [Hm|Hm].
    { split; [exists node; split; [exact Hm|apply Hv; exact Hm]|]. intros v Hx. left. exact Hx. }
    destruct (mem_spec node (fst st)) as [Hs|Hs].
    { split; [exact Hi|]. split; [exists []; split; [reflexivity|intros x []]|]. split; [|apply incl_refl].
      intros f <-. apply (ti_visited _ _ Hi) in Hs. tauto. }
    match goal with |- context [(fix go (ns : list string) (st : topo_state) {struct ns} := _)] => idtac end.
    set (go := fix go (ns : list string) (st : topo_state) : topo topo_state :=
               match ns with
               | [] => Sorted st
               | n :: ns' => match visit fuel get_edges (node :: visiting) n st with
                             | Sorted st' => go ns' st'
                             | e => e
                             end
               end).
    assert (Hgo : forall ns st, (forall n, In n ns -> tedge node n) -> tinv (node :: visiting) st -> missing U (fst st) < fuel ->
              visit_post (node :: visiting) (fun f => In f ns) st (go ns st)).
    { clear st Hi Hf Hs. intros ns; induction ns as [|n ns IHn]; intros st Hns Hi Hf; cbn [go].
      - split; [exact Hi|]. split; [exists []; split; [reflexivity|intros x []]|]. split; [intros f []|apply incl_refl].
      - assert (Hnn : tedge node n) by (apply Hns; left; reflexivity).
        assert (H1 : visit_post (node :: visiting) (eq n) st (visit fuel get_edges (node :: visiting) n st)).
        { apply IH; [exact Hi| |eapply HU; eassumption|exact Hf].
          intros v [<-|Hx]; [apply t_step; exact Hnn|]. eapply t_trans; [apply Hv; exact Hx|apply t_step; exact Hnn]. }
        destruct (visit fuel get_edges (node :: visiting) n st) as [st1|vs|]; [|exact (conj (proj1 H1) (fun v Hx => match proj2 H1 v Hx with or_introl a => or_introl a | or_intror (ex_intro _ f (conj e r)) => or_intror (ex_intro _ f (conj (or_introl e) r)) end))|exact H1].
        destruct H1 as [Hi1 [[new1 [E1 N1]] [F1 S1]]].
        assert (H2 : visit_post (node :: visiting) (fun f => In f ns) st1 (go ns st1)).
        { apply IHn; [intros m Hm'; apply Hns; right; exact Hm'|exact Hi1|].
          assert (missing U (fst st1) <= missing U (fst st)) by (apply missing_mono; exact S1). lia. }
        destruct (go ns st1) as [st2|vs|].
        + destruct H2 as [Hi2 [[new2 [E2 N2]] [F2 S2]]]. split; [exact Hi2|]. split.
          * exists (new2 ++ new1). split; [rewrite E2, E1, app_assoc; reflexivity|].
            intros x Hx. apply in_app_or in Hx. destruct Hx as [Hx|Hx].
            -- destruct (N2 x Hx) as [f [Hf1 Hf2]]. exists f. split; [right; exact Hf1|exact Hf2].
            -- destruct (N1 x Hx) as [f [Hf1 Hf2]]. exists f. split; [left; exact Hf1|exact Hf2].
          * split; [|eapply incl_tran; eassumption]. intros f [<-|Hx]; [|apply F2; exact Hx].
            rewrite E2. apply in_or_app. right. apply F1. reflexivity.
        + destruct H2 as [H21 H22]. split; [exact H21|]. intros v Hx. destruct (H22 v Hx) as [H|[f [Hf1 Hf2]]]; [left; exact H|].
          right. exists f. split; [right; exact Hf1|exact Hf2].
        + exact H2. }
    assert (Hi' : tinv (node :: visiting) (node :: fst st, snd st)).
    { destruct Hi as [T1 T2 T3 T4]. constructor; cbn [fst snd].
      - exact T1.
      - intros x. simpl. rewrite T2. tauto.
      - intros x [<-|Hx]; [|apply T3; exact Hx]. intros C. apply Hs. apply T2. left. exact C.
      - exact T4. }
    specialize (Hgo (get_edges node) (node :: fst st, snd st) (fun n H => H) Hi').
    assert (Hf' : missing U (fst (node :: fst st, snd st)) < fuel).
    { assert (missing U (node :: fst st) < missing U (fst st)); [|cbn [fst]; lia].
      apply missing_add_lt with node; try assumption; [intros x Hx; right; exact Hx|left; reflexivity]. }
    specialize (Hgo Hf'). destruct (go (get_edges node) (node :: fst st, snd st)) as [st1|vs|].
    - destruct Hgo as [[T1 T2 T3 T4] [[new [E N]] [F S1]]]. cbn [snd fst] in *.
      split; [|split; [|split]].
      + constructor; cbn [fst snd].
        * constructor; [apply T3; left; reflexivity|exact T1].
        * intros x. rewrite T2. simpl. tauto.
        * intros x Hx [<-|C]; [contradiction|]. apply (T3 x); [right; exact Hx|exact C].
        * intros x y [<-|Hx] Hxy.
          -- apply before_head. apply F. exact Hxy.
          -- apply before_cons. apply T4; assumption.
      + cbn [snd]. exists (node :: new). split; [rewrite E; reflexivity|].
        intros x [<-|Hx]; [exists node; split; [reflexivity|apply rt_refl]|].
        destruct (N x Hx) as [f [Hf1 Hf2]]. exists node. split; [reflexivity|].
        eapply rt_trans; [apply rt_step; exact Hf1|exact Hf2].
      + intros f <-. left. reflexivity.
      + cbn [fst]. intros x Hx. apply S1. right. exact Hx.
    - destruct Hgo as [H1 H2]. split; [exact H1|]. intros v Hx. destruct (H2 v Hx) as [[<-|H]|[f [Hf1 Hf2]]].
      + right. exists node. split; [reflexivity|apply rt_refl].
      + left. exact H.
      + right. exists node. split; [reflexivity|]. eapply rt_trans; [apply rt_step; exact Hf1|exact Hf2].
    - exact Hgo.
  Qed.

  Lemma visit_all_spec : forall fuel nodes st, length U < fuel -> incl nodes U -> tinv [] st ->
    visit_post [] (fun f => In f nodes) st (visit_all fuel get_edges nodes st).
  Proof.
    intros fuel nodes; induction nodes as [|n ns IHn]; intros st Hf Hn Hi; cbn [visit_all].
    - split; [exact Hi|]. split; [exists []; split; [reflexivity|intros x []]|]. split; [intros f []|apply incl_refl].
    - assert (H1 : visit_post [] (eq n) st (visit fuel get_edges [] n st)).
      { apply visit_spec; [exact Hi|intros v []|apply Hn; left; reflexivity|].
        assert (missing U (fst st) <= length U) by apply missing_le. lia. }
      destruct (visit fuel get_edges [] n st) as [st1|vs|].
      + destruct H1 as [Hi1 [[new1 [E1 N1]] [F1 S1]]].
        assert (H2 := IHn st1 Hf (fun x Hx => Hn x (or_intror Hx)) Hi1). destruct (visit_all fuel get_edges ns st1) as [st2|vs|].
        * destruct H2 as [Hi2 [[new2 [E2 N2]] [F2 S2]]]. split; [exact Hi2|]. split.
          -- exists (new2 ++ new1). split; [rewrite E2, E1, app_assoc; reflexivity|].
             intros x Hx. apply in_app_or in Hx. destruct Hx as [Hx|Hx].
             ++ destruct (N2 x Hx) as [f [Hf1 Hf2]]. exists f. split; [right; exact Hf1|exact Hf2].
             ++ destruct (N1 x Hx) as [f [Hf1 Hf2]]. exists f. split; [left; exact Hf1|exact Hf2].
          -- split; [|eapply incl_tran; eassumption]. intros f [<-|Hx]; [|apply F2; exact Hx].
             rewrite E2. apply in_or_app. right. apply F1. reflexivity.
        * destruct H2 as [H21 H22]. split; [exact H21|]. intros v Hx. destruct (H22 v Hx) as [H|[f [Hf1 Hf2]]]; [left; exact H|].
          right. exists f. split; [right; exact Hf1|exact Hf2].
        * exact H2.
      + destruct H1 as [H11 H12]. split; [exact H11|]. intros v Hx. destruct (H12 v Hx) as [H|[f [Hf1 Hf2]]]; [left; exact H|].
        right. exists f. split; [left; exact Hf1|exact Hf2].
      + exact H1.
  Qed.

  Lemma topo_cases : forall fuel graph, length U < fuel -> incl graph U ->
    (exists l, topologically_sorted fuel graph get_edges = Sorted l /\ NoDup l /\
       (forall x, In x l <-> exists g, In g graph /\ treach0 g x) /\
       (forall x y, In x l -> tedge x y -> before x y l) /\
       ~ exists g c, In g graph /\ treach0 g c /\ treach c c) \/
    (exists vs c, topologically_sorted fuel graph get_edges = CycleError vs /\ In c vs /\ treach c c /\
       forall v, In v vs -> exists g, In g graph /\ treach0 g v).
  Proof.
    intros fuel graph Hf Hg. unfold topologically_sorted.
    assert (H := visit_all_spec fuel (sort graph) ([], []) Hf).
    assert (Hs : incl (sort graph) U) by (intros x Hx; rewrite sort_In in Hx; apply Hg; exact Hx).
    specialize (H Hs). assert (Hi : tinv [] ([], [])).
    { constructor; cbn; try constructor; try tauto; try (intros x []). }
    specialize (H Hi). destruct (visit_all fuel get_edges (sort graph) ([], [])) as [st|vs|].
    - left. destruct H as [[T1 T2 T3 T4] [[new [E N]] [F _]]]. cbn [snd] in E. rewrite app_nil_r in E.
      exists (snd st). split; [reflexivity|]. split; [exact T1|].
      assert (Hin : forall x, In x (snd st) <-> exists g, In g graph /\ treach0 g x).
      { intros x. split.
        - intros Hx. rewrite E in Hx. destruct (N x Hx) as [f [Hf1 Hf2]]. exists f. split; [rewrite sort_In in Hf1; exact Hf1|exact Hf2].
        - intros [g [Hg1 Hg2]]. assert (Hg3 : In g (snd st)) by (apply F; apply sort_In; exact Hg1).
          clear -Hg2 Hg3 T4. apply clos_rt_rt1n in Hg2. induction Hg2 as [|x y z Hxy _ IH]; [exact Hg3|].
          apply IH. apply (before_In _ _ _ _ (T4 x y Hg3 Hxy)). }
      split; [exact Hin|]. split; [exact T4|].
      intros [g [c [Hg1 [Hg2 Hc]]]]. assert (Hcin : In c (snd st)) by (apply Hin; exists g; split; assumption).
      assert (Hb : forall x y, treach x y -> In x (snd st) -> before x y (snd st)).
      { intros x y Hxy. induction Hxy as [x y Hxy|x y z _ IH1 _ IH2]; intros Hx; [apply T4; assumption|].
        assert (B1 := IH1 Hx). eapply before_trans; [exact T1|exact B1|]. apply IH2. apply (before_In _ _ _ _ B1). }
      apply (before_irrefl _ _ _ T1 (Hb c c Hc Hcin)).
    - right. destruct H as [[c [H1 H2]] H3]. exists vs, c. repeat split; try assumption.
      intros v Hx. destruct (H3 v Hx) as [[]|[f [Hf1 Hf2]]]. exists f. split; [rewrite sort_In in Hf1; exact Hf1|exact Hf2].
    - destruct H.
  Qed.
End Topo.

Lemma topo_perm : forall fuel graph graph' get_edges, Permutation graph graph' ->
  topologically_sorted fuel graph get_edges = topologically_sorted fuel graph' get_edges.
Proof. intros fuel graph graph' get_edges H. unfold topologically_sorted. rewrite (sort_perm_eq _ _ H). reflexivity. Qed.

Lemma topo_edge_order : exists graph edges edges',
  (forall x, Permutation (edges x) (edges' x)) /\
  topologically_sorted 4 graph edges = Sorted ["a"; "c"; "b"]%string /\
  topologically_sorted 4 graph edges' = Sorted ["a"; "b"; "c"]%string.
Proof.
  exists ["a"; "b"; "c"]%string, (fun x => if String.eqb x "a" then ["b"; "c"]%string else []),
         (fun x => if String.eqb x "a" then ["c"; "b"]%string else []).
  split; [|split; vm_compute; reflexivity]. intros x. destruct (String.eqb x "a"); [apply perm_swap|constructor].
Qed.
