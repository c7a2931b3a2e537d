(** Circular .gyp files (input.py:1993-2050). *)
From Verif Require Import Lib LibFacts Str StrFacts Model_Graph Spec_Graph Proof_Graph Model_Names Spec_Names.

Section Core.
  Variable U : list string.
  Variable dependencies dependents : string -> list string.
  Variable R : string -> string -> Prop.
  Hypothesis HU : NoDup U.
  Hypothesis HR : forall t d, R t d <-> In t U /\ In d (dependencies t).
  Hypothesis Hclosed : forall t d, R t d -> In d U.
  Hypothesis Hdents : forall d t, In t (dependents d) <-> R t d.
  Hypothesis HdentsND : forall d, NoDup (dependents d).

  Let roots := filter (fun f => match dependencies f with [] => true | _ => false end) U.

  Lemma core_flatten : exists flat,
    flatten_to_list (S (length U)) dependents dependencies roots = Some flat /\
    (length flat = length U <-> ~ exists x, clos_trans string R x x).
  Proof.
    destruct (flatten_spec U dependencies dependents) with (roots := roots) as [flat [E [Hnd [Hinc [Hord Hcomp]]]]].
    - intros d t. rewrite Hdents. apply HR.
    - exact HdentsND.
    - intros t. unfold roots. rewrite filter_In. destruct (dependencies t); split; intros [H1 H2]; split; congruence || assumption || reflexivity.
    - apply NoDup_filter. exact HU.
    - exists flat. split; [exact E|]. split.
      + intros El [x Hx].
        assert (Hp : Permutation flat U) by (apply NoDup_Permutation_bis; [exact Hnd|lia|exact Hinc]).
        assert (Hb : forall x y, clos_trans string R x y -> before y x flat).
        { intros a b Hab. induction Hab as [a b H|a b c _ IH1 _ IH2].
          - apply HR in H. apply Hord; [apply (Permutation_in _ (Permutation_sym Hp)); apply H|apply H].
          - eapply before_trans; eassumption. }
        apply (before_irrefl _ x flat Hnd). apply Hb. exact Hx.
      + intros Hac. destruct (Nat.eq_dec (length flat) (length U)) as [|El]; [assumption|]. exfalso.
        assert (Hex : exists x, In x (filter (fun x => negb (mem x flat)) U)).
        { destruct (filter (fun x => negb (mem x flat)) U) as [|x r] eqn:Ef; [|exists x; left; reflexivity].
          exfalso. apply El. assert (Hi : incl U flat).
          { intros x Hx. destruct (mem_spec x flat) as [H|H]; [exact H|]. exfalso.
            assert (Hc : In x (filter (fun x => negb (mem x flat)) U)).
            { apply filter_In. split; [exact Hx|]. apply negb_true_iff. apply mem_false. exact H. }
            rewrite Ef in Hc. destruct Hc. }
          apply (NoDup_incl_length HU) in Hi. apply (NoDup_incl_length Hnd) in Hinc. lia. }
        destruct Hex as [x Hx]. apply Hac.
        apply (no_sink_cycle R (filter (fun x => negb (mem x flat)) U) x Hx).
        intros y Hy. apply filter_In in Hy. destruct Hy as [Hy Hm]. apply negb_true_iff in Hm. apply mem_false in Hm.
        destruct (filter (fun d => negb (mem d flat)) (dependencies y)) as [|d r] eqn:Ef.
        * exfalso. apply Hm. apply Hcomp; [exact Hy|]. intros d Hdd.
          destruct (mem_spec d flat) as [H|H]; [exact H|]. exfalso.
          assert (Hc : In d (filter (fun d => negb (mem d flat)) (dependencies y))).
          { apply filter_In. split; [exact Hdd|]. apply negb_true_iff. apply mem_false. exact H. }
          rewrite Ef in Hc. destruct Hc.
        * assert (Hc : In d (filter (fun d => negb (mem d flat)) (dependencies y))) by (rewrite Ef; left; reflexivity).
          apply filter_In in Hc. destruct Hc as [Hc1 Hc2]. assert (Hr : R y d) by (apply HR; split; assumption).
          exists d. split; [|exact Hr]. apply filter_In. split; [apply (Hclosed y d Hr)|exact Hc2].
  Qed.

  Lemma core_cycles : forall rs, incl rs U -> exists cs,
    find_cycles (S (S (length U))) dependents rs = Some cs /\
    Forall (fun c => 2 <= length c /\ hd_error c = Some (last c EmptyString) /\ chain R c) cs.
  Proof.
    intros rs Hrs. unfold find_cycles.
    destruct (find_cycles_term U dependents) with (fuel := S (S (length U))) (path := @nil string)
      (children := rs) (st := (@nil string, @nil (list string))) as [st' Est].
    - intros d t H. apply Hdents in H. apply HR in H. apply H.
    - constructor.
    - intros x [].
    - exact Hrs.
    - simpl. lia.
    - rewrite Est. cbn [option_map]. exists (snd st'). split; [reflexivity|].
      eapply (find_cycles_sound dependents R); [| | | |exact Est].
      + intros d t H. apply Hdents. exact H.
      + exact I.
      + intros c _. exact I.
      + constructor.
  Qed.
End Core.

(** ** Edges *)

Lemma file_nodes_In : forall ts f, In f (file_nodes ts) <-> file_exists ts f.
Proof.
  intros ts f. unfold file_nodes, file_exists, names. rewrite unify_In, in_map_iff. split.
  - intros [[t s] [<- H]]. exists t. split; [apply (in_map fst) in H; exact H|reflexivity].
  - intros [t [H <-]]. apply in_map_iff in H. destruct H as [[t' s] [<- H]]. exists (t', s). split; [reflexivity|exact H].
Qed.

Lemma edge_existsb : forall f g edges,
  existsb (fun e => String.eqb (fst e) f && String.eqb (snd e) g) edges = true <-> In (f, g) edges.
Proof.
  intros f g edges. rewrite existsb_exists. split.
  - intros [[a b] [H1 H2]]. apply andb_true_iff in H2. destruct H2 as [H2 H3]. apply String.eqb_eq in H2, H3. cbn in *. congruence.
  - intros H. exists (f, g). split; [exact H|]. cbn. rewrite !String.eqb_refl. reflexivity.
Qed.

Lemma add_file_edges_spec : forall nodes f ds edges, NoDup edges ->
  (exists edges', add_file_edges nodes f ds edges = inl edges' /\ NoDup edges' /\
     (forall d, In d ds -> build_file d <> f -> In (build_file d) nodes) /\
     (forall a b, In (a, b) edges' <-> In (a, b) edges \/ (a = f /\ f <> b /\ exists d, In d ds /\ build_file d = b))) \/
  (exists d, In d ds /\ build_file d <> f /\ ~ In (build_file d) nodes /\
             add_file_edges nodes f ds edges = inr (FileNotFound (build_file d))).
Proof.
  intros nodes f ds; induction ds as [|d ds IH]; intros edges Hnd; cbn [add_file_edges].
  - left. exists edges. split; [reflexivity|]. split; [exact Hnd|]. split; [intros d []|]. intros a b. split; [tauto|].
    intros [H|[_ [_ [d [[] _]]]]]. exact H.
  - assert (Hcons : forall edges0, NoDup edges0 ->
        (build_file d <> f -> In (build_file d) nodes) ->
        (forall a b, In (a, b) edges0 <-> In (a, b) edges \/ (a = f /\ f <> b /\ build_file d = b)) ->
        (exists edges', add_file_edges nodes f ds edges0 = inl edges' /\ NoDup edges' /\
          (forall d', In d' (d :: ds) -> build_file d' <> f -> In (build_file d') nodes) /\
          (forall a b, In (a, b) edges' <-> In (a, b) edges \/ (a = f /\ f <> b /\ exists d', In d' (d :: ds) /\ build_file d' = b))) \/
        (exists d', In d' (d :: ds) /\ build_file d' <> f /\ ~ In (build_file d') nodes /\
             add_file_edges nodes f ds edges0 = inr (FileNotFound (build_file d')))).
    { intros edges0 H0 Hb He. destruct (IH edges0 H0) as [[edges' [E [N [H1 H2]]]]|[d' [H1 [H2 [H3 H4]]]]].
      - left. exists edges'. split; [exact E|]. split; [exact N|]. split.
        + intros d' [<-|Hd]; [exact Hb|apply H1; exact Hd].
        + intros a b. rewrite H2, He. split.
          * intros [[H|[-> [Hf H]]]|[-> [Hf [d' [Hd H]]]]].
            -- left; exact H.
            -- right. split; [reflexivity|]. split; [exact Hf|]. exists d. split; [left; reflexivity|exact H].
            -- right. split; [reflexivity|]. split; [exact Hf|]. exists d'. split; [right; exact Hd|exact H].
          * intros [H|[-> [Hf [d' [[<-|Hd] H]]]]].
            -- left; left; exact H.
            -- left; right. tauto.
            -- right. split; [reflexivity|]. split; [exact Hf|]. exists d'. split; assumption.
      - right. exists d'. split; [right; exact H1|]. tauto. }
    destruct (String.eqb_spec (build_file d) f) as [Hs|Hs].
    + apply Hcons; [exact Hnd|contradiction|]. intros a b. split; [tauto|]. intros [H|[-> [Hf H]]]; [exact H|congruence].
    + destruct (mem_spec (build_file d) nodes) as [Hm|Hm]; cbn [negb].
      * destruct (existsb (fun e => String.eqb (fst e) f && String.eqb (snd e) (build_file d)) edges) eqn:Ee.
        -- apply edge_existsb in Ee. apply Hcons; [exact Hnd|intros _; exact Hm|]. intros a b. split; [tauto|].
           intros [H|[-> [_ <-]]]; assumption.
        -- assert (Hn : ~ In (f, build_file d) edges) by (intros C; apply edge_existsb in C; congruence).
           apply Hcons; [apply NoDup_snoc; assumption|intros _; exact Hm|]. intros a b. rewrite in_app_iff. cbn [In]. split.
           ++ intros [H|[H|[]]]; [left; exact H|]. inversion H; subst. right. split; [reflexivity|]. split; [congruence|reflexivity].
           ++ intros [H|[-> [_ <-]]]; [left; exact H|right; left; reflexivity].
      * right. exists d. split; [left; reflexivity|]. tauto.
Qed.

Lemma depends_on_cons : forall t s ts x d,
  depends_on ((t, s) :: ts) x d <-> (x = t /\ In d (deps_list s)) \/ depends_on ts x d.
Proof.
  intros t s ts x d. rewrite !depends_on_deps_list. split.
  - intros [s' [[H|H] Hd]]; [inversion H; subst; left; split; [reflexivity|exact Hd]|]. right. exists s'. split; assumption.
  - intros [[-> H]|[s' [H Hd]]]; [exists s; split; [left; reflexivity|exact H]|exists s'; split; [right; exact H|exact Hd]].
Qed.

Lemma file_edges_spec : forall nodes ts edges, NoDup edges ->
  (exists edges', file_edges_loop nodes ts edges = inl edges' /\ NoDup edges' /\
     (forall a b, file_depends ts a b -> In b nodes) /\
     (forall a b, In (a, b) edges' <-> In (a, b) edges \/ file_depends ts a b)) \/
  (exists f g, file_depends ts f g /\ ~ In g nodes /\ file_edges_loop nodes ts edges = inr (FileNotFound g)).
Proof.
  intros nodes ts; induction ts as [|[t s] ts IH]; intros edges Hnd; cbn [file_edges_loop].
  - left. exists edges. split; [reflexivity|]. split; [exact Hnd|].
    assert (Hno : forall a b, ~ file_depends [] a b) by (intros a b [_ [t [d [[s [l [[] _]]] _]]]]).
    split; [intros a b C; destruct (Hno a b C)|]. intros a b. split; [tauto|]. intros [H|C]; [exact H|destruct (Hno a b C)].
  - destruct (add_file_edges_spec nodes (build_file t) (deps_list s) edges Hnd) as [[e1 [E [N [H1 H2]]]]|[d [H1 [H2 [H3 H4]]]]].
    + rewrite E. destruct (IH e1 N) as [[e2 [E2 [N2 [H3 H4]]]]|[f [g [H3 [H4 H5]]]]].
      * left. exists e2. split; [exact E2|]. split; [exact N2|]. split.
        -- intros a b [Hne [x [d [Hd [<- <-]]]]]. apply depends_on_cons in Hd. destruct Hd as [[-> Hd]|Hd].
           ++ apply H1; [exact Hd|congruence].
           ++ apply (H3 (build_file x)). split; [exact Hne|]. exists x, d. repeat split. exact Hd.
        -- intros a b. rewrite H4, H2. split.
           ++ intros [[H|[-> [Hne [d [Hd Hb]]]]]|[Hne [x [d [Hd [Ha Hb]]]]]].
              ** left; exact H.
              ** right. split; [exact Hne|]. exists t, d. split; [apply depends_on_cons; left; split; [reflexivity|exact Hd]|]. split; [reflexivity|exact Hb].
              ** right. split; [exact Hne|]. exists x, d. split; [apply depends_on_cons; right; exact Hd|]. split; assumption.
           ++ intros [H|[Hne [x [d [Hd [Ha Hb]]]]]]; [left; left; exact H|]. apply depends_on_cons in Hd. destruct Hd as [[-> Hd]|Hd].
              ** left; right. split; [symmetry; exact Ha|]. split; [congruence|]. exists d. split; assumption.
              ** right. split; [exact Hne|]. exists x, d. repeat split; assumption.
      * right. exists f, g. split; [|split; [exact H4|exact H5]]. destruct H3 as [Hne [x [d [Hd Hab]]]]. split; [exact Hne|].
        exists x, d. split; [apply depends_on_cons; right; exact Hd|exact Hab].
    + right. exists (build_file t), (build_file d). rewrite H4. split; [|split; [exact H3|reflexivity]]. split; [congruence|].
      exists t, d. split; [apply depends_on_cons; left; split; [reflexivity|exact H1]|]. split; reflexivity.
Qed.

Lemma edge_dependencies_In : forall edges f g, In g (edge_dependencies edges f) <-> In (f, g) edges.
Proof.
  intros edges f g. unfold edge_dependencies. rewrite in_map_iff. split.
  - intros [[a b] [<- H]]. apply filter_In in H. destruct H as [H1 H2]. cbn in *. apply String.eqb_eq in H2. subst. exact H1.
  - intros H. exists (f, g). split; [reflexivity|]. apply filter_In. split; [exact H|apply String.eqb_refl].
Qed.
Lemma edge_dependents_In : forall edges f g, In f (edge_dependents edges g) <-> In (f, g) edges.
Proof.
  intros edges f g. unfold edge_dependents. rewrite in_map_iff. split.
  - intros [[a b] [<- H]]. apply filter_In in H. destruct H as [H1 H2]. cbn in *. apply String.eqb_eq in H2. subst. exact H1.
  - intros H. exists (f, g). split; [reflexivity|]. apply filter_In. split; [exact H|apply String.eqb_refl].
Qed.
Lemma edge_dependents_NoDup : forall edges g, NoDup edges -> NoDup (edge_dependents edges g).
Proof.
  intros edges g H. unfold edge_dependents. induction H as [|[a b] edges Hn Hnd IH]; cbn [filter map]; [constructor|].
  cbn [snd]. destruct (String.eqb_spec b g) as [->|]; [|exact IH]. cbn [map fst]. constructor; [|exact IH].
  intros C. apply Hn. apply (edge_dependents_In edges a g). exact C.
Qed.

Lemma file_cycles_spec : forall ts,
  (~ files_closed ts /\ exists g, verify_no_gyp_file_cycles ts = inr (FileNotFound g) /\
                          (exists f, file_depends ts f g) /\ ~ file_exists ts g) \/
  (files_closed ts /\ ~ file_cyclic ts /\ verify_no_gyp_file_cycles ts = inl tt) \/
  (files_closed ts /\ file_cyclic ts /\ exists cs, verify_no_gyp_file_cycles ts = inr (FileCycle cs) /\ Forall (file_cycle ts) cs).
Proof.
  intros ts. unfold verify_no_gyp_file_cycles. set (nodes := file_nodes ts).
  destruct (file_edges_spec nodes ts [] (NoDup_nil _)) as [[edges [E [N [Hc He]]]]|[f [g [H1 [H2 H3]]]]].
  - rewrite E. right.
    assert (Hcl : files_closed ts) by (intros f g Hfg; apply file_nodes_In; apply (Hc f g Hfg)).
    assert (He' : forall a b, In (a, b) edges <-> file_depends ts a b) by (intros a b; rewrite He; cbn [In]; tauto).
    assert (Hsrc : forall a b, file_depends ts a b -> In a nodes).
    { intros a b [_ [t [d [Hd [<- _]]]]]. apply file_nodes_In. exists t. split; [eapply depends_on_source; exact Hd|reflexivity]. }
    assert (Hnd : NoDup nodes) by (unfold nodes, file_nodes, unify; apply unify_from_NoDup).
    assert (HR : forall t d, file_depends ts t d <-> In t nodes /\ In d (edge_dependencies edges t)).
    { intros t d. rewrite edge_dependencies_In, He'. split; [intros H; split; [apply (Hsrc t d H)|exact H]|tauto]. }
    assert (HD : forall d t, In t (edge_dependents edges d) <-> file_depends ts t d)
      by (intros d t; rewrite edge_dependents_In; apply He').
    destruct (core_flatten nodes (edge_dependencies edges) (edge_dependents edges) (file_depends ts) Hnd HR Hc HD)
      as [flat [Ef Hf]].
    + intros d. apply edge_dependents_NoDup. exact N.
    + rewrite Ef. destruct (Nat.eqb_spec (length flat) (length nodes)) as [El|El].
      * left. split; [exact Hcl|]. split; [apply Hf; exact El|reflexivity].
      * right. split; [exact Hcl|]. split.
        -- destruct (flatten_spec nodes (edge_dependencies edges) (edge_dependents edges)) with
             (roots := filter (fun f => match edge_dependencies edges f with [] => true | _ => false end) nodes)
             as [flat' [E' [Hnd' [Hinc [Hord Hcomp]]]]].
           ++ intros d t. rewrite HD. apply HR.
           ++ intros d. apply edge_dependents_NoDup. exact N.
           ++ intros t. rewrite filter_In. destruct (edge_dependencies edges t); split; intros [H1 H2]; split; congruence || assumption || reflexivity.
           ++ apply NoDup_filter. exact Hnd.
           ++ assert (flat' = flat) by congruence. subst flat'.
              assert (Hex : exists x, In x (filter (fun x => negb (mem x flat)) nodes)).
              { destruct (filter (fun x => negb (mem x flat)) nodes) as [|x r] eqn:Eg; [|exists x; left; reflexivity].
                exfalso. apply El. assert (Hi : incl nodes flat).
                { intros x Hx. destruct (mem_spec x flat) as [H|H]; [exact H|]. exfalso.
                  assert (C : In x (filter (fun x => negb (mem x flat)) nodes)).
                  { apply filter_In. split; [exact Hx|]. apply negb_true_iff. apply mem_false. exact H. }
                  rewrite Eg in C. destruct C. }
                apply (NoDup_incl_length Hnd) in Hi. apply (NoDup_incl_length Hnd') in Hinc. lia. }
              destruct Hex as [x Hx].
              apply (no_sink_cycle (file_depends ts) (filter (fun x => negb (mem x flat)) nodes) x Hx).
              intros y Hy. apply filter_In in Hy. destruct Hy as [Hy Hm]. apply negb_true_iff in Hm. apply mem_false in Hm.
              destruct (filter (fun d => negb (mem d flat)) (edge_dependencies edges y)) as [|d r] eqn:Eg.
              ** exfalso. apply Hm. apply Hcomp; [exact Hy|]. intros d Hdd.
                 destruct (mem_spec d flat) as [H|H]; [exact H|]. exfalso.
                 assert (C : In d (filter (fun d => negb (mem d flat)) (edge_dependencies edges y))).
                 { apply filter_In. split; [exact Hdd|]. apply negb_true_iff. apply mem_false. exact H. }
                 rewrite Eg in C. destruct C.
              ** assert (C : In d (filter (fun d => negb (mem d flat)) (edge_dependencies edges y))) by (rewrite Eg; left; reflexivity).
                 apply filter_In in C. destruct C as [Hc1 Hc2]. assert (Hr : file_depends ts y d) by (apply HR; split; assumption).
                 exists d. split; [|exact Hr]. apply filter_In. split; [apply (Hc y d Hr)|exact Hc2].
        -- cbv zeta. match goal with |- context [find_cycles _ _ ?r] => set (rs := r) end.
           destruct (core_cycles nodes (edge_dependencies edges) (edge_dependents edges) (file_depends ts) HR HD rs) as [cs [Ec Hcs]].
           ++ unfold rs. intros x Hx.
              destruct (filter (fun f => match edge_dependencies edges f with [] => true | _ => false end) nodes) as [|r0 r] eqn:Er.
              ** destruct nodes as [|n nodes']; [destruct Hx|]. destruct Hx as [<-|[]]. left. reflexivity.
              ** rewrite <- Er in Hx. apply filter_In in Hx. apply Hx.
           ++ rewrite Ec. exists cs. split; [reflexivity|exact Hcs].
  - left. split; [intros C; apply H2; apply file_nodes_In; apply (C f g H1)|]. exists g. rewrite H3. split; [reflexivity|].
    split; [exists f; exact H1|]. rewrite <- file_nodes_In. exact H2.
Qed.

Lemma file_cycles_iff : forall ts,
  (verify_no_gyp_file_cycles ts = inl tt <-> files_closed ts /\ ~ file_cyclic ts) /\
  ((exists cs, verify_no_gyp_file_cycles ts = inr (FileCycle cs)) <-> files_closed ts /\ file_cyclic ts) /\
  ((exists g, verify_no_gyp_file_cycles ts = inr (FileNotFound g)) <-> ~ files_closed ts) /\
  (forall cs, verify_no_gyp_file_cycles ts = inr (FileCycle cs) -> Forall (file_cycle ts) cs).
Proof.
  intros ts. destruct (file_cycles_spec ts) as [[H1 [g [H2 _]]]|[[H1 [H2 H3]]|[H1 [H2 [cs [H3 H4]]]]]].
  - rewrite H2. split; [split; [discriminate|tauto]|]. split; [split; [intros [cs C]; discriminate|tauto]|].
    split; [split; [tauto|intros _; exists g; reflexivity]|]. intros cs C. discriminate.
  - rewrite H3. split; [split; [tauto|reflexivity]|]. split; [split; [intros [cs C]; discriminate|tauto]|].
    split; [split; [intros [g C]; discriminate|tauto]|]. intros cs C. discriminate.
  - rewrite H3. split; [split; [discriminate|tauto]|]. split; [split; [tauto|intros _; exists cs; reflexivity]|].
    split; [split; [intros [g C]; discriminate|intros C; contradiction]|]. intros cs' E. congruence.
Qed.
