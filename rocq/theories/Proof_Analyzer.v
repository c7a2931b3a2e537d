(** Proofs about the analyzer: building the graph and searching down. *)
From Verif Require Import Lib LibFacts Model_Graph Model_Names Model_Analyzer Spec_Analyzer.

Section Gen.
Variable ts : atargets.
Variable target_list : list string.
Variable changed : string -> bool.
Variable build_files : list string.
Hypothesis HD : NoDup (map fst ts).
Hypothesis HC : forall t d, needs ts t d -> In d (map fst ts).
Hypothesis HL : incl target_list (map fst ts).

Notation known := (known ts target_list).
Notation needs := (needs ts).

Definition deps (t : string) : list string := match assoc t ts with Some a => a_deps a | None => [] end.
Lemma deps_needs : forall t d, In d (deps t) <-> needs t d.
Proof.
  intros t d. unfold deps, Spec_Analyzer.needs. destruct (assoc t ts) as [a|] eqn:E.
  - split; [intros H; exists a; split; [apply assoc_In; exact E|exact H]|]. intros (a' & HI & H). rewrite (In_assoc _ _ _ _ HD HI) in E. congruence.
  - split; [intros []|]. intros (a & HI & _). apply assoc_None in E. exfalso. apply E. apply (in_map fst) in HI. exact HI.
Qed.
Lemma known_in : forall t, known t -> In t (map fst ts).
Proof.
  intros t (r & Hr & H). apply clos_rt_rtn1 in H. destruct H as [|x y H _]; [apply HL; exact Hr|]. eapply HC. exact H.
Qed.
Lemma known_step : forall t d, known t -> needs t d -> known d.
Proof. intros t d (r & Hr & H) HN. exists r. split; [exact Hr|]. eapply rt_trans; [exact H|apply rt_step; exact HN]. Qed.

(** the invariant of the loop *)
Record inv (queue : list string) (st : gstate) : Prop := {
  i_vis_created : incl (g_visited st) (g_created st);
  i_created : forall x, In x (g_created st) -> In x (g_visited st) \/ In x queue;
  i_deps : forall t d, In t (g_visited st) -> In d (deps t) -> In d (g_created st);
  i_edges : forall t d, In (t, d) (g_edges st) <-> In t (g_visited st) /\ In d (deps t);
  i_roots : forall x, In x (g_roots st) <-> In x (g_visited st) /\ forall u, ~ In (u, x) (g_edges st);
  i_known : forall x, In x queue \/ In x (g_created st) -> known x;
  i_list : forall x, In x target_list -> In x (g_visited st) \/ In x queue;
  i_match : forall x, In x (g_matching st) <-> In x (g_visited st) /\ changed x = true;
  i_match_nodup : NoDup (g_matching st);
  i_vis_nodup : NoDup (g_visited st);
  i_own : forall x, In x (g_own st) <-> In x (g_visited st) /\ In (build_file x) build_files;
  i_cre_nodup : NoDup (g_created st);
  i_pending : forall x, In x (g_created st) -> In x (g_visited st) \/ exists u, In (u, x) (g_edges st)
}.

Lemma link_visited : forall t ds st, g_visited (fold_left (link_dep t) ds st) = g_visited st.
Proof. intros t. induction ds as [|d ds IH]; intros st; [reflexivity|]. cbn [fold_left]. rewrite IH. reflexivity. Qed.
Lemma link_matching : forall t ds st, g_matching (fold_left (link_dep t) ds st) = g_matching st.
Proof. intros t. induction ds as [|d ds IH]; intros st; [reflexivity|]. cbn [fold_left]. rewrite IH. reflexivity. Qed.
Lemma link_own : forall t ds st, g_own (fold_left (link_dep t) ds st) = g_own st.
Proof. intros t. induction ds as [|d ds IH]; intros st; [reflexivity|]. cbn [fold_left]. rewrite IH. reflexivity. Qed.
Lemma link_created : forall t ds st x, In x (g_created (fold_left (link_dep t) ds st)) <-> In x (g_created st) \/ In x ds.
Proof.
  intros t. induction ds as [|d ds IH]; intros st x; [cbn; tauto|]. cbn [fold_left]. rewrite IH. cbn [link_dep g_created In]. destruct (mem_spec d (g_created st)) as [H|H].
  - split; intros X; [tauto|]. destruct X as [X|[X|X]]; [tauto|subst; tauto|tauto].
  - rewrite in_app_iff. cbn [In]. tauto.
Qed.
Lemma link_created_nodup : forall t ds st, NoDup (g_created st) -> NoDup (g_created (fold_left (link_dep t) ds st)).
Proof.
  intros t. induction ds as [|d ds IH]; intros st H; [exact H|]. cbn [fold_left]. apply IH. cbn [link_dep g_created]. destruct (mem_spec d (g_created st)); [exact H|]. apply NoDup_snoc; assumption.
Qed.
Lemma link_edges : forall t ds st u x, In (u, x) (g_edges (fold_left (link_dep t) ds st)) <-> In (u, x) (g_edges st) \/ (u = t /\ In x ds).
Proof.
  intros t. induction ds as [|d ds IH]; intros st u x; [cbn; tauto|]. cbn [fold_left]. rewrite IH. cbn [link_dep g_edges In]. rewrite in_app_iff. cbn [In].
  split; intros X.
  - destruct X as [[X|[X|[]]]|X]; [tauto|injection X as -> ->; tauto|tauto].
  - destruct X as [X|[-> [->|X]]]; tauto.
Qed.
(** a root stays one unless it is among the dependencies; the visited target
    that is not created yet cannot be a root *)
Lemma link_roots : forall t ds st x, incl (g_roots st) (g_created st) -> In x (g_roots (fold_left (link_dep t) ds st)) <-> In x (g_roots st) /\ ~ In x ds.
Proof.
  intros t. induction ds as [|d ds IH]; intros st x H; [cbn; tauto|]. cbn [fold_left]. rewrite IH.
  - cbn [link_dep g_roots In]. destruct (mem_spec d (g_created st)) as [Hd|Hd].
    + rewrite filter_In, negb_true_iff, String.eqb_neq. split; intros X; [intuition congruence|]. destruct X as [X Y]. repeat split; [exact X| |tauto]. intros E. apply Y. left. congruence.
    + split; intros X; [|tauto]. destruct X as [X Y]. split; [exact X|]. intros [E|E]; [subst x; apply Hd; apply H; exact X|tauto].
  - cbn [link_dep g_roots g_created]. destruct (mem_spec d (g_created st)) as [Hd|Hd].
    + intros y Hy. apply filter_In in Hy. apply H. tauto.
    + intros y Hy. apply in_or_app. left. apply H. exact Hy.
Qed.

Definition todo (visited : list string) : nat := length (flat_map (fun e => if mem (fst e) visited then [] else a_deps (snd e)) ts).
Lemma todo_visit : forall visited t a, assoc t ts = Some a -> ~ In t visited -> todo (visited ++ [t]) + length (a_deps a) = todo visited.
Proof.
  unfold todo. intros visited t a E N. revert HD E. clear - N. induction ts as [|[u b] l IH]; intros HD E; [discriminate|]. cbn [assoc flat_map fst snd] in *. inversion HD as [|? ? HN HD']; subst. rewrite !app_length.
  assert (M : forall x, mem x (visited ++ [t]) = mem x visited || String.eqb x t).
  { intros x. unfold mem. rewrite existsb_app. cbn. rewrite orb_false_r. reflexivity. }
  destruct (String.eqb_spec t u) as [->|Hne].
  - injection E as ->. rewrite M, String.eqb_refl, orb_true_r. rewrite (proj2 (mem_false u visited) N). cbn [length].
    assert (X : flat_map (fun e => if mem (fst e) (visited ++ [u]) then [] else a_deps (snd e)) l = flat_map (fun e => if mem (fst e) visited then [] else a_deps (snd e)) l); [|rewrite X; lia].
    clear - HN M. induction l as [|[w c] l IHl]; [reflexivity|]. cbn [flat_map fst snd]. rewrite IHl by (intros X; apply HN; right; exact X). rewrite M. destruct (String.eqb_spec w u) as [->|]; [exfalso; apply HN; left; reflexivity|]. rewrite orb_false_r. reflexivity.
  - specialize (IH HD' E). rewrite M. destruct (String.eqb_spec u t); [congruence|]. rewrite orb_false_r. destruct (mem u visited); cbn [length]; lia.
Qed.

Lemma loop_spec : forall fuel queue st, inv queue st -> length queue + todo (g_visited st) < fuel ->
  exists st', generate_loop fuel ts changed build_files queue st = Ok st' /\ inv [] st'.
Proof.
  induction fuel as [|fuel IH]; intros queue st HI HF; [lia|]. cbn [generate_loop]. destruct queue as [|t queue]; [exists st; split; [reflexivity|exact HI]|].
  destruct HI as [I1 I2 I3 I4 I5 I6 I7 I8 I9 I10 I11 I12 I13].
  destruct (mem_spec t (g_visited st)) as [Hv|Hv].
  - rewrite (proj2 (mem_In t (g_created st)) (I1 _ Hv)). cbn [andb]. apply IH; [|cbn in HF; lia]. constructor; try assumption.
    + intros x Hx. destruct (I2 x Hx) as [X|[X|X]]; [left; exact X|subst x; left; exact Hv|right; exact X].
    + intros x [Hx|Hx]; apply I6; [left; right; exact Hx|right; exact Hx].
    + intros x Hx. destruct (I7 x Hx) as [X|[X|X]]; [left; exact X|subst x; left; exact Hv|right; exact X].
  - rewrite andb_false_r. assert (Hk : known t) by (apply I6; left; left; reflexivity). destruct (assoc_Some_key _ t ts (known_in t Hk)) as (a & Ea). rewrite Ea.
    set (st1 := mk_g _ _ _ _ _ _). apply IH.
    + assert (Edeps : deps t = a_deps a) by (unfold deps; rewrite Ea; reflexivity).
      assert (C1 : forall x, In x (g_created st1) <-> In x (g_created st) \/ x = t).
      { intros x. cbn [st1 g_created]. destruct (mem_spec t (g_created st)); [split; [tauto|intros [X|X]; [exact X|subst; assumption]]|rewrite in_app_iff; cbn; intuition congruence]. }
      assert (V1 : forall x, In x (g_visited st1) <-> In x (g_visited st) \/ x = t).
      { intros x. cbn [st1 g_visited]. rewrite in_app_iff. cbn. intuition congruence. }
      assert (NE : forall u, mem t (g_created st) = false -> ~ In (u, t) (g_edges st)).
      { intros u Hm HX. apply I4 in HX. apply mem_false in Hm. apply Hm. eapply I3; apply HX. }
      assert (R1 : forall x, In x (g_roots st1) <-> In x (g_roots st) \/ (x = t /\ mem t (g_created st) = false)).
      { intros x. cbn [st1 g_roots]. destruct (mem t (g_created st)) eqn:Em; [intuition discriminate|rewrite in_app_iff; cbn; intuition congruence]. }
      assert (RC : incl (g_roots st1) (g_created st1)).
      { intros x Hx. apply C1. apply R1 in Hx. destruct Hx as [Hx|[Hx _]]; [left; apply I1; apply I5; exact Hx|right; exact Hx]. }
      constructor.
      * intros x Hx. rewrite link_visited in Hx. apply link_created. apply V1 in Hx. left. apply C1. destruct Hx as [Hx|Hx]; [left; apply I1; exact Hx|right; exact Hx].
      * intros x Hx. rewrite link_visited. apply link_created in Hx. rewrite V1, in_app_iff, <- in_rev. destruct Hx as [Hx|Hx]; [|tauto]. apply C1 in Hx. destruct Hx as [Hx|Hx]; [|tauto].
        destruct (I2 x Hx) as [X|[X|X]]; auto.
      * intros u d Hu Hdd. rewrite link_visited in Hu. apply link_created. apply V1 in Hu. destruct Hu as [Hu|Hu]; [left; apply C1; left; eapply I3; eassumption|subst u; rewrite Edeps in Hdd; right; exact Hdd].
      * intros u d. rewrite link_visited, link_edges, V1. cbn [st1 g_edges]. rewrite I4. split; intros X.
        -- destruct X as [[X Y]|[-> X]]; [tauto|]. rewrite Edeps. tauto.
        -- destruct X as [[X|X] Y]; [tauto|]. subst u. rewrite Edeps in Y. tauto.
      * intros x. rewrite link_roots by exact RC. rewrite link_visited, V1, R1, I5. split.
        -- intros [[[X Y]|[-> Hm]] N].
           ++ split; [tauto|]. intros u Hu. apply link_edges in Hu. destruct Hu as [Hu|[_ Hu]]; [exact (Y u Hu)|exact (N Hu)].
           ++ split; [tauto|]. intros u Hu. apply link_edges in Hu. destruct Hu as [Hu|[_ Hu]]; [exact (NE u Hm Hu)|exact (N Hu)].
        -- intros [HV N]. assert (N1 : ~ In x (a_deps a)) by (intros X; apply (N t); apply link_edges; right; tauto). assert (N2 : forall u, ~ In (u, x) (g_edges st)) by (intros u X; apply (N u); apply link_edges; left; exact X).
           split; [|exact N1]. destruct HV as [HV| ->]; [left; split; assumption|].
           destruct (mem t (g_created st)) eqn:Em; [exfalso|right; split; reflexivity].
           apply mem_In in Em. destruct (I13 t Em) as [Y|(u & Y)]; [exact (Hv Y)|exact (N2 u Y)].
      * intros x Hx. rewrite in_app_iff, <- in_rev, link_created, C1 in Hx. destruct Hx as [[X|X]|[[X|X]|X]].
        -- eapply known_step; [exact Hk|]. apply deps_needs. rewrite Edeps. exact X.
        -- apply I6. left. right. exact X.
        -- apply I6. right. exact X.
        -- subst x. exact Hk.
        -- eapply known_step; [exact Hk|]. apply deps_needs. rewrite Edeps. exact X.
      * intros x Hx. rewrite link_visited, V1, in_app_iff. destruct (I7 x Hx) as [X|[X|X]]; auto.
      * intros x. rewrite link_visited, link_matching, V1. cbn [st1 g_matching]. destruct (changed t) eqn:Et.
        -- rewrite in_app_iff, I8. cbn [In]. split; [intros [X|[X|[]]]; [tauto|subst; tauto]|intros [[X|X] Y]; [tauto|subst; tauto]].
        -- rewrite I8. split; [tauto|]. intros [[X|X] Y]; [tauto|subst; congruence].
      * rewrite link_matching. cbn [st1 g_matching]. destruct (changed t); [|exact I9]. apply NoDup_snoc; [exact I9|]. intros X. apply I8 in X. tauto.
      * rewrite link_visited. cbn [st1 g_visited]. apply NoDup_snoc; assumption.
      * intros x. rewrite link_visited, link_own, V1. cbn [st1 g_own]. destruct (mem_spec (build_file t) build_files) as [Et|Et].
        -- rewrite in_app_iff, I11. cbn [In]. split; [intros [X|[X|[]]]; [tauto|subst; tauto]|intros [[X|X] Y]; [tauto|subst; tauto]].
        -- rewrite I11. split; [tauto|]. intros [[X|X] Y]; [tauto|subst; tauto].
      * apply link_created_nodup. cbn [st1 g_created]. destruct (mem_spec t (g_created st)); [exact I12|apply NoDup_snoc; assumption].
      * intros x Hx. rewrite link_visited, V1. apply link_created in Hx. rewrite C1 in Hx. destruct Hx as [[X|X]|X].
        -- destruct (I13 x X) as [Y|(u & Y)]; [tauto|]. right. exists u. apply link_edges. left. exact Y.
        -- tauto.
        -- right. exists t. apply link_edges. tauto.
    + rewrite link_visited, app_length, rev_length. cbn [st1 g_visited]. pose proof (todo_visit _ _ _ Ea Hv). cbn [length] in HF. lia.
Qed.

Lemma generate_spec : exists st, generate_targets ts target_list changed build_files = Ok st /\ inv [] st.
Proof.
  unfold generate_targets. apply loop_spec.
  - constructor; cbn [g_visited g_created g_edges g_roots g_matching g_own]; try (intros; contradiction); try apply NoDup_nil; try (intros; cbn in *; tauto).
    + intros x [].
    + intros x [Hx|[]]. apply in_rev in Hx. exists x. split; [exact Hx|apply rt_refl].
    + intros x Hx. right. apply in_rev. rewrite rev_involutive. exact Hx.
  - rewrite rev_length. cbn [g_visited]. unfold generate_fuel, todo. cbn [mem existsb]. lia.
Qed.

(** what the graph is *)
Lemma inv_final : forall st, inv [] st ->
  (forall x, In x (g_visited st) <-> known x) /\ (forall x, In x (g_created st) <-> known x) /\
  (forall t d, In (t, d) (g_edges st) <-> known t /\ needs t d) /\
  (forall x, In x (g_matching st) <-> known x /\ changed x = true) /\ NoDup (g_matching st) /\ NoDup (g_created st) /\
  (forall x, In x (root_targets st) <-> root ts target_list build_files x).
Proof.
  intros st [I1 I2 I3 I4 I5 I6 I7 I8 I9 I10 I11 I12 I13].
  assert (V : forall x, In x (g_visited st) <-> known x).
  { intros x. split; [intros H; apply I6; right; apply I1; exact H|]. intros (r & Hr & H). apply clos_rt_rtn1 in H. induction H as [|y z H _ IH].
    - destruct (I7 r Hr) as [X|[]]. exact X.
    - apply deps_needs in H. destruct (I2 z) as [X|[]]; [|exact X]. eapply I3; [exact IH|exact H]. }
  assert (C : forall x, In x (g_created st) <-> known x).
  { intros x. rewrite <- V. split; [intros H; destruct (I2 x H) as [X|[]]; exact X|apply I1]. }
  assert (E : forall t d, In (t, d) (g_edges st) <-> known t /\ needs t d).
  { intros t d. rewrite I4, V, deps_needs. reflexivity. }
  split; [exact V|]. split; [exact C|]. split; [exact E|]. split; [intros x; rewrite I8, V; reflexivity|]. split; [exact I9|]. split; [exact I12|].
  intros x. unfold root_targets. rewrite filter_In, mem_In, I5, I11, V. unfold root. split.
  - intros [[K N] [_ B]]. split; [exact K|]. split; [exact B|]. intros u Hu HN. apply (N u). apply E. split; assumption.
  - intros (K & B & N). split; [split; [exact K|]|split; [exact K|exact B]]. intros u Hu. apply E in Hu. exact (N u (proj1 Hu) (proj2 Hu)).
Qed.
End Gen.
