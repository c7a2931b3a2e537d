(** Proofs about the analyzer: names and the whole answer. *)
From Verif Require Import Lib LibFacts Model_Graph Model_Names Model_Analyzer Spec_Analyzer Proof_Analyzer Proof_Analyzer2.

(** ** ranks from a flat list *)
Fixpoint index_of (x : string) (l : list string) : nat :=
  match l with [] => 0 | y :: l' => if String.eqb x y then 0 else S (index_of x l') end.
Lemma index_of_lt : forall x l, In x l -> index_of x l < length l.
Proof.
  induction l as [|y l IH]; intros H; [destruct H|]. cbn [index_of length]. destruct (String.eqb_spec x y); [lia|]. destruct H as [H|H]; [congruence|]. specialize (IH H). lia.
Qed.
Lemma index_of_app : forall x l1 l2, ~ In x l1 -> index_of x (l1 ++ l2) = length l1 + index_of x l2.
Proof.
  induction l1 as [|y l1 IH]; intros l2 H; [reflexivity|]. cbn [index_of length app]. destruct (String.eqb_spec x y) as [->|]; [exfalso; apply H; left; reflexivity|]. rewrite IH by (intros X; apply H; right; exact X). reflexivity.
Qed.
Lemma index_of_app_l : forall x l1 l2, In x l1 -> index_of x (l1 ++ l2) = index_of x l1.
Proof.
  induction l1 as [|y l1 IH]; intros l2 H; [destruct H|]. cbn [index_of app]. destruct (String.eqb_spec x y); [reflexivity|]. destruct H as [H|H]; [congruence|]. rewrite IH by exact H. reflexivity.
Qed.
Lemma before_index : forall d t l, NoDup l -> before d t l -> index_of d l < index_of t l.
Proof.
  intros d t l HN (l1 & l2 & l3 & ->). rewrite index_of_app.
  - cbn [index_of]. rewrite String.eqb_refl. rewrite index_of_app.
    + cbn [index_of]. assert (t <> d).
      { intros ->. apply NoDup_app_inv in HN. destruct HN as (_ & HN & _). inversion HN as [|? ? X _]. apply X. apply in_or_app. right. left. reflexivity. }
      destruct (String.eqb_spec t d); [contradiction|]. lia.
    + apply NoDup_app_inv in HN. destruct HN as (_ & HN & D). intros X. apply (D t X). right. apply in_or_app. right. left. reflexivity.
  - apply NoDup_app_inv in HN. destruct HN as (_ & _ & D). intros X. apply (D d X). left. reflexivity.
Qed.

(** ** names *)
Definition name_map (all : list string) (n : string) : option string := find (fun q => String.eqb (target_name_of q) n) all.

Lemma mapping_spec : forall all tf, NoDup tf ->
  (forall n, In n tf -> assoc n (fst (unqualified_mapping all tf)) = name_map all n) /\
  (forall n, In n (snd (unqualified_mapping all tf)) <-> In n tf /\ name_map all n = None).
Proof.
  induction all as [|q all IH]; intros tf HN.
  - destruct tf as [|x tf]; cbn; (split; [reflexivity|tauto]).
  - destruct tf as [|x tf]; [cbn; split; [intros n []|tauto]|]. cbn [unqualified_mapping]. set (l := x :: tf) in *. clearbody l. unfold name_map. cbn [find]. fold (name_map all).
    destruct (mem_spec (target_name_of q) l) as [Hm|Hm].
    + assert (HN' : NoDup (filter (fun y => negb (String.eqb y (target_name_of q))) l)) by (apply NoDup_filter; exact HN).
      destruct (IH _ HN') as [I1 I2]. destruct (unqualified_mapping all _) as [m missing]. cbn [fst snd assoc] in *.
      assert (FI : forall n, In n (filter (fun y => negb (String.eqb y (target_name_of q))) l) <-> In n l /\ n <> target_name_of q) by (intros n; rewrite filter_In, negb_true_iff, String.eqb_neq; reflexivity).
      split.
      * intros n Hn. rewrite (String.eqb_sym (target_name_of q) n). destruct (String.eqb_spec n (target_name_of q)) as [En|Hne]; [reflexivity|]. apply I1. apply FI. split; congruence.
      * intros n. rewrite I2, FI. fold (name_map all n). destruct (String.eqb_spec (target_name_of q) n) as [En|Hne]; [subst n; split; [tauto|intros [_ X]; discriminate]|]. split; [tauto|]. intros [X Y]. repeat split; congruence.
    + destruct (IH l HN) as [I1 I2]. split.
      * intros n Hn. destruct (String.eqb_spec (target_name_of q) n) as [En|Hne]; [subst n; contradiction|]. apply I1. exact Hn.
      * intros n. rewrite I2. fold (name_map all n). destruct (String.eqb_spec (target_name_of q) n) as [En|Hne]; [subst n; split; [tauto|intros [_ X]; discriminate]|reflexivity].
Qed.

Lemma name_map_stands : forall ts tl all, (forall x, In x all <-> known ts tl x) -> stands_for ts tl (name_map all).
Proof.
  intros ts tl all HA. split.
  - intros n q H. apply find_some in H. destruct H as [H E]. apply String.eqb_eq in E. split; [apply HA; exact H|exact E].
  - intros n H q Kq E. apply (find_none _ _ H q) in E; [exact E|apply HA; exact Kq] || (pose proof (find_none _ _ H q (proj2 (HA q) Kq)) as X; cbn in X; apply String.eqb_neq in X; contradiction).
Qed.

Lemma lookup_spec : forall m names mapping q, (forall n, In n names -> assoc n mapping = m n) ->
  In q (lookup_targets names mapping) <-> exists n, In n names /\ m n = Some q.
Proof.
  intros m names mapping q H. unfold lookup_targets. rewrite in_flat_map. split.
  - intros (n & Hn & X). rewrite (H n Hn) in X. exists n. split; [exact Hn|]. destruct (m n); [destruct X as [->|[]]; reflexivity|destruct X].
  - intros (n & Hn & X). exists n. split; [exact Hn|]. rewrite (H n Hn), X. left. reflexivity.
Qed.
Lemma no_all_In : forall n l, In n (no_all l) <-> In n l /\ n <> "all"%string.
Proof. intros n l. unfold no_all. rewrite filter_In, negb_true_iff, String.eqb_neq. reflexivity. Qed.

Lemma perm_In : forall (f : list string -> list string), any_order f -> forall l x, In x (f l) <-> In x l.
Proof. intros f H l x. split; apply Permutation_in; [apply H|apply Permutation_sym, H]. Qed.

Section All.
Variable ts : atargets.
Variable target_list : list string.
Variable changed : string -> bool.
Variable build_files : list string.
Variables ord pick : list string -> list string.
Hypothesis HL : loaded ts target_list.
Hypothesis HO : any_order ord.
Hypothesis HP : any_order pick.
Variables tests additional : list string.
Notation known := (known ts target_list).
Notation affected := (affected ts changed).
Notation root := (root ts target_list build_files).

Lemma loaded_rank : exists r, (forall t d, needs ts t d -> r d < r t) /\ (forall t, known t -> r t < length ts).
Proof.
  destruct HL as (HD & HC & HI & flat & PF & HB). exists (fun x => index_of x flat). assert (NF : NoDup flat) by (eapply Permutation_NoDup; [apply Permutation_sym; exact PF|exact HD]). split.
  - intros t d H. apply before_index; [exact NF|apply HB; exact H].
  - intros t Kt. apply (known_in ts target_list HC HI) in Kt. rewrite <- (map_length fst ts), <- (Permutation_length PF). apply index_of_lt. eapply Permutation_in; [apply Permutation_sym; exact PF|exact Kt].
Qed.

Lemma deps_of_spec : forall st t d, (forall t d, In (t, d) (g_edges st) <-> known t /\ needs ts t d) -> known t ->
  In d (deps_of ord st t) <-> needs ts t d.
Proof.
  intros st t d HE Kt. unfold deps_of. rewrite (perm_In ord HO), nodup_In, in_map_iff. split.
  - intros ([t' d'] & <- & H). apply filter_In in H. destruct H as [H E]. apply String.eqb_eq in E. cbn in E. subst t'. apply HE in H. apply H.
  - intros H. exists (t, d). split; [reflexivity|]. apply filter_In. split; [apply HE; tauto|apply String.eqb_refl].
Qed.
Lemma back_deps_of_spec : forall st t b, (forall t d, In (t, d) (g_edges st) <-> known t /\ needs ts t d) ->
  In b (back_deps_of ord st t) <-> known b /\ needs ts b t.
Proof.
  intros st t b HE. unfold back_deps_of. rewrite (perm_In ord HO), nodup_In, in_map_iff. split.
  - intros ([b' d'] & <- & H). apply filter_In in H. destruct H as [H E]. apply String.eqb_eq in E. cbn in E. subst d'. apply HE in H. exact H.
  - intros H. exists (b, t). split; [reflexivity|]. apply filter_In. split; [apply HE; tauto|apply String.eqb_refl].
Qed.

Notation asked := (asked tests additional).
Notation supplied_by := (supplied_by ts target_list build_files tests additional).
Notation test_answer := (test_answer ts target_list changed build_files tests).
Notation compile_answer := (compile_answer ts target_list changed).

Lemma linked_iff : forall t, is_linked ts t = true <-> of_type ts t "executable" \/ of_type ts t "shared_library".
Proof.
  destruct HL as (HD & _). intros t. unfold is_linked. destruct (assoc t ts) as [a|] eqn:E.
  - rewrite !(type_assoc ts HD t a _ E), mem_In. cbn [In]. intuition congruence.
  - split; [discriminate|]. apply assoc_None in E. intros [(a & H & _)|(a & H & _)]; exfalso; apply E; apply (in_map fst) in H; exact H.
Qed.

Lemma affected_above : forall u, known u -> affected u -> exists m, known m /\ changed m = true /\ above ts target_list m u.
Proof.
  intros u Ku (w & H & C). exists w. apply clos_rt_rt1n in H. revert Ku C. induction H as [|x y z HS H IH]; intros Ku C; [split; [exact Ku|]; split; [exact C|apply rt_refl]|].
  destruct (IH (known_step ts target_list _ _ Ku HS) C) as (K1 & C1 & A1). split; [exact K1|]. split; [exact C1|]. eapply rt_trans; [apply rt_step; split; [exact Ku|exact HS]|exact A1].
Qed.

Lemma analyze_spec : exists st, generate_targets ts target_list changed build_files = Ok st /\ let m := name_map (g_created st) in exists ans res, analyze ts target_list changed build_files ord pick tests additional = Ok ans /\
  stands_for ts target_list m /\
  (forall n, In n (ans_tests ans) <-> test_answer m n) /\
  compile_answer (supplied_by m) res /\
  (forall n, In n (ans_compile ans) <-> In n (ans_tests ans) \/ exists q, In q res /\ target_name_of q = n) /\ NoDup (ans_compile ans) /\
  (forall n, In n (ans_invalid ans) <-> asked n /\ n <> "all"%string /\ m n = None) /\
  (ans_found ans = true <-> ans_compile ans <> []).
Proof.
  destruct HL as (HD & HC & HI & _). destruct loaded_rank as (r & Hr & HN).
  destruct (generate_spec ts target_list changed build_files HD HC HI) as (st & E & IV). destruct (inv_final ts target_list changed build_files HD st IV) as (V & C & ED & M & MN & CN & RT).
  exists st. split; [exact E|]. cbn zeta. unfold analyze. rewrite E. cbn [bind]. set (sup := nodup string_dec (additional ++ tests)).
  assert (AS : forall n, In n sup <-> asked n) by (intros n; unfold sup, asked; rewrite nodup_In, in_app_iff; tauto).
  assert (SN : NoDup (no_all sup)) by (apply NoDup_filter, NoDup_nodup). destruct (mapping_spec (g_created st) (no_all sup) SN) as [MP1 MP2].
  destruct (unqualified_mapping (g_created st) (no_all sup)) as [mapping missing]. cbn [fst snd] in MP1, MP2.
  set (m := name_map (g_created st)) in *. assert (MS : stands_for ts target_list m) by (apply name_map_stands; exact C).
  assert (MISS : forall n, In n missing <-> asked n /\ n <> "all"%string /\ m n = None) by (intros n; rewrite MP2, no_all_In, AS; tauto).
  set (found := lookup_targets (no_all sup) mapping). set (supplied := if mem "all" sup then pick (nodup string_dec (found ++ root_targets st)) else found).
  assert (SUP : forall q, In q supplied <-> supplied_by m q).
  { intros q. assert (FQ : In q found <-> exists n, asked n /\ n <> "all"%string /\ m n = Some q).
    { unfold found. rewrite (lookup_spec m) by exact MP1. split; intros (n & X & Y); exists n; [apply no_all_In in X; rewrite AS in X; tauto|split; [apply no_all_In; rewrite AS; tauto|tauto]]. }
    unfold supplied, supplied_by. rewrite <- AS. destruct (mem_spec "all" sup) as [Hm|Hm].
    - rewrite (perm_In pick HP), nodup_In, in_app_iff, FQ, RT. tauto.
    - rewrite FQ. tauto. }
  assert (Sk : forall q, In q supplied -> known q).
  { intros q Hq. apply SUP in Hq. destruct Hq as [(n & _ & _ & X)|[_ X]]; [apply (proj1 MS n q X)|apply X]. }
  assert (fuelOK : length ts <= S (length ts)) by lia.
  assert (Hkin : forall t, known t -> In t (map fst ts)) by (apply known_in; assumption).
  assert (CT : exists res, compile_targets (S (length ts)) ts (back_deps_of ord st) supplied (g_matching st) = Ok res /\ compile_answer (supplied_by m) res).
  { destruct (compile_spec ts target_list changed HD r (length ts) Hr HN Hkin (back_deps_of ord st) (fun t b _ => back_deps_of_spec st t b ED) supplied (S (length ts)) (g_matching st) fuelOK) as (res & E1 & E2 & E3 & E4).
    - intros t Ht. apply M. exact Ht.
    - exists res. split; [exact E1|]. split; [exact E2|]. split.
      + intros x Hx. destruct (E3 x Hx) as [Ax ((s & Hs & Bs) & Cx & Wx)]. split; [exact Ax|]. split; [exists s; split; [apply SUP; exact Hs|exact Bs]|]. split; [exact Cx|].
        destruct Wx as [W|[W|(W1 & W2 & W3)]]; [tauto|tauto|]. right. right. split; [exact W1|]. split; [exact W2|]. intros (a & Ha & La). apply linked_iff in La. rewrite (W3 a Ha) in La. discriminate.
      + intros u Ku Au (s & Hs & Bs). destruct (affected_above u Ku Au) as (w & Kw & Cw & Aw). apply (E4 w u); [apply M; tauto|exact Aw|]. exists s. split; [apply SUP; exact Hs|exact Bs]. }
  destruct CT as (res & EC & CA).
  destruct (g_matching st) as [|g gs] eqn:EG.
  - assert (NA : forall u, known u -> ~ affected u). { intros u Ku Au. destruct (affected_above u Ku Au) as (w & Kw & Cw & _). apply (M w). tauto. }
    assert (RE : forall x, ~ In x res). { intros x Hx. destruct CA as (_ & CA & _). destruct (CA x Hx) as [Ax [(s & Hs & Bs) _]]. apply SUP in Hs. apply (NA x); [|exact Ax].
      apply Sk in Hs. clear - Hs Bs. induction Bs as [a b [Ka Hab]| |]; [eapply known_step; eassumption|assumption|auto]. }
    eexists _, res. split; [reflexivity|]. split; [exact MS|]. cbn [ans_tests ans_compile ans_invalid ans_found]. split.
    + intros n. split; [intros []|]. intros [(_ & _ & q & X & Y)|(_ & _ & q & X & Y)]; exact (NA q ltac:(first [apply (proj1 MS n q X)|apply X]) Y).
    + split; [exact CA|]. split; [intros n; split; [intros []|intros [[]|(q & X & _)]; exact (RE q X)]|]. split; [constructor|]. split; [exact MISS|]. split; [discriminate|intros X; contradiction].
  - rewrite <- EG in *. unfold matching_test_names, matching_compile_names. fold found. fold supplied.
    set (tna := lookup_targets (no_all tests) mapping).
    assert (TQ : forall q, In q tna <-> exists n, In n tests /\ n <> "all"%string /\ m n = Some q).
    { intros q. unfold tna. rewrite (lookup_spec m). - split; intros (n & X & Y); exists n; [apply no_all_In in X; tauto|split; [apply no_all_In; tauto|tauto]]. - intros n Hn. apply MP1. apply no_all_In in Hn. apply no_all_In. rewrite AS. unfold asked. tauto. }
    set (cands := if mem "all" tests then pick (nodup string_dec (tna ++ root_targets st)) else tna).
    assert (CQ : forall q, In q cands <-> In q tna \/ (In "all"%string tests /\ root q)).
    { intros q. unfold cands. destruct (mem_spec "all" tests); [rewrite (perm_In pick HP), nodup_In, in_app_iff, RT; tauto|tauto]. }
    assert (Kt : forall q, In q tna -> known q) by (intros q Hq; apply TQ in Hq; destruct Hq as (n & _ & _ & X); apply (proj1 MS n q X)).
    destruct (targets_depending_spec ts target_list changed r (length ts) Hr HN (deps_of ord st) (fun t d K => deps_of_spec st t d ED K) (S (length ts)) cands (initial_status (g_matching st))) as (fnd & EF & FF & _).
    + intros t Ht. apply CQ in Ht. destruct Ht as [Ht|[_ Ht]]; [apply Kt; exact Ht|apply Ht].
    + exact fuelOK.
    + intros u Ku. unfold initial_status. destruct (mem_spec u (g_matching st)) as [X|X]; [apply M; exact X|]. destruct (changed u) eqn:Eu; [exfalso; apply X, M; tauto|reflexivity].
    + rewrite EF. cbn [option_map]. rewrite EC. cbn [bind].
      set (matched_all := mem "all" tests && existsb (fun t => mem t (root_targets st)) fnd).
      set (mt := if matched_all then pick (nodup string_dec (filter (fun t => mem t tna) fnd)) else fnd).
      assert (MA : matched_all = true <-> In "all"%string tests /\ exists q, root q /\ affected q).
      { unfold matched_all. rewrite andb_true_iff, mem_In, existsb_exists. split.
        - intros (X & q & Y & Z). split; [exact X|]. exists q. apply mem_In, RT in Z. apply FF in Y. tauto.
        - intros (X & q & Y & Z). split; [exact X|]. exists q. split; [apply FF; split; [apply CQ; tauto|exact Z]|apply mem_In, RT; exact Y]. }
      assert (MT : forall q, In q mt <-> In q tna /\ affected q).
      { intros q. unfold mt. destruct matched_all eqn:Em.
        - rewrite (perm_In pick HP), nodup_In, filter_In, mem_In, FF, CQ. tauto.
        - rewrite FF, CQ. split; [|tauto]. intros [[X|[X Y]] Z]; [tauto|]. exfalso. assert (false = true) by (apply MA; split; [exact X|exists q; tauto]). discriminate. }
      set (tnames := map target_name_of mt ++ (if matched_all then ["all"%string] else [])).
      assert (TN : forall n, In n tnames <-> test_answer m n).
      { intros n. unfold tnames, test_answer. rewrite in_app_iff, in_map_iff. split.
        - intros [(q & X & Y)|X].
          + apply MT in Y. destruct Y as [Y Z]. apply TQ in Y. destruct Y as (n' & Y1 & Y2 & Y3). assert (n' = n) by (rewrite <- X; symmetry; apply (proj1 MS n' q Y3)). subst n'. left. split; [exact Y2|]. split; [exact Y1|]. exists q. tauto.
          + right. destruct matched_all eqn:Em; [|destruct X]. destruct X as [<-|[]]. destruct (proj1 MA eq_refl) as (X & Y). tauto.
        - intros [(X & Y & q & Z & W)|(-> & Y & Z)].
          + left. exists q. split; [apply (proj1 MS n q Z)|]. apply MT. split; [apply TQ; exists n; tauto|exact W].
          + right. assert (matched_all = true) by (apply MA; tauto). rewrite H. left. reflexivity. }
      eexists _, res. split; [reflexivity|]. split; [exact MS|]. cbn [ans_tests ans_compile ans_invalid ans_found]. split; [exact TN|]. split; [exact CA|].
      assert (CMP : forall n, In n (pick (nodup string_dec (map target_name_of (pick res) ++ tnames))) <-> In n tnames \/ exists q, In q res /\ target_name_of q = n).
      { intros n. rewrite (perm_In pick HP), nodup_In, in_app_iff, in_map_iff. split.
        - intros [(q & X & Y)|X]; [right; exists q; rewrite (perm_In pick HP) in Y; tauto|tauto].
        - intros [X|(q & X & Y)]; [tauto|]. left. exists q. rewrite (perm_In pick HP). tauto. }
      split; [exact CMP|]. split; [eapply Permutation_NoDup; [apply Permutation_sym, HP|apply NoDup_nodup]|]. split; [exact MISS|].
      destruct (map target_name_of (pick res)) as [|x xs] eqn:Ex.
      * destruct tnames as [|y ys] eqn:Ey; [split; [discriminate|]|split; [|reflexivity]].
        -- intros X. exfalso. apply X. apply Permutation_nil. apply Permutation_sym. apply (HP []).
        -- intros _ X. assert (In y []) by (rewrite <- X; apply (perm_In pick HP), nodup_In; left; reflexivity). contradiction.
      * split; [|reflexivity]. intros _ X. assert (In x []) by (rewrite <- X; apply (perm_In pick HP), nodup_In; left; reflexivity). contradiction.
Qed.
End All.

Theorem analyze_answer : forall ts tl changed bfs, loaded ts tl -> exists m, stands_for ts tl m /\
  forall ord pick tests additional, any_order ord -> any_order pick ->
  exists ans res, analyze ts tl changed bfs ord pick tests additional = Ok ans /\
    (forall n, In n (ans_tests ans) <-> test_answer ts tl changed bfs tests m n) /\
    compile_answer ts tl changed (supplied_by ts tl bfs tests additional m) res /\
    (forall n, In n (ans_compile ans) <-> In n (ans_tests ans) \/ exists q, In q res /\ target_name_of q = n) /\ NoDup (ans_compile ans) /\
    (forall n, In n (ans_invalid ans) <-> asked tests additional n /\ n <> "all"%string /\ m n = None) /\
    (ans_found ans = true <-> ans_compile ans <> []).
Proof.
  intros ts tl changed bfs HL. destruct HL as (HD & HC & HI & HX) eqn:EHL. clear EHL.
  destruct (generate_spec ts tl changed bfs HD HC HI) as (st & E & IV). destruct (inv_final ts tl changed bfs HD st IV) as (_ & C & _).
  exists (name_map (g_created st)). split; [apply name_map_stands; exact C|]. intros ord pick tests additional HO HP.
  destruct (analyze_spec ts tl changed bfs ord pick (conj HD (conj HC (conj HI HX))) HO HP tests additional) as (st' & E' & ans & res & A & _ & REST).
  rewrite E in E'. injection E' as <-. exists ans, res. split; [exact A|exact REST].
Qed.

Local Open Scope string_scope.
Definition ex_or : atargets :=
  [("x.gyp:l#t", mk_atarget [] "static_library" false); ("x.gyp:g#t", mk_atarget ["x.gyp:l#t"] "none" false); ("x.gyp:h#t", mk_atarget ["x.gyp:l#t"] "none" false)].
Lemma ex_or_needs : forall t d, needs ex_or t d -> d = "x.gyp:l#t" /\ (t = "x.gyp:g#t" \/ t = "x.gyp:h#t").
Proof. intros t d (a & H & X). cbn in H. destruct H as [H|[H|[H|[]]]]; injection H as <- <-; cbn in X; intuition. Qed.
Lemma compile_order_witness : exists ts tl tl' changed ans ans', Permutation tl tl' /\ loaded ts tl /\ loaded ts tl' /\
  (forall t d, needs ts t d -> before d t tl /\ before d t tl') /\
  analyze ts tl changed ["x.gyp"] (fun l => l) (fun l => l) [] ["g"] = Ok ans /\
  analyze ts tl' changed ["x.gyp"] (fun l => l) (fun l => l) [] ["g"] = Ok ans' /\
  ~ Permutation (ans_compile ans) (ans_compile ans').
Proof.
  exists ex_or, ["x.gyp:l#t"; "x.gyp:h#t"; "x.gyp:g#t"], ["x.gyp:l#t"; "x.gyp:g#t"; "x.gyp:h#t"], (fun t => mem t ["x.gyp:l#t"; "x.gyp:g#t"]).
  assert (B : forall t d, needs ex_or t d -> before d t ["x.gyp:l#t"; "x.gyp:h#t"; "x.gyp:g#t"]%list /\ before d t ["x.gyp:l#t"; "x.gyp:g#t"; "x.gyp:h#t"]%list).
  { intros t d H. destruct (ex_or_needs t d H) as [-> [-> | ->]]; split.
    - exists [], ["x.gyp:h#t"], []. reflexivity.
    - exists [], [], ["x.gyp:h#t"]. reflexivity.
    - exists [], [], ["x.gyp:g#t"]. reflexivity.
    - exists [], ["x.gyp:g#t"], []. reflexivity. }
  assert (L : forall tl, incl tl (map fst ex_or) -> loaded ex_or tl).
  { intros tl H. split; [repeat constructor; cbn; intuition discriminate|]. split; [intros t d X; destruct (ex_or_needs t d X) as [-> _]; cbn; tauto|]. split; [exact H|].
    exists (map fst ex_or). split; [reflexivity|]. intros t d X. apply (B t d X). }
  eexists _, _. split; [apply perm_skip, perm_swap|]. split; [apply L; intros x X; cbn in *; tauto|]. split; [apply L; intros x X; cbn in *; tauto|]. split; [exact B|].
  split; [vm_compute; reflexivity|]. split; [vm_compute; reflexivity|]. vm_compute. intros X. apply Permutation_length in X. discriminate X.
Qed.
