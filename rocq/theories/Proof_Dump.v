(** Proofs about the graph of dependencies. *)
From Coq Require Import Lia.
From Verif Require Import Lib Model_Dump Spec_Dump.

Lemma mem_in x l : mem x l = true <-> In x l.
Proof.
  unfold mem. rewrite existsb_exists. split.
  - intros [y [Y E]]. apply String.eqb_eq in E as ->. exact Y.
  - intros H. exists x. split; [exact H|apply String.eqb_refl].
Qed.
Lemma assoc_key {B} t (l : list (string * B)) v : assoc t l = Some v -> In t (map fst l).
Proof.
  induction l as [|[k u] l IH]; cbn [assoc map fst In]; [discriminate|].
  destruct (String.eqb_spec t k) as [->|]; [left; reflexivity|right; apply IH; assumption].
Qed.

Section Visit.
Variables (dicts : list (string * option (list string))) (targets : list string).
Definition list_of (d : option (list string)) : list string := match d with Some l => l | None => [] end.
Lemma depends_assoc t d : assoc t dicts = Some d -> depends_on dicts t (list_of d).
Proof. intros H. destruct d; [left; exact H|right; split; [exact H|reflexivity]]. Qed.
Lemma depends_fun t l l' : depends_on dicts t l -> depends_on dicts t l' -> l = l'.
Proof. unfold depends_on. intros [H|[H ->]] [H'|[H' ->]]; congruence. Qed.

Record good (edges : list (string * list string)) (todo : list string) : Prop := {
  once : NoDup (map fst edges);
  right_ : forall t l, In (t, l) edges -> depends_on dicts t l /\ needed dicts targets t;
  asked_for : forall t, In t todo -> needed dicts targets t;
  all_targets : forall t, In t targets -> In t (map fst edges) \/ In t todo;
  closed : forall t l d, In (t, l) edges -> In d l -> In d (map fst edges) \/ In d todo }.

Lemma good_skip edges t rest : good edges (t :: rest) -> In t (map fst edges) -> good edges rest.
Proof.
  intros [H1 H2 H3 H4 H5] I. constructor; [exact H1|exact H2|intros u U; apply H3; right; exact U| |].
  - intros u U. destruct (H4 u U) as [X|[<-|X]]; tauto.
  - intros u l d U D. destruct (H5 u l d U D) as [X|[<-|X]]; tauto.
Qed.
Lemma good_step edges t rest d : good edges (t :: rest) -> ~ In t (map fst edges) -> assoc t dicts = Some d ->
  good (edges ++ [(t, list_of d)]) (rev (list_of d) ++ rest).
Proof.
  intros [H1 H2 H3 H4 H5] N A. pose proof (depends_assoc _ _ A) as D.
  assert (T : needed dicts targets t) by (apply H3; left; reflexivity).
  assert (K : forall u, In u (map fst (edges ++ [(t, list_of d)])) <-> In u (map fst edges) \/ u = t).
  { intros u. rewrite map_app, in_app_iff. cbn [map fst In]. split; [intros [X|[X|[]]]; auto|intros [X| ->]; auto]. }
  constructor.
  - rewrite map_app. cbn [map fst]. apply NoDup_Add with (a := t) (l := map fst edges); [|split; assumption].
    rewrite <- (app_nil_r (map fst edges)) at 1. apply Add_app.
  - intros u l U. apply in_app_iff in U as [U|[U|[]]]; [exact (H2 u l U)|]. injection U as <- <-. split; assumption.
  - intros u U. apply in_app_iff in U as [U|U]; [|apply H3; right; exact U].
    apply in_rev in U. exact (needed_by dicts targets t _ u T D U).
  - intros u U. rewrite K, in_app_iff. destruct (H4 u U) as [X|[<-|X]]; auto.
  - intros u l e U E. rewrite K, in_app_iff, <- in_rev. apply in_app_iff in U as [U|[U|[]]].
    + destruct (H5 u l e U E) as [X|[<-|X]]; auto.
    + injection U as <- <-. auto.
Qed.

Lemma visit_good fuel edges todo r : good edges todo -> visit fuel dicts edges todo = Some r ->
  match r with Graph e => good e [] | Unknown t => needed dicts targets t /\ assoc t dicts = None end.
Proof.
  revert edges todo. induction fuel as [|fuel IH]; intros edges todo G; cbn [visit]; [discriminate|].
  destruct todo as [|t rest]; [intros H; injection H as <-; exact G|].
  destruct (mem t (map fst edges)) eqn:M.
  - apply IH. apply (good_skip _ t); [exact G|apply mem_in, M].
  - assert (N : ~ In t (map fst edges)) by (intros X; apply mem_in in X; congruence).
    destruct (assoc t dicts) as [d|] eqn:A.
    + apply IH. exact (good_step _ _ _ _ G N A).
    + intros H; injection H as <-. split; [|exact A]. apply (asked_for _ _ G). left; reflexivity.
Qed.
Lemma good_start : good [] (rev targets).
Proof.
  constructor; cbn; [constructor|intros ? ? []|intros t T; apply needed_target, in_rev, T| |intros ? ? ? []].
  intros t T. right. apply in_rev in T. exact T.
Qed.

Lemma graph fuel e : generate_dump fuel dicts targets = Some (Graph e) ->
  NoDup (map fst e) /\ forall t l, In (t, l) e <-> needed dicts targets t /\ depends_on dicts t l.
Proof.
  intros H. pose proof (visit_good _ _ _ _ good_start H) as G. cbn in G. destruct G as [H1 H2 _ H4 H5].
  split; [exact H1|].
  assert (C : forall t, needed dicts targets t -> In t (map fst e)).
  { intros t T. induction T as [t T|t l d T IH D I].
    - destruct (H4 t T) as [X|[]]; exact X.
    - apply in_map_iff in IH as [[t' l'] [E X]]. cbn in E. subst t'. destruct (H2 _ _ X) as [D' _].
      rewrite (depends_fun _ _ _ D D') in I. destruct (H5 _ _ _ X I) as [Y|[]]; exact Y. }
  intros t l. split; [intros X; destruct (H2 _ _ X); tauto|]. intros [T D].
  specialize (C t T). apply in_map_iff in C as [[t' l'] [E X]]. cbn in E. subst t'.
  destruct (H2 _ _ X) as [D' _]. rewrite (depends_fun _ _ _ D D'). exact X.
Qed.
Lemma unknown fuel t : generate_dump fuel dicts targets = Some (Unknown t) -> needed dicts targets t /\ assoc t dicts = None.
Proof. intros H. exact (visit_good _ _ _ _ good_start H). Qed.

(** ** the end *)
Definition left_over (edges : list (string * list string)) : nat := length (filter (fun k => negb (mem k (map fst edges))) (nodup string_dec (map fst dicts))).
Lemma filter_less {A} (f g : A -> bool) l x : (forall y, g y = true -> f y = true) -> In x l -> f x = true -> g x = false -> length (filter g l) < length (filter f l).
Proof.
  intros S'. assert (LE : forall l, length (filter g l) <= length (filter f l)).
  { intros m. induction m as [|y m IH]; cbn [filter]; [lia|]. destruct (g y) eqn:G; [rewrite (S' y G); cbn; lia|]. destruct (f y); cbn; lia. }
  induction l as [|y l IH]; [intros []|]. intros [<-|I] F G; cbn [filter].
  - rewrite F, G. cbn. specialize (LE l). lia.
  - specialize (IH I F G). destruct (g y) eqn:Y; [rewrite (S' y Y); cbn; lia|]. destruct (f y); cbn; lia.
Qed.
Lemma visit_ends k : forall edges todo, left_over edges <= k -> exists n, forall fuel, n <= fuel -> exists r, visit fuel dicts edges todo = Some r.
Proof.
  induction k as [k IH] using (well_founded_induction lt_wf). intros edges todo. induction todo as [|t rest IHt]; intros K.
  - exists 1. intros [|f] F; [lia|]. eexists; reflexivity.
  - destruct (mem t (map fst edges)) eqn:M.
    + destruct (IHt K) as [n N]. exists (S n). intros [|f] F; [lia|]. cbn [visit]. rewrite M. apply N. lia.
    + destruct (assoc t dicts) as [d|] eqn:A.
      * assert (L : left_over (edges ++ [(t, list_of d)]) < left_over edges).
        { unfold left_over. apply filter_less with (x := t).
          - intros y. rewrite !negb_true_iff. intros Y. apply not_true_is_false. intros X. apply mem_in in X.
            assert (Z : mem y (map fst (edges ++ [(t, list_of d)])) = true) by (apply mem_in; rewrite map_app; apply in_or_app; left; exact X). congruence.
          - apply nodup_In. exact (assoc_key _ _ _ A).
          - rewrite M. reflexivity.
          - apply negb_false_iff, mem_in. rewrite map_app. apply in_or_app. right; left; reflexivity. }
        destruct (IH (left_over (edges ++ [(t, list_of d)])) ltac:(lia) (edges ++ [(t, list_of d)]) (rev (list_of d) ++ rest) (le_n _)) as [n N].
        exists (S n). intros [|f] F; [lia|]. cbn [visit]. rewrite M, A. apply N. lia.
      * exists 1. intros [|f] F; [lia|]. cbn [visit]. rewrite M, A. eexists; reflexivity.
Qed.
Lemma ends_dump : exists n, forall fuel, n <= fuel -> exists r, generate_dump fuel dicts targets = Some r.
Proof. exact (visit_ends _ _ _ (le_n _)). Qed.
Lemma complete_dump fuel r : generate_dump fuel dicts targets = Some r -> ((exists e, r = Graph e) <-> forall t, needed dicts targets t -> assoc t dicts <> None).
Proof.
  intros H. split.
  - intros [e ->] t T A. pose proof (visit_good _ _ _ _ good_start H) as G. cbn in G. destruct (graph _ _ H) as [_ Q].
    assert (X : In t (map fst e)).
    { destruct T as [t T|t l d T D I]; [destruct (all_targets _ _ G t T) as [X|[]]; exact X|].
      destruct (closed _ _ G t l d (proj2 (Q t l) (conj T D)) I) as [X|[]]; exact X. }
    apply in_map_iff in X as [[t' l] [E X]]. cbn in E. subst t'. apply Q in X as [_ [D|[D _]]]; congruence.
  - intros N. destruct r as [e|t]; [exists e; reflexivity|]. apply unknown in H as [T A]. elim (N t T A).
Qed.
End Visit.
