(** The sets of sources and the items. *)
From Coq Require Import Permutation.
From Verif Require Import Lib LibFacts Str StrFacts Model_Path Spec_Path Proof_Path Proof_Path2 Model_Vcxproj Spec_Vcxproj Proof_Vcxproj Proof_Vcxproj2.
From Verif Require Proof_Make Model_Writer Model_Build Proof_Build.
Local Open Scope string_scope.

(** ** sets *)
Lemma update_In : forall l s y, In y (update s l) <-> In y s \/ In y l.
Proof.
  induction l as [|x l IH]; intros s y; cbn [update fold_left]; [cbn; tauto|]. fold (update (oset_add x s) l). rewrite IH, oset_add_In. cbn [In]. intuition congruence.
Qed.
Lemma update_NoDup : forall l s, NoDup s -> NoDup (update s l).
Proof. induction l as [|x l IH]; intros s H; [exact H|]. cbn [update fold_left]. apply IH. apply oset_add_NoDup. exact H. Qed.
Lemma discard_In : forall x s y, In y (discard x s) -> In y s.
Proof. intros x s y I. unfold discard in I. apply filter_In in I. tauto. Qed.

Definition given (p : project) (x : string) : Prop :=
  meant p x \/ (exists a, In a (actions p) /\ In x (inputs a)) \/ (exists c, In c (copies p) /\ In x (files c)).
Lemma prepare_actions : forall l s e, let '(s', e') := fold_left prepare_action l (s, e) in
  (NoDup s -> NoDup s') /\
  (forall y, In y s' <-> In y s \/ exists a x, In a l /\ y = normalized_source x /\ (In x (inputs a) \/ as_sources a = true /\ In x (outputs a))) /\
  (forall y, In y e' <-> In y e \/ exists a x, In a l /\ y = normalized_source x /\ In x (inputs a)).
Proof.
  induction l as [|a l IH]; intros s e.
  - cbn [fold_left]. split; [auto|]. split; intros y; (split; [auto|intros [H|(a & x & [] & _)]; exact H]).
  - cbn [fold_left]. unfold prepare_action at 2. set (i := map normalized_source (inputs a)). set (s1 := if as_sources a then _ else _). specialize (IH s1 (update e i)). destruct (fold_left prepare_action l (s1, update e i)) as [s' e']. destruct IH as (N & S & E). split; [|split].
    + intros H. apply N. unfold s1. destruct (as_sources a); [apply update_NoDup|]; apply update_NoDup; exact H.
    + intros y. rewrite S. assert (S1 : In y s1 <-> In y s \/ exists x, y = normalized_source x /\ (In x (inputs a) \/ as_sources a = true /\ In x (outputs a))).
      { unfold s1. assert (I : forall m, In y (map normalized_source m) <-> exists x, y = normalized_source x /\ In x m) by (intros m; rewrite in_map_iff; split; intros (x & A & B); exists x; auto). destruct (as_sources a); rewrite !update_In; unfold i; rewrite !I; clear.
        - split; [intros [[H|(x & H & K)]|(x & H & K)]; [left; exact H|right; exists x; auto|right; exists x; auto]|intros [H|(x & H & [K|[_ K]])]; [auto|left; right; exists x; auto|right; exists x; auto]].
        - split; [intros [H|(x & H & K)]; [left; exact H|right; exists x; auto]|intros [H|(x & H & [K|[K _]])]; [auto|right; exists x; auto|discriminate]]. }
      rewrite S1. split.
      * intros [[H|(x & H)]|(b & x & H & K)]; [left; exact H|right; exists a, x; split; [left; reflexivity|exact H]|right; exists b, x; split; [right; exact H|exact K]].
      * intros [H|(b & x & [<-|H] & K)]; [left; left; exact H|left; right; exists x; exact K|right; exists b, x; auto].
    + intros y. rewrite E, update_In. unfold i. rewrite in_map_iff. split.
      * intros [[H|(x & H & K)]|(b & x & H & K)]; [left; exact H|right; exists a, x; split; [left; reflexivity|auto]|right; exists b, x; split; [right; exact H|exact K]].
      * intros [H|(b & x & [<-|H] & K & L)]; [left; left; exact H|left; right; exists x; auto|right; exists b, x; auto].
Qed.
Lemma copies_In : forall l s, NoDup s -> NoDup (fold_left (fun s c => update s (map normalized_source (files c))) l s) /\
  forall y, In y (fold_left (fun s c => update s (map normalized_source (files c))) l s) <-> In y s \/ exists c x, In c l /\ y = normalized_source x /\ In x (files c).
Proof.
  induction l as [|c l IH]; intros s N; cbn [fold_left].
  - split; [exact N|]. intros y. split; [auto|]. intros [H|(c & x & [] & _)]. exact H.
  - destruct (IH (update s (map normalized_source (files c)))) as [A B]; [apply update_NoDup; exact N|]. split; [exact A|]. intros y. rewrite B, update_In, in_map_iff. split.
    + intros [[H|(x & H & K)]|(d & x & H & K)]; [left; exact H|right; exists c, x; split; [left; reflexivity|auto]|right; exists d, x; split; [right; exact H|exact K]].
    + intros [H|(d & x & [<-|H] & K & L)]; [left; left; exact H|left; right; exists x; auto|right; exists d, x; auto].
Qed.
Lemma prepare_sets : forall p, NoDup (fst (prepare p)) /\
  (forall y, In y (fst (prepare p)) <-> (exists x, y = normalized_source x /\ given p x) \/ standalone p = false /\ y = gyp_file p) /\
  (forall y, In y (snd (prepare p)) <-> exists a x, In a (actions p) /\ y = normalized_source x /\ In x (inputs a)).
Proof.
  intros p. unfold prepare. set (s0 := if standalone p then _ else _).
  assert (N0 : NoDup s0) by (unfold s0; destruct (standalone p); [|apply oset_add_NoDup]; apply update_NoDup; constructor).
  assert (I0 : forall y, In y s0 <-> (exists x, y = normalized_source x /\ In x (sources p)) \/ standalone p = false /\ y = gyp_file p).
  { intros y. assert (U : In y (update [] (map normalized_source (sources p))) <-> exists x, y = normalized_source x /\ In x (sources p)) by (rewrite update_In, in_map_iff; split; [intros [[]|(x & A & B)]; exists x; auto|intros (x & A & B); right; exists x; auto]).
    unfold s0. destruct (standalone p); [rewrite U; split; [auto|intros [H|[H _]]; [exact H|discriminate]]|]. rewrite oset_add_In, U. tauto. }
  pose proof (prepare_actions (actions p) s0 []) as A. destruct (fold_left prepare_action (actions p) (s0, [])) as [s e]. destruct A as (N & S & E). destruct (copies_In (copies p) s (N N0)) as (NC & IC). cbn [fst snd].
  split; [exact NC|]. split.
  - intros y. rewrite IC, S, I0. unfold given, meant. split.
    + intros [[[(x & H & K)|H]|(a & x & H & K & L)]|(c & x & H & K & L)]; [left; exists x; auto|right; exact H| |left; exists x; split; [exact K|right; right; exists c; auto]].
      left. exists x. split; [exact K|]. destruct L as [L|[L M]]; [right; left; exists a; auto|left; right; exists a; auto].
    + intros [(x & H & [[K|(a & K & L & M)]|[(a & K & L)|(c & K & L)]])|H]; [left; left; left; exists x; auto|left; right; exists a, x; auto|left; right; exists a, x; auto|right; exists c, x; auto|left; left; right; exact H].
  - intros y. rewrite E. split; [intros [[]|H]; exact H|auto].
Qed.
Lemma adjust_sets : forall p s e, Forall (fun r => rule_as_sources r = false) (rules p) -> fst (adjust_rules p (s, e)) = s /\ forall y, In y (snd (adjust_rules p (s, e))) -> In y e.
Proof.
  intros p s e. unfold adjust_rules. generalize (rules p). intros l. revert e. induction l as [|r l IH]; intros e F; [split; [reflexivity|auto]|]. inversion F as [|? ? F1 F2]; subst. cbn [fold_left].
  assert (A : forall t e, exists e', fold_left (adjust_trigger (prefix p) r) t (s, e) = (s, e') /\ forall y, In y e' -> In y e).
  { induction t as [|x t IHt]; intros e0; [exists e0; auto|]. cbn [fold_left]. unfold adjust_trigger at 2. rewrite F1. destruct (IHt (discard (fix_path (prefix p) x) e0)) as (e' & E & H). exists e'. split; [exact E|]. intros y I. apply (discard_In (fix_path (prefix p) x)). apply H. exact I. }
  destruct (A (rule_sources r) e) as (e' & -> & H). destruct (IH e' F2) as (B & C). split; [exact B|]. intros y I. apply H. apply C. exact I.
Qed.

(** What _AdjustSourcesAndConvertToFilterHierarchy works on. *)
Definition e2 (p : project) : list string := update (snd (adjust_rules p (prepare p))) (update [] (sources_excluded p)).
Definition s2 (p : project) : list string := update (fst (adjust_rules p (prepare p))) (e2 p).
Lemma e2_In : forall p y, Forall (fun r => rule_as_sources r = false) (rules p) -> In y (e2 p) -> In y (sources_excluded p) \/ exists a x, In a (actions p) /\ y = normalized_source x /\ In x (inputs a).
Proof.
  intros p y F I. unfold e2 in I. rewrite !update_In in I. destruct I as [I|[[]|I]]; [|left; exact I]. right. apply prepare_sets. destruct (prepare p) as [s e]. apply (adjust_sets p s e F) in I. exact I.
Qed.
Lemma e2_all : forall p y, rules p = [] -> In y (sources_excluded p) \/ (exists a x, In a (actions p) /\ y = normalized_source x /\ In x (inputs a)) -> In y (e2 p).
Proof.
  intros p y R H. unfold e2. rewrite !update_In. destruct H as [H|H]; [auto|]. left. unfold adjust_rules. rewrite R. cbn [fold_left]. apply prepare_sets. exact H.
Qed.
Lemma s2_sets : forall p, Forall (fun r => rule_as_sources r = false) (rules p) -> NoDup (s2 p) /\
  forall y, In y (s2 p) <-> (exists x, y = normalized_source x /\ given p x) \/ standalone p = false /\ y = gyp_file p \/ In y (sources_excluded p).
Proof.
  intros p F. unfold s2. destruct (prepare_sets p) as (N & S & E). assert (A : fst (adjust_rules p (prepare p)) = fst (prepare p)) by (destruct (prepare p) as [s e]; apply (adjust_sets p s e F)). rewrite A. split; [apply update_NoDup; exact N|].
  intros y. rewrite update_In, S. split.
  - intros [[H|H]|H]; [auto|auto|]. apply e2_In in H; [|exact F]. destruct H as [H|(a & x & H & K & L)]; [auto|]. left. exists x. split; [exact K|]. right. left. exists a. auto.
  - intros [H|[H|H]]; [auto|auto|]. right. unfold e2. rewrite !update_In. auto.
Qed.

(** ** the hierarchy *)
Definition kept (e : list string) (listed : bool) (f : string) : list string := if mem f e then (if listed then [f] else []) else [f].
Lemma below_leaves : forall e listed comps pre, comps <> [] -> flat_map leaves (convert_below e listed pre comps) = kept e listed (normalized_source (join_bs (pre ++ comps))).
Proof.
  intros e listed. induction comps as [|x comps IH]; intros pre N; [contradiction|]. cbn [convert_below]. destruct comps as [|y comps].
  - unfold kept. destruct (mem _ e); [destruct listed; reflexivity|reflexivity].
  - cbn [flat_map leaves]. rewrite app_nil_r. fold (flat_map leaves (convert_below e listed (pre ++ [x]) (y :: comps))). rewrite IH by discriminate. rewrite <- app_assoc. reflexivity.
Qed.
Lemma convert_leaves : forall e listed l, (forall c, In c l -> c <> []) -> Permutation (flat_map leaves (convert e listed l)) (flat_map (fun c => kept e listed (normalized_source (join_bs c))) l).
Proof.
  intros e listed l N. unfold convert. rewrite flat_map_app.
  assert (T : flat_map leaves (match flat_map (top_excluded e) l with [] => [] | _ => if listed then [Filter "_excluded_files" (map File (flat_map (top_excluded e) l))] else [] end) = if listed then flat_map (top_excluded e) l else []).
  { assert (F : forall m, flat_map leaves (map File m) = m) by (induction m as [|x m IH]; [reflexivity|]; cbn; rewrite IH; reflexivity). destruct (flat_map (top_excluded e) l) as [|x m] eqn:X; [destruct listed; reflexivity|]. destruct listed; [|reflexivity]. cbn [flat_map leaves]. rewrite app_nil_r. apply F. }
  rewrite T. clear T. induction l as [|c l IH]; [destruct listed; reflexivity|]. cbn [flat_map]. rewrite flat_map_app.
  assert (C : Permutation (flat_map leaves (convert_top e listed c) ++ (if listed then top_excluded e c else [])) (kept e listed (normalized_source (join_bs c)))).
  { specialize (N c (or_introl eq_refl)). destruct c as [|x c]; [contradiction|]. destruct c as [|y c].
    - unfold convert_top, top_excluded, kept. change (join_bs [x]) with x. destruct (mem (normalized_source x) e); destruct listed; cbn; reflexivity.
    - unfold convert_top, top_excluded. rewrite below_leaves by discriminate. destruct listed; rewrite app_nil_r; reflexivity. }
  specialize (IH (fun d I => N d (or_intror I))). destruct listed.
  - rewrite <- C, <- IH. rewrite <- !app_assoc. apply Permutation_app_head. rewrite !app_assoc. apply Permutation_app_tail. apply Permutation_app_comm.
  - rewrite app_nil_r in *. rewrite <- C, <- IH. reflexivity.
Qed.
Lemma prune_leaves : forall fuel l t, prune fuel l = inl t -> flat_map leaves t = flat_map leaves l.
Proof.
  induction fuel as [|fuel IH]; intros l t; cbn [prune]; destruct (one_folder l); try discriminate; try (intros H; injection H as <-; reflexivity).
  destruct (forallb _ l) eqn:F; [|discriminate]. intros H. rewrite (IH _ _ H). clear - F. induction l as [|x l IH]; [reflexivity|]. cbn [forallb flat_map] in *. apply andb_true_iff in F. destruct F as [F1 F2]. rewrite flat_map_app, (IH F2). destruct x as [|n [|y [|z c]]]; try discriminate. reflexivity.
Qed.
Lemma join_split : forall s, join_bs (split_char "\" s) = s.
Proof.
  induction s as [|a s IH]; [reflexivity|]. cbn [split_char]. destruct (Ascii.eqb_spec a "\") as [->|N].
  - rewrite join_cons. destruct (split_char "\" s) eqn:E; [exfalso; exact (split_char_nonempty _ _ E)|]. rewrite IH. reflexivity.
  - destruct (split_char "\" s) as [|x l] eqn:E; [exfalso; exact (split_char_nonempty _ _ E)|]. rewrite join_cons in *. destruct l; cbn [append]; rewrite <- IH; reflexivity.
Qed.

(** ** the whole of it *)
Definition keys (p : project) : list string := map (fix_path (prefix p)) (map fst (attached p)).
Definition fully (p : project) : list string :=
  filter (fun i => negb (mem i (flat_map (fun c => map (fix_path (prefix p)) (filter (fun f => negb (String.eqb f "")) (precompiled c))) (configurations p)))) (map (fix_path (prefix p)) (e2 p)).
Definition rest (p : project) : list string := filter (fun s => negb (mem s (keys p))) (map (fix_path (prefix p)) (e2 p)).
Lemma items_Forall2 : forall p e l gi, items_of p e l = inl gi -> Forall2 (fun f x => item_of p e f = inl x) l gi.
Proof.
  intros p e. induction l as [|f l IH]; intros gi; cbn [items_of]; [intros H; injection H as <-; constructor|]. destruct (item_of p e f) eqn:I; [|discriminate]. destruct (items_of p e l) eqn:R; [|discriminate]. intros H. injection H as <-. constructor; [exact I|apply IH; reflexivity].
Qed.
Lemma groups_perm : forall gi : list (group * item), Permutation (flat_map (fun g => map snd (filter (fun x => group_eqb g (fst x)) gi)) groups) (map snd gi).
Proof.
  assert (Z : forall (gi : list (group * item)) (gs : list group) x g, In g gs -> NoDup gs -> Permutation (flat_map (fun g' => map snd (filter (fun x => group_eqb g' (fst x)) ((g, x) :: gi))) gs) (x :: flat_map (fun g' => map snd (filter (fun x => group_eqb g' (fst x)) gi)) gs)).
  { intros gi. induction gs as [|h gs IH]; intros x g I N; [destruct I|]. inversion N as [|? ? N1 N2]; subst. cbn [flat_map filter fst].
    assert (R : forall g', group_eqb g' g = true <-> g' = g) by (intros g0; destruct g0, g; cbn; split; congruence).
    destruct (group_eqb h g) eqn:E.
    - apply R in E. subst h. cbn [map snd app]. apply perm_skip. apply Permutation_app_head. assert (X : forall gs, ~ In g gs -> flat_map (fun g' => map snd (if group_eqb g' g then (g, x) :: filter (fun x0 => group_eqb g' (fst x0)) gi else filter (fun x0 => group_eqb g' (fst x0)) gi)) gs = flat_map (fun g' => map snd (filter (fun x0 => group_eqb g' (fst x0)) gi)) gs).
      { clear - R. induction gs as [|k gs IH]; intros N; [reflexivity|]. cbn [flat_map]. destruct (group_eqb k g) eqn:K; [apply R in K; subst k; exfalso; apply N; left; reflexivity|]. rewrite IH; [reflexivity|]. intros I. apply N. right. exact I. }
      rewrite X by exact N1. reflexivity.
    - destruct I as [->|I]; [exfalso; rewrite (proj2 (R g) eq_refl) in E; discriminate|]. specialize (IH x g I N2). cbn [flat_map filter fst] in IH. rewrite IH. symmetry. apply Permutation_middle. }
  induction gi as [|[g x] gi IH]; [reflexivity|]. rewrite Z; [cbn [map snd]; apply perm_skip; exact IH|destruct g; cbn; tauto|].
  repeat (constructor; [cbn; intuition discriminate|]). constructor.
Qed.
Lemma customs_keys : forall cm p, map attached_to (map (custom_of cm p) (attached p)) = keys p.
Proof. intros cm p. unfold keys. rewrite !map_map. apply map_ext. intros [k l]. reflexivity. Qed.
Lemma generate_items : forall cm p items customs, generate cm p = inl (items, customs) -> exists l gi,
  Permutation l (flat_map (fun y => kept (fully p) (list_excluded p) (normalized_source (fix_path (prefix p) y))) (s2 p)) /\
  Forall2 (fun f x => item_of p (rest p) f = inl x) (filter (fun s => negb (mem s (keys p))) l) gi /\
  Permutation items (map snd gi) /\ customs = map (custom_of cm p) (attached p).
Proof.
  intros cm p items customs. unfold generate, hierarchy. destruct (adjust_rules p (prepare p)) as [s e] eqn:A. assert (E2 : update e (update [] (sources_excluded p)) = e2 p) by (unfold e2; rewrite A; reflexivity). assert (S2 : update s (e2 p) = s2 p) by (unfold s2; rewrite A; reflexivity). rewrite E2, S2.
  fold (fully p). set (t := convert (fully p) (list_excluded p) _). destruct (prune (deepest t) t) as [t'|err] eqn:P; [|discriminate]. rewrite customs_keys. fold (keys p). fold (rest p).
  destruct (items_of p (rest p) _) as [gi|err] eqn:I; [|discriminate]. intros H. injection H as <- <-. exists (flat_map leaves t'), gi. split; [|split; [apply items_Forall2; exact I|split; [apply groups_perm|reflexivity]]].
  rewrite (prune_leaves _ _ _ P). unfold t. rewrite map_map. rewrite convert_leaves.
  - clear. generalize (s2 p). intros m. induction m as [|y l IH]; [reflexivity|]. cbn [map flat_map]. rewrite join_split. apply Permutation_app_head. exact IH.
  - intros c I'. apply in_map_iff in I'. destruct I' as (y & <- & _). apply split_char_nonempty.
Qed.
(** Where custom builds are attached. *)
Lemma attach_keys : forall k s d x, In x (map fst (attach k s d)) <-> x = k \/ In x (map fst d).
Proof.
  intros k s. induction d as [|[k' l] d IH]; intros x; cbn [attach map fst In]; [intuition congruence|]. destruct (String.eqb_spec k k') as [->|N]; cbn [map fst In]; [intuition congruence|]. rewrite IH. intuition congruence.
Qed.
Lemma attached_keys : forall p k, In k (map fst (attached p)) <->
  (exists a, In a (actions p) /\ (inputs a = [] /\ k = build_file p \/ exists l, inputs a = k :: l)) \/ exists c, In c (copies p) /\ In k (files c).
Proof.
  intros p k. unfold attached. assert (G : forall js d, In k (map fst (fold_left (fun d s => attach (hd "" (job_inputs s)) s d) js d)) <-> In k (map fst d) \/ exists j, In j js /\ k = hd "" (job_inputs j)).
  { induction js as [|j js IH]; intros d; cbn [fold_left]; [split; [auto|intros [H|(j & [] & _)]; exact H]|]. rewrite IH, attach_keys. split.
    - intros [[H|H]|(j' & H & K)]; [right; exists j; split; [left; reflexivity|exact H]|left; exact H|right; exists j'; split; [right; exact H|exact K]].
    - intros [H|(j' & [<-|H] & K)]; [left; right; exact H|left; left; exact K|right; exists j'; auto]. }
  rewrite G. unfold jobs. assert (J : forall j, In j (map (job_of p) (actions p) ++ flat_map (fun c => map (copy_job p c) (files c)) (copies p)) <-> (exists a, In a (actions p) /\ j = job_of p a) \/ exists c f, In c (copies p) /\ In f (files c) /\ j = copy_job p c f).
  { intros j. rewrite in_app_iff, in_map_iff, in_flat_map. split.
    - intros [(a & <- & I)|(c & I & K)]; [left; exists a; auto|right; apply in_map_iff in K; destruct K as (f & <- & K); exists c, f; auto].
    - intros [(a & I & ->)|(c & f & I & K & ->)]; [left; exists a; auto|right; exists c; split; [exact I|apply in_map; exact K]]. }
  split.
  - intros [[]|(j & I & ->)]. apply J in I. destruct I as [(a & I & ->)|(c & f & I & K & ->)].
    + left. exists a. split; [exact I|]. unfold job_of. cbn [job_inputs]. destruct (inputs a) as [|x l]; [left; split; reflexivity|right; exists l; reflexivity].
    + right. exists c. split; [exact I|]. unfold copy_job. destruct (ends_slash f); exact K.
  - intros [(a & I & H)|(c & I & K)]; right.
    + exists (job_of p a). split; [apply J; left; exists a; auto|]. unfold job_of. cbn [job_inputs]. destruct H as [[-> ->]|(l & ->)]; reflexivity.
    + exists (copy_job p c k). split; [apply J; right; exists c, k; auto|]. unfold copy_job. destruct (ends_slash k); reflexivity.
Qed.
