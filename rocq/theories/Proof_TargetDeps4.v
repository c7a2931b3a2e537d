From Verif Require Import Lib LibFacts Str StrFacts Model_Graph Model_Names Model_Path Model_TargetDeps Spec_Names Spec_Path Spec_TargetDeps.
From Verif Require Import Proof_Graph Proof_Names Proof_Path Proof_TargetDeps Proof_TargetDeps2 Proof_TargetDeps3 Props_Path.
From Coq Require Import Lia.
Local Open Scope string_scope.

(** ** What is written *)
Lemma parse_plain : forall n, no_colon n -> no_hash n -> parse_qualified_target n = (None, n, None).
Proof. intros n C H. unfold parse_qualified_target. rewrite (proj2 (rsplit1_None colon n) C), (proj2 (rsplit1_None hash n) H). reflexivity. Qed.
Lemma parse_toolset : forall n s, no_colon n -> no_colon s -> no_hash s -> parse_qualified_target (n ++ "#" ++ s) = (None, n, Some s).
Proof.
  intros n s C D H. unfold parse_qualified_target. assert (X : no_colon (n ++ "#" ++ s)) by (unfold no_colon in *; rewrite has_char_app; cbn [has_char append]; rewrite C, D; reflexivity). rewrite (proj2 (rsplit1_None colon _) X).
  rewrite (proj2 (rsplit1_Some hash (n ++ "#" ++ s) n s)); [reflexivity|]. split; [reflexivity|exact H].
Qed.
Lemma parse_file : forall pf n, no_colon n -> no_hash n -> parse_qualified_target (pf ++ ":" ++ n) = (Some pf, n, None).
Proof. intros pf n C H. exact (parse_qualify pf n "" C eq_refl eq_refl (fun _ => H)). Qed.
Lemma parse_full : forall pf n s, no_colon n -> plain_toolset s -> parse_qualified_target (spell pf n s) = (Some pf, n, Some s).
Proof. intros pf n s C P. exact (spell_parse pf n s C P). Qed.
Lemma written_means : forall cwd multiple file own pf n s, place_ok cwd -> file <> "" -> pf <> "" -> no_colon n -> no_hash n -> plain_toolset s ->
  let meant := meant (plain_realpath cwd) multiple file own in
  meant n = (file, n, own) /\ meant (n ++ "#" ++ s) = (file, n, if multiple then s else own) /\
  exists f, locate cwd f = locate (locate cwd (dirname file)) pf /\ meant (pf ++ ":" ++ n) = (f, n, own) /\ meant (pf ++ ":" ++ n ++ "#" ++ s) = (f, n, if multiple then s else own).
Proof.
  intros cwd multiple file own pf n s PL FN PN C H P meant. subst meant. unfold meant. split; [unfold resolve_target; rewrite parse_plain by assumption; destruct multiple; reflexivity|]. destruct P as (S & C' & H').
  split; [unfold resolve_target; rewrite parse_toolset by assumption; destruct s; [congruence|destruct multiple; reflexivity]|].
  destruct (C54_resolve_target cwd file pf n None (pf ++ ":" ++ n) own PL FN PN (parse_file pf n C H)) as (f & R & L & _). exists f. split; [exact L|]. split; [rewrite R; destruct multiple; reflexivity|].
  destruct (C54_resolve_target cwd file pf n (Some s) (spell pf n s) own PL FN PN (parse_full pf n s C (conj S (conj C' H')))) as (f' & R' & L' & _). fold (spell pf n s). rewrite R'.
  assert (E : f' = f). { clear - R R' S C H C' H'. unfold resolve_target in R, R'. rewrite (parse_file pf n C H) in R. rewrite (parse_full pf n s C (conj S (conj C' H'))) in R'. cbv zeta in R, R'. congruence. } subst f'.
  destruct s; [congruence|]. destruct multiple; reflexivity.
Qed.

Section All.
Variable realpath : string -> string. Variable multiple : bool. Variable data : build_data.
Variable targets : list (string * target item).
Hypothesis L : loaded data targets.
Local Notation links := (map (fun '(t, d) => (t, link_only d)) targets).
Lemma each_processed : forall t d, In (t, d) targets -> match process realpath multiple data links t d with
  | inl d' => ~ refused realpath multiple data targets t d /\
      forall key, section key -> lists d' key = match lists d key with None => None | Some _ => Some (firsts (filter (kept realpath multiple targets t d key) (stands_for realpath multiple data t d key))) end
  | inr _ => refused realpath multiple data targets t d
  end.
Proof.
  intros t d I. destruct L as [DP DT]. destruct (DT t d I) as (f & tis & ti & F & T & E1 & E2). assert (P := DP f tis ti F T). assert (Q := plain_not_wildcard f ti P). destruct P as (P1 & P2 & P3 & P4 & P5 & P6). rewrite spell_is, <- E1 in Q by exact P6.
  apply processed; [exact DP|rewrite E2; repeat split; assumption|exact Q|]. apply (in_map fst) in I. exact I.
Qed.
Definition outcome (x : string * target item) (y : string * target string) : Prop := fst y = fst x /\
  forall key, section key -> lists (snd y) key = match lists (snd x) key with None => None | Some _ => Some (firsts (filter (kept realpath multiple targets (fst x) (snd x) key) (stands_for realpath multiple data (fst x) (snd x) key))) end.
Lemma outcome_all : forall r, resolve realpath multiple data targets = inl r -> Forall2 outcome targets r /\ forall t d, In (t, d) targets -> ~ refused realpath multiple data targets t d.
Proof.
  intros r H. apply resolve_each in H. assert (X : forall ts, (forall t d, In (t, d) ts -> In (t, d) targets) -> Forall2 (done_by (process realpath multiple data links)) ts r -> Forall2 outcome ts r /\ forall t d, In (t, d) ts -> ~ refused realpath multiple data targets t d).
  { clear H. induction r as [|y r IH]; intros ts S F; inversion F as [|x ? ts' ? [D1 D2] F']; subst; [split; [constructor|intros t d []]|]. destruct (IH ts' (fun t d I => S t d (or_intror I)) F') as [A B]. destruct x as [t d]. cbn [fst snd] in *. assert (P := each_processed t d (S t d (or_introl eq_refl))). rewrite D2 in P. destruct P as [P1 P2].
    split; [constructor; [split; [symmetry; exact D1|exact P2]|exact A]|]. intros t' d' [E|I]; [injection E as <- <-; exact P1|exact (B t' d' I)]. }
  exact (X targets (fun t d I => I) H).
Qed.
Lemma refused_any : (exists e, resolve realpath multiple data targets = inr e) <-> exists t d, In (t, d) targets /\ refused realpath multiple data targets t d.
Proof.
  rewrite resolve_bad. split; [intros (t & d & e & I & P)|intros (t & d & I & R)].
  - exists t, d. split; [exact I|]. assert (X := each_processed t d I). rewrite P in X. exact X.
  - assert (X := each_processed t d I). destruct (process realpath multiple data links t d) as [d'|e] eqn:P; [destruct (proj1 X R)|]. exists t, d, e. split; assumption.
Qed.
Lemma firsts_In : forall l x, In x (firsts l) <-> In x l.
Proof. intros l x. rewrite <- firsts_unify. apply unify_In. Qed.
Lemma firsts_NoDup : forall l, NoDup (firsts l).
Proof. intros l. rewrite <- firsts_unify. apply unify_from_NoDup. Qed.
Lemma kept_iff : forall t d key x, kept realpath multiple targets t d key x = true <-> (prune_self d = true -> x <> t) /\ (kind d = Some "none" -> forall e, assoc x targets = Some e -> link_only e = false) /\ ~ In x (excluded realpath multiple t d key).
Proof.
  intros t d key x. unfold kept. rewrite !andb_true_iff, !negb_true_iff. split.
  - intros [[A B] C]. split; [intros P; rewrite P in A; apply String.eqb_neq in A; exact A|]. split; [|intros I; apply mem_In in I; congruence].
    intros K e E. unfold is_none in B. rewrite K, E in B. exact B.
  - intros (A & B & C). split; [split|].
    + destruct (prune_self d); [|reflexivity]. apply String.eqb_neq. apply A. reflexivity.
    + unfold is_none. destruct (kind d) as [k|]; [|reflexivity]. destruct (String.eqb_spec k "none") as [->|]; [|reflexivity]. destruct (assoc x targets) as [e|]; [|reflexivity]. exact (B eq_refl e eq_refl).
    + destruct (mem x (excluded realpath multiple t d key)) eqn:M; [|reflexivity]. apply mem_In in M. destruct (C M).
Qed.
Lemma kept_all : forall r t d', resolve realpath multiple data targets = inl r -> In (t, d') r -> exists d, In (t, d) targets /\ forall key, section key ->
  (lists d' key = None <-> lists d key = None) /\ forall l, lists d' key = Some l -> NoDup l /\
  forall x, In x l <-> In x (stands_for realpath multiple data t d key) /\ (prune_self d = true -> x <> t) /\ (kind d = Some "none" -> forall e, assoc x targets = Some e -> link_only e = false) /\ ~ In x (excluded realpath multiple t d key).
Proof.
  intros r t d' R I. destruct (outcome_all r R) as [F _]. assert (X : exists d, In (t, d) targets /\ outcome (t, d) (t, d')).
  { assert (X : forall ts, Forall2 outcome ts r -> exists d, In (t, d) ts /\ outcome (t, d) (t, d')); [|exact (X targets F)]. clear R F. induction r as [|[t2 d2] b IH]; intros ts F; [destruct I|]. inversion F as [|[t1 d1] ? a ? O F']; subst. destruct I as [E|I].
    - injection E as -> ->. exists d1. assert (E := proj1 O). cbn [fst] in E. subst t1. split; [left; reflexivity|exact O].
    - destruct (IH I a F') as (d & X & Y). exists d. split; [right; exact X|exact Y]. }
  destruct X as (d & J & O). exists d. split; [exact J|]. intros key K. destruct O as [_ O]. specialize (O key K). cbn [fst snd] in O. split; [destruct (lists d key); rewrite O; split; congruence|]. intros l E. destruct (lists d key) as [l0|]; [|congruence]. rewrite E in O. injection O as ->. split; [apply firsts_NoDup|].
  intros x. rewrite firsts_In, filter_In, kept_iff. reflexivity.
Qed.
Lemma exported : forall r t d', resolve realpath multiple data targets = inl r -> In (t, d') r -> (forall d l, In (t, d) targets -> lists d "dependencies!" = Some l -> l = []) ->
  forall l x, lists d' "export_dependent_settings" = Some l -> In x l -> exists l', lists d' "dependencies" = Some l' /\ In x l'.
Proof.
  intros r t d' R I NE l x E X. destruct (outcome_all r R) as [_ NR]. destruct (kept_all r t d' R I) as (d & J & K). specialize (NE d). destruct (K "export_dependent_settings" (or_intror eq_refl)) as [KN KE]. destruct (KE l E) as [_ M]. apply M in X. destruct X as (S & P1 & P2 & _).
  destruct (K "dependencies" (or_introl eq_refl)) as [DN DE]. assert (Y : exists l0 w0, lists d "dependencies" = Some l0 /\ In (Word w0) l0 /\ In x (targets_meant data (meant realpath multiple (build_file t) (toolset d) w0))).
  { unfold stands_for in S. apply in_flat_map in S. destruct S as (w & W & S). destruct (lists d "export_dependent_settings") as [le|] eqn:LE; [|destruct W]. apply texts_in in W. destruct (lists d "dependencies") as [l0|] eqn:L0.
    - destruct (existsb (fun i => match i with Word w' => let '(a, b, c) := meant realpath multiple (build_file t) (toolset d) w' in let '(a', b', c') := meant realpath multiple (build_file t) (toolset d) w in String.eqb a a' && String.eqb b b' && String.eqb c c' | Other => false end) l0) eqn:EX.
      + apply existsb_exists in EX. destruct EX as ([w'|] & W' & EQ); [|discriminate EQ]. exists l0, w'. split; [reflexivity|]. split; [exact W'|]. destruct (meant realpath multiple (build_file t) (toolset d) w') as [[a b] c], (meant realpath multiple (build_file t) (toolset d) w) as [[a' b'] c']. apply andb_true_iff in EQ. destruct EQ as [EQ E3]. apply andb_true_iff in EQ. destruct EQ as [E1 E2]. apply String.eqb_eq in E1, E2, E3. subst. exact S.
      + exfalso. apply (NR t d J). apply (not_dependency _ _ _ _ _ _ "export_dependent_settings" "" le w (or_intror eq_refl) (or_introl eq_refl) LE W). intros l' w' L' W' M'. rewrite L0 in L'. injection L' as <-. rewrite <- not_true_iff_false in EX. apply EX. apply existsb_exists. exists (Word w'). split; [exact W'|]. rewrite M'. destruct (meant realpath multiple (build_file t) (toolset d) w) as [[a b] c]. rewrite !String.eqb_refl. reflexivity.
    - exfalso. apply (NR t d J). apply (not_dependency _ _ _ _ _ _ "export_dependent_settings" "" le w (or_intror eq_refl) (or_introl eq_refl) LE W). intros l' w' L'. congruence. }
  destruct Y as (l0 & w0 & L0 & W0 & X0). destruct (lists d' "dependencies") as [l'|] eqn:L'; [|apply proj1 in DN; rewrite (DN eq_refl) in L0; discriminate L0]. exists l'. split; [reflexivity|]. apply (proj2 (DE l' eq_refl)). split.
  - unfold stands_for. rewrite L0. apply in_flat_map. exists w0. split; [apply texts_in; exact W0|exact X0].
  - split; [exact P1|]. split; [exact P2|]. unfold excluded. change ("dependencies" ++ "!") with "dependencies!". destruct (lists d "dependencies!") as [lx|] eqn:LX; [rewrite (NE lx J eq_refl)|]; intros [].
Qed.
End All.
