From Verif Require Import Lib LibFacts Str StrFacts Model_Graph Model_Names Model_Path Model_TargetDeps Spec_Names Spec_TargetDeps.
From Verif Require Import Proof_Graph Proof_Names.
From Coq Require Import Lia.
Local Open Scope string_scope.

(** ** One target at a time *)
Section Each.
Variable realpath : string -> string. Variable multiple : bool. Variable data : build_data.
Definition process (links : list (string * bool)) (t : string) (d : target item) : target string + problem :=
  andthen (qualify_dependencies realpath multiple t d) (fun a => andthen (remove_self t a) (fun b => andthen (expand data t b) (fun c =>
  andthen (remove_links links c) (fun d => andthen (filter_lists d) remove_duplicates)))).
Definition done_by {A B} (f : string -> target A -> target B + problem) (x : string * target A) (y : string * target B) : Prop := fst x = fst y /\ f (fst x) (snd x) = inl (snd y).
Lemma each_ok : forall A B (f : string -> target A -> target B + problem) ts r, each f ts = inl r <-> Forall2 (done_by f) ts r.
Proof.
  intros A B f. induction ts as [|[t d] ts IH]; intros r; cbn [each].
  - split; intros H; [injection H as <-; constructor|inversion H; reflexivity].
  - split.
    + destruct (f t d) as [d'|e] eqn:E; [|discriminate]. destruct (each f ts) as [r'|e'] eqn:R; [|discriminate]. intros H. injection H as <-. constructor; [split; [reflexivity|exact E]|]. apply IH. reflexivity.
    + intros H. inversion H as [|x y l l' [D1 D2] F]; subst. cbn [fst snd] in D1, D2. destruct y as [t' d']. cbn [fst snd] in *. subst t'. rewrite D2. apply IH in F. rewrite F. reflexivity.
Qed.
Lemma each_then : forall A B C (f : string -> target A -> target B + problem) (g : string -> target B -> target C + problem) ts r,
  andthen (each f ts) (each g) = inl r <-> each (fun t d => andthen (f t d) (g t)) ts = inl r.
Proof.
  intros A B C f g ts r. rewrite each_ok. unfold andthen at 1. split.
  - destruct (each f ts) as [m|e] eqn:E; [|discriminate]. intros H. apply each_ok in E, H. revert r H. induction E as [|x y l l' [D1 D2] F IH]; intros r H; inversion H; subst; [constructor|]. constructor; [|apply IH; assumption].
    destruct H2 as [G1 G2]. split; [congruence|]. rewrite D2. cbn [andthen]. rewrite D1. exact G2.
  - intros H. assert (X : exists m, Forall2 (done_by f) ts m /\ Forall2 (done_by g) m r).
    { induction H as [|x y l l' [D1 D2] F (m & M1 & M2)]; [exists []; split; constructor|]. destruct (f (fst x) (snd x)) as [b|e] eqn:E; [|discriminate D2]. cbn [andthen] in D2. exists ((fst x, b) :: m). split; constructor; try assumption; split; cbn [fst snd]; [reflexivity|exact E|exact D1|exact D2]. }
    destruct X as (m & M1 & M2). apply each_ok in M1, M2. rewrite M1. exact M2.
Qed.
Lemma each_ext : forall A B (f g : string -> target A -> target B + problem) ts, (forall t d, f t d = g t d) -> each f ts = each g ts.
Proof. intros A B f g ts E. induction ts as [|[t d] ts IH]; [reflexivity|]. cbn [each]. rewrite E, IH. reflexivity. Qed.
Lemma andthen_assoc : forall A B C (x : A + problem) (f : A -> B + problem) (g : B -> C + problem), andthen (andthen x f) g = andthen x (fun a => andthen (f a) g).
Proof. intros A B C [a|e] f g; reflexivity. Qed.
Lemma resolve_each : forall targets r, resolve realpath multiple data targets = inl r <-> Forall2 (done_by (process (map (fun '(t, d) => (t, link_only d)) targets))) targets r.
Proof.
  intros targets r. unfold resolve, process. set (links := map (fun '(t, d) => (t, link_only d)) targets). cbv zeta. rewrite <- each_ok.
  rewrite <- !andthen_assoc.
  rewrite <- (each_then _ _ _ (qualify_dependencies realpath multiple) (fun t a => andthen (remove_self t a) (fun b => andthen (expand data t b) (fun c => andthen (remove_links links c) (fun d => andthen (filter_lists d) remove_duplicates))))).
  destruct (each (qualify_dependencies realpath multiple) targets) as [a|e]; [|reflexivity]. cbn [andthen].
  rewrite <- (each_then _ _ _ remove_self (fun t b => andthen (expand data t b) (fun c => andthen (remove_links links c) (fun d => andthen (filter_lists d) remove_duplicates)))).
  destruct (each remove_self a) as [b|e]; [|reflexivity]. cbn [andthen].
  rewrite <- (each_then _ _ _ (expand data) (fun t c => andthen (remove_links links c) (fun d => andthen (filter_lists d) remove_duplicates))).
  destruct (each (expand data) b) as [c|e]; [|reflexivity]. cbn [andthen].
  rewrite <- (each_then _ _ _ (fun _ => remove_links links) (fun t d => andthen (filter_lists d) remove_duplicates)).
  destruct (each (fun _ => remove_links links) c) as [d|e]; [|reflexivity]. cbn [andthen].
  rewrite <- (each_then _ _ _ (fun _ => filter_lists) (fun t => remove_duplicates)). reflexivity.
Qed.
Lemma each_bad : forall A B (f : string -> target A -> target B + problem) ts e, each f ts = inr e -> exists t d, In (t, d) ts /\ f t d = inr e.
Proof.
  intros A B f. induction ts as [|[t d] ts IH]; intros e H; cbn [each] in H; [discriminate H|]. destruct (f t d) as [d'|e'] eqn:E.
  - destruct (each f ts) as [r|e'']; [discriminate H|]. destruct (IH e H) as (t' & d'' & I & E'). exists t', d''. split; [right; exact I|exact E'].
  - injection H as ->. exists t, d. split; [left; reflexivity|exact E].
Qed.
Lemma resolve_bad : forall targets, (exists e, resolve realpath multiple data targets = inr e) <-> exists t d e, In (t, d) targets /\ process (map (fun '(t, d) => (t, link_only d)) targets) t d = inr e.
Proof.
  intros targets. set (links := map (fun '(t, d) => (t, link_only d)) targets). split.
  - intros [e H]. destruct (each (process links) targets) as [r|e'] eqn:E.
    + apply each_ok in E. apply resolve_each in E. congruence.
    + destruct (each_bad _ _ _ _ _ E) as (t & d & I & P). exists t, d, e'. split; assumption.
  - intros (t & d & e & I & P). destruct (resolve realpath multiple data targets) as [r|e'] eqn:R; [|exists e'; reflexivity]. exfalso. apply resolve_each in R. fold links in R. clear - I P R. set (pr := process links) in *. clearbody pr.
    induction R as [|x y l l' [D1 D2] F IH]; [destruct I|]. destruct I as [->|I]; [cbn [fst snd] in D2; congruence|exact (IH I)].
Qed.
End Each.

(** ** Lists *)
Lemma firsts_unify : forall l, unify l = firsts l.
Proof.
  intros l. unfold unify, firsts. enough (G : forall l acc seen, (forall x, mem x acc = mem x seen) -> (acc ++ unify_from seen l)%list = fold_left (fun seen x => if mem x seen then seen else (seen ++ [x])%list) l acc) by exact (G l [] [] (fun _ => eq_refl)).
  clear l. induction l as [|a l IH]; intros acc seen E; cbn [unify_from fold_left]; [apply app_nil_r|]. rewrite (E a). destruct (mem a seen) eqn:M; [apply IH; exact E|].
  rewrite <- (IH (acc ++ [a])%list (a :: seen)); [rewrite <- app_assoc; reflexivity|]. intros x. specialize (E x). destruct (mem x (acc ++ [a])%list) eqn:X; symmetry.
  - apply mem_In in X. apply in_app_or in X. apply mem_In. destruct X as [X|[->|[]]]; [right; apply mem_In; rewrite <- E; apply mem_In; exact X|left; reflexivity].
  - destruct (mem x (a :: seen)) eqn:Y; [|reflexivity]. apply mem_In in Y. exfalso. assert (Z : In x (acc ++ [a])%list) by (apply in_or_app; destruct Y as [->|Y]; [right; left; reflexivity|left; apply mem_In; rewrite E; apply mem_In; exact Y]). apply mem_In in Z. congruence.
Qed.
Lemma self_loop : forall t all todo now, remove_self_loop t true all todo now = if mem t todo then filter_out all t else now.
Proof.
  intros t all. induction todo as [|d todo IH]; intros now; [reflexivity|]. cbn [remove_self_loop]. rewrite IH. rewrite andb_true_r. change (mem t (d :: todo)) with (String.eqb t d || mem t todo). rewrite (String.eqb_sym t d).
  destruct (String.eqb d t); cbn [orb]; [destruct (mem t todo); reflexivity|reflexivity].
Qed.
Lemma self_loop_off : forall t all todo now, remove_self_loop t false all todo now = now.
Proof. intros t all. induction todo as [|d todo IH]; intros now; [reflexivity|]. cbn [remove_self_loop]. rewrite andb_false_r. apply IH. Qed.
Lemma filter_out_absent : forall t l, ~ In t l -> filter_out l t = l.
Proof. intros t. induction l as [|a l IH]; intros I; [reflexivity|]. cbn [filter_out filter]. destruct (String.eqb_spec a t) as [->|D]; [exfalso; apply I; left; reflexivity|]. cbn [negb]. f_equal. apply IH. intros J. apply I. right. exact J. Qed.
Lemma self_is : forall t prune l, remove_self_loop t prune l l l = filter (fun d => negb (prune && String.eqb d t)) l.
Proof.
  intros t [|] l; cbn [andb].
  - rewrite self_loop. destruct (mem t l) eqn:M; [reflexivity|]. symmetry. apply filter_out_absent. intros I. apply mem_In in I. congruence.
  - rewrite self_loop_off. induction l as [|a l IH]; [reflexivity|]. cbn. f_equal. exact IH.
Qed.
Lemma links_loop : forall all todo now r, remove_links_loop all todo now = inl r ->
  (forall d, In d todo -> In d (map fst all)) /\ r = filter (fun d => negb (mem d todo && match assoc d all with Some b => b | None => false end)) now.
Proof.
  intros all. induction todo as [|d todo IH]; intros now r H; cbn [remove_links_loop] in H.
  - injection H as <-. split; [intros d []|]. induction now as [|a now IH]; [reflexivity|]. cbn. f_equal. exact IH.
  - destruct (assoc d all) as [b|] eqn:A; [|discriminate H]. destruct (IH _ _ H) as [I ->]. split.
    + intros x [<-|X]; [apply assoc_In in A; apply (in_map fst) in A; exact A|exact (I x X)].
    + assert (M : forall x, mem x (d :: todo) = String.eqb x d || mem x todo) by reflexivity. destruct b.
      * clear - A M. induction now as [|a now IH]; [reflexivity|]. cbn [filter_out filter]. rewrite M. destruct (String.eqb_spec a d) as [->|D]; cbn [negb orb andb].
        -- rewrite A. cbn [negb]. exact IH.
        -- cbn [filter]. destruct (negb (mem a todo && match assoc a all with Some b => b | None => false end)); [f_equal|]; exact IH.
      * apply filter_ext. intros x. rewrite M. destruct (String.eqb_spec x d) as [->|D]; [|reflexivity]. rewrite A. rewrite !andb_false_r. reflexivity.
Qed.
Lemma links_bad : forall all todo now e, remove_links_loop all todo now = inr e -> exists d, In d todo /\ ~ In d (map fst all).
Proof.
  intros all. induction todo as [|d todo IH]; intros now e H; cbn [remove_links_loop] in H; [discriminate H|]. destruct (assoc d all) as [b|] eqn:A.
  - destruct (IH _ _ H) as (x & X & N). exists x. split; [right; exact X|exact N].
  - exists d. split; [left; reflexivity|]. intros I. destruct (assoc_Some_key _ _ _ I) as [b B]. congruence.
Qed.

(** ** The sections *)
Lemma section_keys : forall key, section key <-> In key dependency_sections.
Proof. intros key. unfold section. cbn. split; [intros [->| ->]; tauto|intros [<-|[<-|[]]]; tauto]. Qed.
Lemma set_same : forall A k (l : list A) ls, set k l ls k = Some l.
Proof. intros. unfold set. rewrite String.eqb_refl. reflexivity. Qed.
Lemma set_other : forall A k k' (l : list A) ls, k' <> k -> set k l ls k' = ls k'.
Proof. intros A k k' l ls D. unfold set. apply String.eqb_neq in D. rewrite D. reflexivity. Qed.
Lemma in_sections_ok : forall f keys ls r, NoDup keys -> in_sections f keys ls = inl r ->
  (forall k, In k keys -> match ls k with None => r k = None | Some l => exists x, f l = inl x /\ r k = Some x end) /\ (forall k, ~ In k keys -> r k = ls k).
Proof.
  intros f. induction keys as [|k keys IH]; intros ls r D H; cbn [in_sections] in H; [injection H as <-; split; [intros k []|reflexivity]|]. inversion D as [|? ? D1 D2]; subst. destruct (ls k) as [l|] eqn:L.
  - destruct (f l) as [x|e] eqn:F; [|discriminate H]. destruct (IH _ _ D2 H) as [A B]. split.
    + intros k' [<-|K]; [rewrite L; exists x; split; [exact F|rewrite (B k D1); apply set_same]|]. specialize (A k' K). rewrite set_other in A by (intros ->; contradiction). exact A.
    + intros k' K. rewrite B by (intros X; apply K; right; exact X). apply set_other. intros ->. apply K. left. reflexivity.
  - destruct (IH _ _ D2 H) as [A B]. split; [intros k' [<-|K]; [rewrite L, (B k D1); exact L|exact (A k' K)]|]. intros k' K. apply B. intros X. apply K. right. exact X.
Qed.
Lemma in_sections_bad : forall f keys ls e, NoDup keys -> in_sections f keys ls = inr e -> exists k l, In k keys /\ ls k = Some l /\ f l = inr e.
Proof.
  intros f. induction keys as [|k keys IH]; intros ls e D H; cbn [in_sections] in H; [discriminate H|]. inversion D as [|? ? D1 D2]; subst. destruct (ls k) as [l|] eqn:L.
  - destruct (f l) as [x|e'] eqn:F; [|injection H as ->; exists k, l; split; [left; reflexivity|split; assumption]]. destruct (IH _ _ D2 H) as (k' & l' & K & E & F'). exists k', l'. split; [right; exact K|]. rewrite set_other in E by (intros ->; contradiction). split; assumption.
  - destruct (IH _ _ D2 H) as (k' & l' & K & E & F'). exists k', l'. split; [right; exact K|split; assumption].
Qed.
Lemma sections_nodup : NoDup dependency_sections.
Proof. repeat constructor; cbn; intuition discriminate. Qed.
Lemma with_ok : forall f d d', with_sections f d = inl d' -> d' = put d (lists d') /\
  (forall k, section k -> match lists d k with None => lists d' k = None | Some l => exists x, f l = inl x /\ lists d' k = Some x end) /\ (forall k, ~ section k -> lists d' k = lists d k).
Proof.
  intros f d d' H. unfold with_sections in H. destruct (in_sections f dependency_sections (lists d)) as [ls|e] eqn:E; [|discriminate H]. injection H as <-. destruct (in_sections_ok _ _ _ _ sections_nodup E) as [A B]. split; [reflexivity|]. split.
  - intros k K. apply A. apply section_keys. exact K.
  - intros k K. apply B. intros X. apply K. apply section_keys. exact X.
Qed.
Lemma with_bad : forall f d e, with_sections f d = inr e -> exists k l, section k /\ lists d k = Some l /\ f l = inr e.
Proof.
  intros f d e H. unfold with_sections in H. destruct (in_sections f dependency_sections (lists d)) as [ls|e'] eqn:E; [discriminate H|]. injection H as ->. destruct (in_sections_bad _ _ _ _ sections_nodup E) as (k & l & K & X). exists k, l. split; [apply section_keys; exact K|exact X].
Qed.
Lemma filter_sections_ok : forall keys ls r, NoDup keys -> (forall k, In k keys -> ~ In (k ++ "!") keys /\ ~ In (k ++ "/") keys) -> filter_sections keys ls = inl r ->
  (forall k, In k keys -> match ls k with None => r k = None | Some l => (ls (k ++ "/") = None \/ ls (k ++ "/") = Some []) /\ r k = Some (filter (fun d => negb (mem d (match ls (k ++ "!") with Some x => x | None => [] end))) l) end) /\ (forall k, ~ In k keys -> r k = ls k).
Proof.
  induction keys as [|k keys IH]; intros ls r D Q H; cbn [filter_sections] in H; [injection H as <-; split; [intros k []|reflexivity]|]. inversion D as [|? ? D1 D2]; subst.
  assert (Q' : forall k0, In k0 keys -> ~ In (k0 ++ "!") keys /\ ~ In (k0 ++ "/") keys) by (intros k0 K0; destruct (Q k0 (or_intror K0)) as [Q1 Q2]; split; intros X; [apply Q1|apply Q2]; right; exact X). destruct (ls k) as [l|] eqn:L.
  - set (l' := filter (fun d => negb (mem d (match ls (k ++ "!") with Some x => x | None => [] end))) l) in *. assert (S : (ls (k ++ "/") = None \/ ls (k ++ "/") = Some []) /\ filter_sections keys (set k l' ls) = inl r) by (destruct (ls (k ++ "/")) as [[|a b]|]; [split; [right; reflexivity|exact H]|discriminate H|split; [left; reflexivity|exact H]]).
    clear H. destruct S as [S H]. destruct (IH _ _ D2 Q' H) as [A B]. split.
    + intros k' [<-|K]; [rewrite L; split; [exact S|rewrite (B k D1); apply set_same]|]. specialize (A k' K). rewrite !set_other in A; [exact A|..].
      * intros X. destruct (Q k' (or_intror K)) as [Q1 _]. apply Q1. rewrite X. left. reflexivity.
      * intros X. destruct (Q k' (or_intror K)) as [_ Q2]. apply Q2. rewrite X. left. reflexivity.
      * intros ->. contradiction.
    + intros k' K. rewrite B by (intros X; apply K; right; exact X). apply set_other. intros ->. apply K. left. reflexivity.
  - destruct (IH _ _ D2 Q' H) as [A B]. split; [intros k' [<-|K]; [rewrite L, (B k D1); exact L|exact (A k' K)]|]. intros k' K. apply B. intros X. apply K. right. exact X.
Qed.
Lemma filter_sections_bad : forall keys ls e, NoDup keys -> (forall k, In k keys -> ~ In (k ++ "!") keys /\ ~ In (k ++ "/") keys) -> filter_sections keys ls = inr e -> exists k l x l', In k keys /\ ls k = Some l /\ ls (k ++ "/") = Some (x :: l').
Proof.
  induction keys as [|k keys IH]; intros ls e D Q H; cbn [filter_sections] in H; [discriminate H|]. inversion D as [|? ? D1 D2]; subst.
  assert (Q' : forall k0, In k0 keys -> ~ In (k0 ++ "!") keys /\ ~ In (k0 ++ "/") keys) by (intros k0 K0; destruct (Q k0 (or_intror K0)) as [Q1 Q2]; split; intros X; [apply Q1|apply Q2]; right; exact X). destruct (ls k) as [l|] eqn:L.
  - destruct (ls (k ++ "/")) as [[|a b]|] eqn:R.
    + destruct (IH _ _ D2 Q' H) as (k' & l' & x & l'' & K & E1 & E2). exists k', l', x, l''. split; [right; exact K|]. rewrite set_other in E1 by (intros ->; contradiction). rewrite set_other in E2; [split; assumption|]. intros X. destruct (Q k' (or_intror K)) as [_ Q2]. apply Q2. rewrite X. left. reflexivity.
    + exists k, l, a, b. split; [left; reflexivity|split; assumption].
    + destruct (IH _ _ D2 Q' H) as (k' & l' & x & l'' & K & E1 & E2). exists k', l', x, l''. split; [right; exact K|]. rewrite set_other in E1 by (intros ->; contradiction). rewrite set_other in E2; [split; assumption|]. intros X. destruct (Q k' (or_intror K)) as [_ Q2]. apply Q2. rewrite X. left. reflexivity.
  - destruct (IH _ _ D2 Q' H) as (k' & l' & x & l'' & K & E1 & E2). exists k', l', x, l''. split; [right; exact K|split; assumption].
Qed.
Lemma sections_apart : forall k, In k dependency_sections -> ~ In (k ++ "!") dependency_sections /\ ~ In (k ++ "/") dependency_sections.
Proof. intros k [<-|[<-|[]]]; cbn; intuition discriminate. Qed.
