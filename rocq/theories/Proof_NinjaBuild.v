(** Proofs about the build statements for ninja: what comes before what. *)
From Coq Require Import Relations Operators_Properties.
From Verif Require Import Lib Str LibFacts Model_Names Model_Path Model_Graph Model_Writer Model_NinjaBuild Spec_NinjaBuild.
Local Open Scope string_scope.

Lemma traverse_in {A B} (f : A -> option B) : forall l r, traverse f l = Some r -> forall x, In x l -> exists y, f x = Some y /\ In y r.
Proof.
  induction l as [|a l IH]; cbn; intros r H x I; [contradiction|]. destruct (f a) as [b|] eqn:E; cbn in H; [|discriminate].
  destruct (traverse f l) as [r'|]; cbn in H; [|discriminate]. injection H as <-. destruct I as [<-|I]; [exists b; split; [exact E|left; reflexivity]|].
  destruct (IH _ eq_refl x I) as (y & F & J). exists y. split; [exact F|right; exact J].
Qed.
Lemma traverse_out {A B} (f : A -> option B) : forall l r, traverse f l = Some r -> forall y, In y r -> exists x, In x l /\ f x = Some y.
Proof.
  induction l as [|a l IH]; cbn; intros r H y I; [injection H as <-; contradiction|]. destruct (f a) as [b|] eqn:E; cbn in H; [|discriminate].
  destruct (traverse f l) as [r'|]; cbn in H; [|discriminate]. injection H as <-. destruct I as [<-|I]; [exists a; split; [left; reflexivity|exact E]|].
  destruct (IH _ eq_refl y I) as (x & J & F). exists x. split; [right; exact J|exact F].
Qed.
Lemma traverse_length {A B} (f : A -> option B) : forall l r, traverse f l = Some r -> length r = length l.
Proof.
  induction l as [|a l IH]; cbn; intros r H; [injection H as <-; reflexivity|]. destruct (f a) as [b|]; cbn in H; [|discriminate].
  destruct (traverse f l) as [r'|]; cbn in H; [|discriminate]. injection H as <-. cbn. f_equal. apply IH. reflexivity.
Qed.
Lemma filled_in : forall o x, In x (filled o) <-> o = Some x /\ x <> "".
Proof.
  intros [[|a x0]|] x; cbn; split; try (intros [H H']; congruence); try (intros []; fail).
  - intros [<-|[]]. split; [reflexivity|discriminate].
  - intros [H _]. left. congruence.
Qed.
Lemma as_list_in : forall o x, In x (as_list o) <-> o = Some x.
Proof. intros [y|] x; cbn; split; try discriminate; try (intros []; fail). - intros [<-|[]]; reflexivity. - intros H. left. congruence. Qed.
Lemma or_some : forall a b x, a = Some x -> x <> "" -> or_ a b = Some x.
Proof. intros a b [|c x] -> N; [contradiction|reflexivity]. Qed.
Lemma or_none : forall a b, a = None -> or_ a b = b.
Proof. intros a b ->. reflexivity. Qed.

Lemma flat_unique {A} (f : A -> list string) : forall l p x y, NoDup (flat_map f l) -> In x l -> In y l -> In p (f x) -> In p (f y) -> x = y.
Proof.
  induction l as [|a l IH]; cbn; intros p x y ND I J P Q; [contradiction|]. apply NoDup_app_inv in ND. destruct ND as (N1 & N2 & N3).
  destruct I as [<-|I], J as [<-|J]; [reflexivity| | |exact (IH p x y N2 I J P Q)].
  - exfalso. apply (N3 p P). apply in_flat_map. exists y. split; assumption.
  - exfalso. apply (N3 p Q). apply in_flat_map. exists x. split; assumption.
Qed.

Section Order.
Variable es : list edge.
Hypothesis OK : accepted es.

Definition step (e' e : edge) : Prop := In e' es /\ In e es /\ exists p, In p (outs e') /\ In p (reads e).
Definition lt (p q : string) : Prop := exists e' e, In e' es /\ In e es /\ In p (outs e') /\ In q (outs e) /\ clos_trans edge step e' e.
Definition le (p q : string) : Prop := exists e' e, In e' es /\ In e es /\ In p (outs e') /\ In q (outs e) /\ clos_refl_trans edge step e' e.

Lemma one_edge : forall p e e', In e es -> In e' es -> In p (outs e) -> In p (outs e') -> e = e'.
Proof. intros p e e' I I' P P'. destruct OK as (_ & _ & ND). exact (flat_unique outs es p e e' ND I I' P P'). Qed.
Lemma made_full : forall p, made es p -> p <> "".
Proof. intros p (e & I & P) ->. destruct OK as (_ & N & _). apply N. apply in_flat_map. exists e. split; assumption. Qed.
Lemma le_refl : forall p, made es p -> le p p.
Proof. intros p (e & I & P). exists e, e. repeat (split; [assumption|]). apply rt_refl. Qed.
Lemma le_same : forall e p q, In e es -> In p (outs e) -> In q (outs e) -> le p q.
Proof. intros e p q I P Q. exists e, e. repeat (split; [assumption|]). apply rt_refl. Qed.
Lemma lt_le : forall p q, lt p q -> le p q.
Proof.
  intros p q (e' & e & I & J & P & Q & C). exists e', e. repeat (split; [assumption|]). clear - C. induction C; [apply rt_step; assumption|eapply rt_trans; eassumption].
Qed.
Lemma le_trans : forall p m q, le p m -> le m q -> le p q.
Proof.
  intros p m q (a & b & I & J & P & Q & C) (b' & c & J' & K & P' & Q' & C'). pose proof (one_edge m b b' J J' Q P') as <-. exists a, c. repeat (split; [assumption|]). eapply rt_trans; eassumption.
Qed.
Lemma mixed : forall a b c, clos_refl_trans edge step a b -> clos_trans edge step b c -> clos_trans edge step a c.
Proof. intros a b c R. revert c. induction R as [x y S|x|x y z R1 IH1 R2 IH2]; intros c C; [eapply t_trans; [apply t_step; exact S|exact C]|exact C|apply IH1, IH2, C]. Qed.
Lemma mixed' : forall a b c, clos_trans edge step a b -> clos_refl_trans edge step b c -> clos_trans edge step a c.
Proof. intros a b c C R. revert a C. induction R as [x y S|x|x y z R1 IH1 R2 IH2]; intros a C; [eapply t_trans; [exact C|apply t_step; exact S]|exact C|apply IH2, IH1, C]. Qed.
Lemma le_lt : forall p m q, le p m -> lt m q -> lt p q.
Proof.
  intros p m q (a & b & I & J & P & Q & C) (b' & c & J' & K & P' & Q' & C'). pose proof (one_edge m b b' J J' Q P') as <-. exists a, c. repeat (split; [assumption|]). exact (mixed _ _ _ C C').
Qed.
Lemma lt_le' : forall p m q, lt p m -> le m q -> lt p q.
Proof.
  intros p m q (a & b & I & J & P & Q & C) (b' & c & J' & K & P' & Q' & C'). pose proof (one_edge m b b' J J' Q P') as <-. exists a, c. repeat (split; [assumption|]). exact (mixed' _ _ _ C C').
Qed.
Lemma lt_read : forall e p q, In e es -> In p (reads e) -> In q (outs e) -> made es p -> lt p q.
Proof. intros e p q I R Q (e' & I' & P). exists e', e. repeat (split; [assumption|]). apply t_step. split; [exact I'|split; [exact I|exists p; split; assumption]]. Qed.
Lemma made_l : forall p q, le p q -> made es p.
Proof. intros p q (e' & e & I & _ & P & _). exists e'. split; assumption. Qed.
Lemma made_r : forall p q, le p q -> made es q.
Proof. intros p q (e' & e & _ & I & _ & P & _). exists e. split; assumption. Qed.

(** What ninja makes of it. *)
Lemma lt_first : forall run p q, allowed es run -> lt p q -> first es run p q.
Proof.
  intros run p q (R1 & R2) (e' & e & I' & I & P & Q & C). split; [exists e'; split; assumption|]. split; [exists e; split; assumption|].
  intros f' f done later J' J P' Q' E. pose proof (one_edge p e' f' I' J' P P') as <-. pose proof (one_edge q e f I J Q Q') as <-. clear P Q P' Q' J' J p q I I'.
  apply clos_trans_tn1_iff in C. revert done later E. induction C as [e (I' & _ & p & P & R)|e1 e (I1 & I & p & P & R) C IH]; intros done later E.
  - exact (R1 done e later E p e' R I' P).
  - pose proof (R1 done e later E p e1 R I1 P) as F1. apply in_split in F1. destruct F1 as (d1 & d2 & ->).
    assert (E2 : run = (d1 ++ Finish e1 :: (d2 ++ Begin e :: later))%list) by (rewrite E, <- app_assoc; reflexivity).
    pose proof (R2 d1 e1 _ E2) as B1. apply in_split in B1. destruct B1 as (c1 & c2 & ->).
    assert (E3 : run = (c1 ++ Begin e1 :: (c2 ++ Finish e1 :: (d2 ++ Begin e :: later)))%list) by (rewrite E2, <- app_assoc; reflexivity).
    pose proof (IH c1 _ E3) as F. apply in_or_app. left. apply in_or_app. left. exact F.
Qed.
Lemma le_asked : forall x q, le x q -> sees_to es q x.
Proof.
  intros x q (e' & e & I' & I & P & Q & C). exists e'. split; [|exact P]. apply clos_rt_rt1n_iff in C. clear P. revert I Q. induction C as [e'|e' m e (J & K & p & P & R) C IH]; intros I Q.
  - apply asked_itself; assumption.
  - exact (asked_for es q m p e' (IH K I Q) R J P).
Qed.

(** ** parts of a target *)
Section Parts.
Variables (s : setup) (t : target).

Lemma collapse_parts : forall name l o r st, collapse s t name l o = Some (r, st) -> incl r es -> (forall x, o = Some x -> made es x) ->
  match st with
  | None => l = []
  | Some p => l <> [] /\ (made es p \/ In p l) /\ (forall x, In x l -> made es x -> le x p) /\ (forall x, o = Some x -> lt x p)
  end.
Proof.
  intros name l o r st H In_ O. unfold collapse in H. destruct (forallb not_empty l); [|discriminate].
  assert (G : forall l', l = l' -> (l' <> []) -> bind (unique s t (name ++ ".stamp") true) (fun st0 => Some ([statement [st0] "stamp" l' [] (as_list o)], Some st0)) = Some (r, st) ->
    match st with None => l = [] | Some p => l <> [] /\ (made es p \/ In p l) /\ (forall x, In x l -> made es x -> le x p) /\ (forall x, o = Some x -> lt x p) end).
  { intros l' <- NE B. destruct (unique s t (name ++ ".stamp") true) as [p|]; cbn in B; [|discriminate]. injection B as <- <-.
    assert (I : In (statement [p] "stamp" l [] (as_list o)) es) by (apply In_; left; reflexivity).
    split; [exact NE|]. split; [left; exists (statement [p] "stamp" l [] (as_list o)); split; [exact I|left; reflexivity]|]. split.
    - intros x X M. apply lt_le. apply (lt_read _ x p I); [cbn; apply in_or_app; left; exact X|left; reflexivity|exact M].
    - intros x X. apply (lt_read _ x p I); [unfold reads; cbn; apply in_or_app; right; apply as_list_in; exact X|left; reflexivity|exact (O x X)]. }
  destruct l as [|x [|y l]]; destruct o as [o|]; try discriminate.
  - injection H as <- <-. reflexivity.
  - apply (G [x] eq_refl); [discriminate|exact H].
  - injection H as <- <-. split; [discriminate|]. split; [right; left; reflexivity|]. split; [intros z [<-|[]] M; apply le_refl, M|discriminate].
  - apply (G (x :: y :: l) eq_refl); [discriminate|exact H].
  - apply (G (x :: y :: l) eq_refl); [discriminate|exact H].
Qed.
Lemma collapse_spec : forall name l r st, collapse s t name l None = Some (r, st) -> incl r es -> (forall x, In x l -> made es x) ->
  match st with None => l = [] | Some p => l <> [] /\ made es p /\ (forall x, In x l -> le x p) end.
Proof.
  intros name l r st H In_ M. pose proof (collapse_parts name l None r st H In_ ltac:(discriminate)) as P. destruct st as [p|]; [|exact P].
  destruct P as (NE & [MP|IP] & L & _); (split; [exact NE|]); (split; [|intros x X; exact (L x X (M x X))]); [exact MP|exact (M p IP)].
Qed.

(** Statements that have the target wait. *)
Definition good (pb : option string) (e : edge) : Prop := In e es /\ forall a, pb = Some a -> forall p, In p (outs e) -> lt a p.
Lemma full_edge : forall e, In e es -> exists p, In p (outs e).
Proof. intros e I. destruct OK as (N & _). specialize (N e I). destruct (outs e) as [|p l]; [contradiction|exists p; left; reflexivity]. Qed.
Lemma good_order : forall pb e, (forall x, pb = Some x -> made es x) -> In e es -> order_only e = as_list pb -> good pb e.
Proof.
  intros pb e M I O. split; [exact I|]. intros a A p P. apply (lt_read e a p I); [unfold reads; rewrite O, A; apply in_or_app; right; apply in_or_app; right; left; reflexivity|exact P|exact (M a A)].
Qed.

Lemma write_rules_spec : forall rs pb r os, write_rules s t pb rs = Some (r, os) -> incl r es -> (forall x, pb = Some x -> made es x) ->
  (forall x, In x os -> made es x) /\
  (forall ru p, In ru rs -> from_rule s t ru p -> In p os) /\
  (forall a, pb = Some a -> os <> [] -> exists p, In p os /\ lt a p) /\
  (forall a l1 ru l2 p, pb = Some a -> rs = (l1 ++ ru :: l2)%list -> (forall r', In r' l1 -> ~ big r') -> from_rule s t ru p -> lt a p).
Proof.
  induction rs as [|ru rs IH]; intros pb r os H In_ M.
  - injection H as <- <-. split; [intros x []|]. split; [intros ru p []|]. split; [intros a _ N; contradiction|]. intros a l1 ru l2 p _ E. destruct l1; discriminate.
  - cbn [write_rules] in H. destruct (traverse (to_ninja s t) (rule_inputs ru)) as [inputs|] eqn:EI; cbn [bind] in H; [|discriminate].
    set (test := Nat.ltb 2 (length inputs + length (as_list pb)) && Nat.ltb 2 (length (rule_sources ru))) in H.
    assert (HERE : exists c inp pb' edges rest, r = (c ++ edges ++ fst rest)%list /\ os = (flat_map outs edges ++ snd rest)%list /\
      traverse (write_rule_source s t ru inp pb') (rule_sources ru) = Some edges /\ write_rules s t pb' rs = Some rest /\
      (pb' = pb \/ (pb' = None /\ test = true)) /\ (forall a, pb = Some a -> (pb' = Some a) \/ (exists st, In st inp /\ lt a st /\ edges <> []))).
    { destruct test eqn:ET.
      - destruct (collapse s t (rule_name ru) inputs pb) as [[c st]|] eqn:EC; cbn [bind fst snd] in H; [|discriminate].
        destruct (traverse (write_rule_source s t ru (as_list st) None) (rule_sources ru)) as [edges|] eqn:EE; cbn [bind] in H; [|discriminate].
        destruct (write_rules s t None rs) as [rest|] eqn:ER; cbn [bind] in H; [|discriminate]. injection H as <- <-.
        exists c, (as_list st), None, edges, rest. split; [reflexivity|]. split; [reflexivity|]. split; [exact EE|]. split; [exact ER|].
        split; [right; split; reflexivity|].
        intros a A. right.
        assert (IC : incl c es) by (intros x X; apply In_; apply in_or_app; left; exact X).
        apply andb_prop in ET. destruct ET as (T1 & T2). apply Nat.ltb_lt in T1, T2.
        pose proof (collapse_parts _ _ _ _ _ EC IC M) as P. destruct st as [st|].
        + exists st. split; [left; reflexivity|]. destruct P as (_ & _ & _ & P). split; [exact (P a A)|]. pose proof (traverse_length _ _ _ EE) as L. destruct edges; [cbn in L; lia|discriminate].
        + subst inputs. rewrite A in T1. cbn in T1. lia.
      - cbn [bind] in H. destruct (traverse (write_rule_source s t ru inputs pb) (rule_sources ru)) as [edges|] eqn:EE; cbn [bind] in H; [|discriminate].
        destruct (write_rules s t pb rs) as [rest|] eqn:ER; cbn [bind] in H; [|discriminate]. injection H as <- <-.
        exists [], inputs, pb, edges, rest. split; [reflexivity|]. split; [reflexivity|]. split; [exact EE|]. split; [exact ER|]. split; [left; reflexivity|]. intros a A. left. exact A. }
    destruct HERE as (c & inp & pb' & edges & rest & -> & -> & EE & ER & PB & W). clear H.
    assert (M' : forall x, pb' = Some x -> made es x) by (intros x X; destruct PB as [->|(-> & _)]; [exact (M x X)|discriminate]).
    assert (IE : forall e, In e edges -> In e es) by (intros e X; apply In_; apply in_or_app; right; apply in_or_app; left; exact X).
    assert (IR : incl (fst rest) es) by (intros e X; apply In_; apply in_or_app; right; apply in_or_app; right; exact X).
    destruct rest as [rest os]. cbn [fst snd] in *. destruct (IH pb' rest os ER IR M') as (A1 & A2 & A3 & A4).
    assert (OWN : forall a e, pb = Some a -> In e edges -> forall p, In p (outs e) -> lt a p).
    { intros a e A X p P. destruct (traverse_out _ _ _ EE e X) as (f & F & G). unfold write_rule_source in G.
      destruct (traverse (to_ninja s t) (outputs_for ru f)) as [o|]; cbn [bind] in G; [|discriminate]. destruct (to_ninja s t (normpath f)) as [i|]; cbn [bind] in G; [|discriminate]. injection G as G.
      destruct (W a A) as [B|(st & S1 & S2 & _)].
      - apply (lt_read e a p (IE e X)); [rewrite <- G; unfold reads, statement; cbn [ins implicit order_only]; rewrite B; apply in_or_app; right; apply in_or_app; right; left; reflexivity|exact P|exact (M a A)].
      - apply (lt_le' a st p S2). apply lt_le. apply (lt_read e st p (IE e X)); [rewrite <- G; unfold reads, statement; cbn [ins implicit order_only]; apply in_or_app; right; apply in_or_app; left; exact S1|exact P|exact (made_r a st (lt_le _ _ S2))]. }
    assert (FR : forall p, from_rule s t ru p -> exists e, In e edges /\ In p (outs e)).
    { intros p (f & o & F & O & N). destruct (traverse_in _ _ _ EE f F) as (e & G & X). exists e. split; [exact X|]. unfold write_rule_source in G.
      destruct (traverse (to_ninja s t) (outputs_for ru f)) as [l|] eqn:T; cbn [bind] in G; [|discriminate]. destruct (to_ninja s t (normpath f)) as [i|]; cbn [bind] in G; [|discriminate]. injection G as <-.
      cbn [statement outs]. destruct (traverse_in _ _ _ T o O) as (y & Y & J). rewrite N in Y. injection Y as <-. exact J. }
    split; [|split; [|split]].
    + intros x X. apply in_app_or in X. destruct X as [X|X]; [|exact (A1 x X)]. apply in_flat_map in X. destruct X as (e & X & P). exists e. split; [exact (IE e X)|exact P].
    + intros ru' p [<-|I] F; apply in_or_app; [left|right; exact (A2 ru' p I F)]. destruct (FR p F) as (e & X & P). apply in_flat_map. exists e. split; assumption.
    + intros a A NE. destruct edges as [|e edges].
      * cbn [flat_map app] in *. destruct (W a A) as [B|(st & _ & _ & N)]; [|contradiction]. exact (A3 a B NE).
      * destruct (full_edge e (IE e (or_introl eq_refl))) as (p & P). exists p. split; [apply in_or_app; left; apply in_flat_map; exists e; split; [left; reflexivity|exact P]|]. exact (OWN a e A (or_introl eq_refl) p P).
    + intros a l1 ru' l2 p A E NB F. destruct l1 as [|r0 l1].
      * injection E as <- <-. destruct (FR p F) as (e & X & P). exact (OWN a e A X p P).
      * injection E as <- ->. destruct PB as [->|(-> & T)].
        -- exact (A4 a l1 ru' l2 p A eq_refl (fun r' I => NB r' (or_intror I)) F).
        -- exfalso. apply (NB ru (or_introl eq_refl)). subst test. apply andb_prop in T. destruct T as (T1 & T2). apply Nat.ltb_lt in T1, T2. rewrite (traverse_length _ _ _ EI) in T1. rewrite A in T1. cbn in T1. split; lia.
Qed.

Lemma write_generated_spec : forall pb r st, write_generated s t pb = Some (r, st) -> incl r es -> (forall x, pb = Some x -> made es x) ->
  (forall p, generates s t p -> exists q, st = Some q /\ le p q) /\
  (forall a p, pb = Some a -> waits s t p -> lt a p) /\
  (forall q, st = Some q -> made es q /\ forall a, pb = Some a -> lt a q).
Proof.
  intros pb r st H In_ M. unfold write_generated in H.
  destruct (traverse (write_action s t pb) (actions t)) as [a|] eqn:EA; cbn [bind] in H; [|discriminate].
  destruct (write_rules s t pb (rules t)) as [[ru os]|] eqn:ER; cbn [bind fst snd] in H; [|discriminate].
  destruct (write_copies s t pb) as [c|] eqn:EC; cbn [bind] in H; [|discriminate].
  destruct (collapse s t "actions_rules_copies" (flat_map outs a ++ os ++ flat_map outs c) None) as [[cs cst]|] eqn:EX; cbn [bind fst snd] in H; [|discriminate]. injection H as <- <-.
  assert (IA : incl a es) by (intros x X; apply In_; apply in_or_app; left; exact X).
  assert (IR : incl ru es) by (intros x X; apply In_; apply in_or_app; right; apply in_or_app; left; exact X).
  assert (IC : incl c es) by (intros x X; apply In_; apply in_or_app; right; apply in_or_app; right; apply in_or_app; left; exact X).
  assert (IX : incl cs es) by (intros x X; apply In_; apply in_or_app; right; apply in_or_app; right; apply in_or_app; right; exact X).
  destruct (write_rules_spec _ _ _ _ ER IR M) as (R1 & R2 & R3 & R4).
  unfold write_copies in EC. destruct (traverse (fun c0 => traverse (write_copy_file s t pb c0) (copy_files c0)) (copies t)) as [cc|] eqn:ECC; cbn [bind] in EC; [|discriminate]. injection EC as <-.
  assert (GA : forall e, In e a -> good pb e).
  { intros e X. destruct (traverse_out _ _ _ EA e X) as (ac & _ & G). apply good_order; [exact M|exact (IA e X)|]. unfold write_action in G.
    destruct (traverse (to_ninja s t) (action_inputs ac)); cbn [bind] in G; [|discriminate]. destruct (traverse (to_ninja s t) (action_outputs ac)); cbn [bind] in G; [|discriminate]. injection G as <-. reflexivity. }
  assert (GC : forall e, In e (concat cc) -> good pb e).
  { intros e X. pose proof (IC e X) as IE. apply in_concat in X. destruct X as (l & L & X). destruct (traverse_out _ _ _ ECC l L) as (co & _ & G). destruct (traverse_out _ _ _ G e X) as (f & _ & F).
    apply good_order; [exact M|exact IE|]. unfold write_copy_file in F. destruct (to_ninja s t (normpath f)); cbn [bind] in F; [|discriminate]. destruct (to_ninja s t (path_join (destination co) (snd (path_split (normpath f))))); cbn [bind] in F; [|discriminate]. injection F as <-. reflexivity. }
  assert (FA : forall ac o p, In ac (actions t) -> In o (action_outputs ac) -> to_ninja s t o = Some p -> exists e, In e a /\ In p (outs e)).
  { intros ac o p I O N. destruct (traverse_in _ _ _ EA ac I) as (e & G & X). exists e. split; [exact X|]. unfold write_action in G.
    destruct (traverse (to_ninja s t) (action_inputs ac)); cbn [bind] in G; [|discriminate]. destruct (traverse (to_ninja s t) (action_outputs ac)) as [l9|] eqn:T; cbn [bind] in G; [|discriminate]. injection G as <-.
    destruct (traverse_in _ _ _ T o O) as (y & Y & J). rewrite N in Y. injection Y as <-. exact J. }
  assert (FC : forall co f p, In co (copies t) -> In f (copy_files co) -> to_ninja s t (path_join (destination co) (snd (path_split (normpath f)))) = Some p -> exists e, In e (concat cc) /\ In p (outs e)).
  { intros co f p I F N. destruct (traverse_in _ _ _ ECC co I) as (l & G & L). destruct (traverse_in _ _ _ G f F) as (e & E & X). exists e. split; [apply in_concat; exists l; split; assumption|].
    unfold write_copy_file in E. destruct (to_ninja s t (normpath f)); cbn [bind] in E; [|discriminate]. rewrite N in E. cbn [bind] in E. injection E as <-. left. reflexivity. }
  assert (ALL : forall x, In x (flat_map outs a ++ os ++ flat_map outs (concat cc))%list -> made es x).
  { intros x X. apply in_app_or in X. destruct X as [X|X]; [|apply in_app_or in X; destruct X as [X|X]; [exact (R1 x X)|]].
    - apply in_flat_map in X. destruct X as (e & X & P). exists e. split; [exact (IA e X)|exact P].
    - apply in_flat_map in X. destruct X as (e & X & P). exists e. split; [exact (IC e X)|exact P]. }
  pose proof (collapse_spec _ _ _ _ EX IX ALL) as CS.
  split; [|split].
  - intros p G. assert (P : In p (flat_map outs a ++ os ++ flat_map outs (concat cc))%list).
    { destruct G as [ac o p I O N|r0 p I F|co f p I F N].
      - destruct (FA ac o p I O N) as (e & X & P). apply in_or_app. left. apply in_flat_map. exists e. split; assumption.
      - apply in_or_app. right. apply in_or_app. left. exact (R2 r0 p I F).
      - destruct (FC co f p I F N) as (e & X & P). apply in_or_app. right. apply in_or_app. right. apply in_flat_map. exists e. split; assumption. }
    destruct cst as [q|]; [|rewrite CS in P; contradiction]. exists q. split; [reflexivity|]. exact (proj2 (proj2 CS) p P).
  - intros b p B W. destruct W as [ac o p I O N|l1 r0 l2 p E NB F|co f p I F N].
    + destruct (FA ac o p I O N) as (e & X & P). exact (proj2 (GA e X) b B p P).
    + exact (R4 b l1 r0 l2 p B E NB F).
    + destruct (FC co f p I F N) as (e & X & P). exact (proj2 (GC e X) b B p P).
  - intros q ->. destruct CS as (NE & MQ & L). split; [exact MQ|]. intros b B.
    assert (EX2 : exists p, In p (flat_map outs a ++ os ++ flat_map outs (concat cc))%list /\ lt b p).
    { destruct a as [|e a'].
      - destruct os as [|o os'].
        + destruct (concat cc) as [|e l] eqn:EL; [contradiction|]. destruct (full_edge e (IC e (or_introl eq_refl))) as (p & P). exists p.
          split; [cbn [flat_map app]; apply in_or_app; left; exact P|exact (proj2 (GC e (or_introl eq_refl)) b B p P)].
        + destruct (R3 b B ltac:(discriminate)) as (p & P & Q). exists p. split; [cbn [flat_map]; apply in_or_app; right; apply in_or_app; left; exact P|exact Q].
      - destruct (full_edge e (IA e (or_introl eq_refl))) as (p & P). exists p. split; [apply in_or_app; left; cbn [flat_map]; apply in_or_app; left; exact P|exact (proj2 (GA e (or_introl eq_refl)) b B p P)]. }
    destruct EX2 as (p & P & Q). exact (lt_le' b p q Q (L p P)).
Qed.
End Parts.
End Order.
