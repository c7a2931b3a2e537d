(** What a pass does is determined by what is seen. *)
From Verif Require Import LibFacts StrFacts Model_Value Model_Merge Model_Filter Model_Cond Spec_Merge Spec_Cond Spec_Scope
  Proof_Merge Proof_Merge2 Proof_Merge3 Proof_Filter Proof_Filter2 Proof_Cond Proof_Cond2 Proof_Cond3 Proof_Scope.
Local Open Scope string_scope.

Scheme settles_mut := Minimality for settles Sort Prop
with variables_mut := Minimality for variables_settled Sort Prop
with conditions_mut := Minimality for conditions_settled Sort Prop
with choices_mut := Minimality for choices Sort Prop
with entries_mut := Minimality for entries_settled Sort Prop
with items_mut := Minimality for items_settled Sort Prop.
Combined Scheme settles_all from settles_mut, variables_mut, conditions_mut, choices_mut, entries_mut, items_mut.

Definition same (a b : dict) : Prop := forall n, assoc n a = assoc n b.
Lemma split_unique : forall k (a1 : dict) v1 b1 a2 v2 b2, ~ In k (map fst a1) -> ~ In k (map fst a2) -> (a1 ++ (k, v1) :: b1 = a2 ++ (k, v2) :: b2)%list -> a1 = a2 /\ v1 = v2 /\ b1 = b2.
Proof.
  intros k. induction a1 as [|[k1 w1] a1 IH]; intros v1 b1 [|[k2 w2] a2] v2 b2 N1 N2 E; cbn [app] in E.
  - injection E as -> ->. auto.
  - injection E as E1 _ _. subst k2. destruct N2. left. reflexivity.
  - injection E as E1 _ _. subst k1. destruct N1. left. reflexivity.
  - injection E as -> -> E. destruct (IH v1 b1 a2 v2 b2) as (-> & -> & ->); [intros X; apply N1; right; exact X|intros X; apply N2; right; exact X|exact E|auto].
Qed.
Lemma with_unique : forall k v d a b, with_entry k v d a -> with_entry k v d b -> a = b.
Proof. intros k v d a b (d1 & w & d2 & E & N & ->) (d3 & x & d4 & E' & N' & ->). rewrite E in E'. destruct (split_unique k d1 w d2 d3 x d4 N N' E') as (-> & _ & ->). reflexivity. Qed.
Lemma without_unique : forall k d a b, without_entry k d a -> without_entry k d b -> a = b.
Proof. intros k d a b (d1 & w & d2 & E & N & _ & ->) (d3 & x & d4 & E' & N' & _ & ->). rewrite E in E'. destruct (split_unique k d1 w d2 d3 x d4 N N' E') as (-> & _ & ->). reflexivity. Qed.
Lemma with_assoc : forall k v d a, with_entry k v d a -> assoc k a = Some v.
Proof. intros k v d a (d1 & w & d2 & -> & N & ->). induction d1 as [|[k1 x] d1 IH]; cbn [app assoc]; [rewrite String.eqb_refl; reflexivity|]. destruct (String.eqb_spec k k1) as [->|E]; [destruct N; left; reflexivity|]. apply IH. intros X. apply N. right. exact X. Qed.
Lemma branches_unique : forall l ps els, branches l ps els -> forall ps' els', branches l ps' els' -> ps = ps' /\ els = els'.
Proof.
  induction 1 as [|e t f|e t rest ps els NR B IH]; intros ps' els' B'.
  - inversion B'; auto.
  - inversion B' as [|? ? ? |? ? ? ? ? NR' B'']; subst; [auto|]. destruct (NR' f [] eq_refl).
  - inversion B' as [|? ? f|? ? ? ? ? NR' B'']; subst; [destruct (NR f [] eq_refl)|]. destruct (IH _ _ B'') as [-> ->]. auto.
Qed.
Lemma chosen_unique : forall (V : value -> bool -> Prop) ps els r r', (forall e b b', V e b -> V e b' -> b = b') -> chosen V ps els r -> chosen V ps els r' -> r = r'.
Proof.
  intros V ps els r r' HV H. revert r'. induction H as [els|e t ps els T|e t ps els r F H IH]; intros r' H'; inversion H'; subst; auto; try (match goal with A : V ?e true, B : V ?e false |- _ => discriminate (HV e true false A B) end).
Qed.
Lemma values_same : forall a b e e', values a e -> values b e' -> (forall n, e n = e' n) -> same a b.
Proof. intros a b e e' A B E n. rewrite A, B. apply E. Qed.
Lemma raw_same : forall a b, same a b -> forall n, raw a n = raw b n.
Proof. intros a b H. exact H. Qed.
Lemma seen_same : forall a b d k, same a b -> forall n, seen_in (raw a) d k n = seen_in (raw b) d k n.
Proof. intros a b d k H. unfold seen_in. destruct (assoc "variables" d) as [[]|]; repeat apply over_ext; try reflexivity; apply raw_same, H. Qed.

Section U.
  Variable expand : dict -> value -> result value.
  Variable eval : dict -> value -> result bool.
  Variable c : ctx.
  Variable ph : phase.
  Hypothesis RX : forall a b v, same a b -> expand a v = expand b v.
  Hypothesis RE : forall a b v, same a b -> eval a v = eval b v.

  Lemma expanded_unique : forall a b d d1 d2, same a b -> expanded expand a d d1 -> expanded expand b d d2 -> d1 = d2.
  Proof.
    intros a b d d1 d2 S H. revert d2. induction H as [|k s x d d' NK X SX H IH|k v d d' HV H IH]; intros d2 H2.
    - inversion H2; reflexivity.
    - inversion H2 as [|? ? ? ? ? ? X2|? ? ? ? [E|E]]; subst; [|congruence|destruct (E s eq_refl)]. rewrite (RX _ _ _ S) in X. f_equal; [congruence|auto].
    - inversion H2 as [|? ? ? ? ? NK|]; subst; [destruct HV as [E|E]; [congruence|destruct (E s eq_refl)]|]. f_equal. auto.
  Qed.
  Lemma verdict_same : forall a b e x, same a b -> verdict expand eval a e x -> verdict expand eval b e x.
  Proof. intros a b e x S (y & E & Y & V). exists y. rewrite <- (RX _ _ _ S), <- (RE _ _ _ S). auto. Qed.
  Lemma chosen_same : forall a b ps els r, same a b -> chosen (verdict expand eval a) ps els r -> chosen (verdict expand eval b) ps els r.
  Proof. intros a b ps els r S H. induction H; [constructor|apply ch_true; eapply verdict_same; eassumption|apply ch_false; [eapply verdict_same; eassumption|assumption]]. Qed.
  Lemma choice_unique : forall a b l ps els r ps' els' r', same a b -> branches l ps els -> chosen (verdict expand eval a) ps els r -> branches l ps' els' -> chosen (verdict expand eval b) ps' els' r' -> r = r'.
  Proof.
    intros a b l ps els r ps' els' r' S B C B' C'. destruct (branches_unique _ _ _ B _ _ B') as [<- <-]. apply (chosen_same a b _ _ _ S) in C. eapply chosen_unique; [|exact C|exact C']. intros e x y. apply verdict_det.
  Qed.
  Lemma section_unique : forall k k', section_of ph k -> section_of ph k' -> k = k'.
  Proof. intros k k' H H'. inversion H; inversion H'; congruence. Qed.
  Lemma In_keys : forall k v (d : dict), assoc k d = Some v -> In k (map fst d).
  Proof. intros k v d A. apply assoc_In in A. apply (in_map fst) in A. exact A. Qed.

  Theorem settles_unique :
    (forall key a d d1, settles expand eval c ph key a d d1 -> forall b d2, same a b -> settles expand eval c ph key b d d2 -> d1 = d2) /\
    (forall key a d d1 v1, variables_settled expand eval c ph key a d d1 v1 -> forall b d2 v2, same a b -> variables_settled expand eval c ph key b d d2 v2 -> d1 = d2 /\ same v1 v2) /\
    (forall a d d1, conditions_settled expand eval c ph a d d1 -> forall b d2, same a b -> conditions_settled expand eval c ph b d d2 -> d1 = d2) /\
    (forall a l d d1, choices expand eval c ph a l d d1 -> forall b d2, same a b -> choices expand eval c ph b l d d2 -> d1 = d2) /\
    (forall a d d1, entries_settled expand eval c ph a d d1 -> forall b d2, same a b -> entries_settled expand eval c ph b d d2 -> d1 = d2) /\
    (forall a l l1, items_settled expand eval c ph a l l1 -> forall b l2, same a b -> items_settled expand eval c ph b l l2 -> l1 = l2).
  Proof.
    apply settles_all.
    - intros key a d d1 vars1 d2 vars2 d3 vars3 d' V IV X V2 C IC V3 E IE b r S H. inversion H as [? ? ? d1' vars1' d2' vars2' d3' vars3' ? V' X' V2' C' V3' E']; subst.
      destruct (IV _ _ _ S V') as [<- S1]. rewrite <- (expanded_unique _ _ _ _ _ S1 X X') in *. assert (S2 : same vars2 vars2') by (eapply values_same; [exact V2|exact V2'|apply seen_same, S]). rewrite <- (IC _ _ S2 C') in *.
      assert (S3 : same vars3 vars3') by (eapply values_same; [exact V3|exact V3'|apply seen_same, S]). exact (IE _ _ S3 E').
    - intros key a d vars1 N V b d2 v2 S H. inversion H as [? ? ? ? N' V'|? ? ? vd vars0 vd' d1 vars1' A]; subst; [|destruct N; eapply In_keys; exact A]. split; [reflexivity|]. eapply values_same; [exact V|exact V'|]. apply over_ext; [reflexivity|exact S].
    - intros key a d vd vars0 vd' d1 vars1 A V0 SV IV W V1 b d2 v2 S H. inversion H as [? ? ? ? N' V'|? ? ? vd2 vars02 vd2' d12 vars1' A' V0' SV' W' V1']; subst; [destruct N'; eapply In_keys; exact A|].
      rewrite A in A'. injection A' as <-. assert (S0 : same vars0 vars02) by (eapply values_same; [exact V0|exact V0'|]; repeat apply over_ext; try reflexivity; exact S). rewrite <- (IV _ _ S0 SV') in *. assert (d1 = d2) as <- by (eapply with_unique; eassumption). split; [reflexivity|].
      eapply values_same; [exact V1|exact V1'|]. apply over_ext; [reflexivity|]. apply over_ext; [|reflexivity]. exact S0.
    - intros a d N b d2 S H. inversion H as [|? ? ? k v K A|? ? ? ? k conds K A]; subst; [reflexivity| |]; destruct (N k K); eapply In_keys; exact A.
    - intros a d d' k v K A E W b d2 S H. inversion H as [? ? N|? ? ? k' v' K' A' E' W'|? ? ? d1 k' conds K' A' W' CH]; subst; [destruct (N k K); eapply In_keys; exact A| |]; pose proof (section_unique _ _ K K'); subst k'; rewrite A in A'; injection A' as A'; subst.
      + eapply without_unique; eassumption.
      + destruct E as [E|E]; discriminate.
    - intros a d d' d1 k conds K A W CH IC b d2 S H. inversion H as [? ? N|? ? ? k' v' K' A' E' W'|? ? ? d1' k' conds' K' A' W' CH']; subst; [destruct (N k K); eapply In_keys; exact A| |]; pose proof (section_unique _ _ K K'); subst k'; rewrite A in A'; injection A' as A'; subst.
      + destruct E' as [E'|E']; discriminate.
      + rewrite <- (without_unique _ _ _ _ W W') in *. eauto.
    - intros a d b d2 S H. inversion H; reflexivity.
    - intros a l ps els conds d d' N B C CH IC b d2 S H. inversion H as [|? ? ps' els' ? ? ? N' B' C' CH'|? ? ps' els' m m' ? ? d1 ? N' B' C' SM M CH']; subst; pose proof (choice_unique _ _ _ _ _ _ _ _ _ S B C B' C') as E; [|discriminate]. eauto.
    - intros a l ps els m m' conds d d1 d' N B C SM IM M CH IC b d2 S H. inversion H as [|? ? ps' els' ? ? ? N' B' C' CH'|? ? ps' els' m2 m2' ? ? d12 ? N' B' C' SM' M' CH']; subst; pose proof (choice_unique _ _ _ _ _ _ _ _ _ S B C B' C') as E; [discriminate|]. injection E as <-.
      rewrite <- (IM _ _ S SM') in *. rewrite M in M'. injection M' as <-. eauto.
    - intros a b d2 S H. inversion H; reflexivity.
    - intros a k x x' d d' NK SX IX E IE b d2 S H. inversion H as [|? ? ? x2 ? d2' NK' SX' E'| |? ? ? ? ? [->|[(s & X)|(z & X)]]]; subst; try congruence. rewrite (IX _ _ S SX'), (IE _ _ S E'). reflexivity.
    - intros a k l l' d d' NK SX IX E IE b d2 S H. inversion H as [| |? ? ? x2 ? d2' NK' SX' E'|? ? ? ? ? [->|[(s & X)|(z & X)]]]; subst; try congruence. rewrite (IX _ _ S SX'), (IE _ _ S E'). reflexivity.
    - intros a k v d d' HV E IE b d2 S H. inversion H; subst; try (destruct HV as [HV|[(s & X)|(z & X)]]; congruence). f_equal. eauto.
    - intros a b l2 S H. inversion H; reflexivity.
    - intros a x x' l l' SX IX E IE b l2 S H. inversion H; subst. f_equal; [f_equal; eauto|eauto].
    - intros a x x' l l' SX IX E IE b l2 S H. inversion H; subst. f_equal; [f_equal; eauto|eauto].
    - intros a s x l l' X SX E IE b l2 S H. rewrite (RX _ _ _ S) in X. inversion H as [| | |? ? x2 ? l2' X' SX' E'|? ? xs ? l2' X' E'|]; subst; rewrite X in X'; injection X' as ->; [f_equal; eauto|]. destruct SX as [(q & Q)|(q & Q)]; discriminate.
    - intros a s xs l l' X E IE b l2 S H. rewrite (RX _ _ _ S) in X. inversion H as [| | |? ? x2 ? l2' X' SX' E'|? ? xs2 ? l2' X' E'|]; subst; rewrite X in X'; [injection X' as <-; destruct SX' as [(q & Q)|(q & Q)]; discriminate|]. injection X' as <-. f_equal. eauto.
    - intros a z l l' E IE b l2 S H. inversion H; subst. f_equal. eauto.
  Qed.
End U.

(** What one dict says does not reach its neighbours. *)
Definition alike (k : string) (d e : dict) : Prop := exists d1 x y d2, d = (d1 ++ (k, VDict x) :: d2)%list /\ e = (d1 ++ (k, VDict y) :: d2)%list /\ ~ In k (map fst d1).
Lemma alike_assoc : forall k d e n, alike k d e -> (n = k /\ (exists x, assoc n d = Some (VDict x)) /\ (exists y, assoc n e = Some (VDict y))) \/ (n <> k /\ assoc n d = assoc n e).
Proof.
  intros k d e n (d1 & x & y & d2 & -> & -> & N). destruct (String.eqb_spec n k) as [->|NK].
  - left. split; [reflexivity|]. split; [exists x|exists y]; (induction d1 as [|[k1 v1] d1 IH]; cbn [app assoc]; [rewrite String.eqb_refl; reflexivity|]; destruct (String.eqb_spec k k1) as [->|E]; [destruct N; left; reflexivity|]; apply IH; intros X; apply N; right; exact X).
  - right. split; [exact NK|]. clear N. induction d1 as [|[k1 v1] d1 IH]; cbn [app assoc]; [apply String.eqb_neq in NK; rewrite NK; reflexivity|]. destruct (String.eqb n k1); auto.
Qed.
Lemma alike_automatic : forall k d e, alike k d e -> forall n, automatic d n = automatic e n.
Proof.
  intros k d e H [|[[] [] [] [] [] [] [] []] n]; try reflexivity. unfold automatic. destruct (alike_assoc k d e n H) as [(-> & (x & ->) & (y & ->))|(_ & ->)]; reflexivity.
Qed.
Lemma alike_section : forall k d e n, alike k d e -> In n (map fst d) <-> In n (map fst e).
Proof. intros k d e n (d1 & x & y & d2 & -> & -> & N). rewrite !map_app, !in_app_iff. cbn [map fst In]. tauto. Qed.
Lemma alike_default : forall k d e vd key, alike k d e -> key <> Some "variables" -> forall n, default_in vd d key n = default_in vd e key n.
Proof.
  intros k d e vd key H K n. unfold default_in. destruct (usable (assoc (n ++ "%") vd)) as [v|]; [|reflexivity]. destruct key as [key|]; [|reflexivity].
  destruct (String.eqb_spec key "variables") as [->|NK]; [destruct K; reflexivity|].
  assert (X : forall o : option value, match key, o with "variables", Some w => Some w | _, _ => Some v end = Some v); [|rewrite !X; reflexivity].
  clear - NK. intros o.
  repeat (let ch := fresh "ch" in destruct key as [|ch key]; [reflexivity|]; destruct ch as [[] [] [] [] [] [] [] []]; try reflexivity).
  all: destruct key; try reflexivity. destruct NK. reflexivity.
Qed.
Lemma alike_seen : forall k d e a b key, alike k d e -> k <> "variables" -> key <> Some "variables" -> (forall n, a n = b n) -> forall n, seen_in a d key n = seen_in b e key n.
Proof.
  intros k d e a b key H NK K S. unfold seen_in. destruct (alike_assoc k d e "variables" H) as [(E & _)|(_ & E)]; [congruence|]. rewrite E.
  destruct (assoc "variables" e) as [[]|]; repeat apply over_ext; try assumption; try (eapply alike_automatic; exact H); try reflexivity; intros n; eapply alike_default; eassumption.
Qed.
Lemma with_alike : forall k v d e d1 e1, k <> "variables" -> alike k d e -> with_entry "variables" v d d1 -> with_entry "variables" v e e1 -> alike k d1 e1.
Proof.
  intros k v d e d1 e1 NK (a & x & y & b & -> & -> & N) W1 W2.
  assert (D : In "variables" (map fst a) \/ ~ In "variables" (map fst a)) by (destruct (in_dec string_dec "variables" (map fst a)); auto).
  destruct D as [D|D].
  - apply in_map_iff in D. destruct D as ([kv w] & K & I). cbn [fst] in K. subst kv.
    assert (exists a1 w a2, a = (a1 ++ ("variables", w) :: a2)%list /\ ~ In "variables" (map fst a1)) as (a1 & w' & a2 & -> & NA).
    { clear - I. induction a as [|[k1 w1] a IH]; [destruct I|]. destruct (String.eqb_spec k1 "variables") as [->|E]; [exists [], w1, a; split; [reflexivity|intros []]|]. destruct I as [I|I]; [injection I as -> ->; congruence|]. destruct (IH I) as (a1 & w' & a2 & -> & NA). exists ((k1, w1) :: a1), w', a2. split; [reflexivity|]. intros [X|X]; [cbn in X; congruence|auto]. }
    assert (d1 = (a1 ++ ("variables", v) :: a2 ++ (k, VDict x) :: b)%list) as -> by (eapply with_unique; [exact W1|]; exists a1, w', (a2 ++ (k, VDict x) :: b)%list; rewrite <- app_assoc; auto).
    assert (e1 = (a1 ++ ("variables", v) :: a2 ++ (k, VDict y) :: b)%list) as -> by (eapply with_unique; [exact W2|]; exists a1, w', (a2 ++ (k, VDict y) :: b)%list; rewrite <- app_assoc; auto).
    exists (a1 ++ ("variables", v) :: a2)%list, x, y, b. rewrite <- !app_assoc. split; [reflexivity|]. split; [reflexivity|]. rewrite map_app, in_app_iff in *. cbn [map fst In] in *. tauto.
  - destruct W1 as (p & w & q & E & NP & ->). destruct W2 as (p' & w' & q' & E' & NP' & ->).
    assert (S : forall z p w q, (a ++ (k, VDict z) :: b = p ++ ("variables", w) :: q)%list -> ~ In "variables" (map fst p) -> exists b1, p = (a ++ (k, VDict z) :: b1)%list /\ b = (b1 ++ ("variables", w) :: q)%list).
    { clear - NK D. intros z p w q. revert p D. induction a as [|[k1 w1] a IH]; intros p D E NP; cbn [app] in *.
      - destruct p as [|[k2 w2] p]; cbn [app] in E; [injection E as E1 _; congruence|]. injection E as <- <- ->. exists p. auto.
      - destruct p as [|[k2 w2] p]; cbn [app] in E; [injection E as E1 _ _; destruct D; left; exact E1|]. injection E as <- <- E. destruct (IH p) as (b1 & -> & ->); [intros X; apply D; right; exact X|exact E|intros X; apply NP; right; exact X|]. exists b1. auto. }
    destruct (S _ _ _ _ E NP) as (b1 & -> & B1). destruct (S _ _ _ _ E' NP') as (b2 & -> & B2).
    assert (NB : ~ In "variables" (map fst b1)) by (intros X; apply NP; rewrite map_app, in_app_iff; right; right; exact X).
    assert (NB' : ~ In "variables" (map fst b2)) by (intros X; apply NP'; rewrite map_app, in_app_iff; right; right; exact X).
    rewrite B1 in B2. destruct (split_unique _ _ _ _ _ _ _ NB NB' B2) as (<- & _ & <-). exists a, x, y, (b1 ++ ("variables", v) :: q)%list. rewrite <- !app_assoc. auto.
Qed.
Lemma expanded_keys : forall expand vars d d', expanded expand vars d d' -> map fst d = map fst d'.
Proof. induction 1; cbn [map fst]; congruence. Qed.
Lemma expanded_app : forall expand vars a b d', expanded expand vars (a ++ b)%list d' -> exists a' b', d' = (a' ++ b')%list /\ expanded expand vars a a' /\ expanded expand vars b b'.
Proof.
  intros expand vars. induction a as [|e a IH]; intros b d' H; [exists [], d'; repeat split; [constructor|exact H]|]. cbn [app] in H. inversion H as [|k s x d0 d'' NK X SX H'|k v d0 d'' HV H']; subst.
  - destruct (IH _ _ H') as (a' & b' & -> & A & B). exists ((k, x) :: a'), b'. repeat split; [constructor; assumption|assumption].
  - destruct (IH _ _ H') as (a' & b' & -> & A & B). exists ((k, v) :: a'), b'. repeat split; [apply ex_other; assumption|assumption].
Qed.
Lemma entries_app : forall expand eval c ph vars a b d', entries_settled expand eval c ph vars (a ++ b)%list d' -> exists a' b', d' = (a' ++ b')%list /\ map fst a = map fst a' /\ entries_settled expand eval c ph vars a a' /\ entries_settled expand eval c ph vars b b'.
Proof.
  intros expand eval c ph vars. induction a as [|e a IH]; intros b d' H; [exists [], d'; repeat split; [constructor|exact H]|]. cbn [app] in H.
  inversion H as [|? k x x' d0 d'' NK X H'|? k x x' d0 d'' NK X H'|? k v d0 d'' HV H']; subst; destruct (IH _ _ H') as (a' & b' & -> & K & A & B).
  - exists ((k, VDict x') :: a'), b'. cbn [map fst]. rewrite K. repeat split; [constructor; assumption|assumption].
  - exists ((k, VList x') :: a'), b'. cbn [map fst]. rewrite K. repeat split; [constructor; assumption|assumption].
  - exists ((k, v) :: a'), b'. cbn [map fst]. rewrite K. repeat split; [apply es_other; assumption|assumption].
Qed.
Theorem neighbours : forall expand eval c ph key vars k d e d' e', (forall a b v, same a b -> expand a v = expand b v) -> (forall a b v, same a b -> eval a v = eval b v) ->
  k <> "variables" -> key <> Some "variables" -> (forall s, section_of ph s -> ~ In s (map fst d)) -> alike k d e ->
  settles expand eval c ph key vars d d' -> settles expand eval c ph key vars e e' -> alike k d' e'.
Proof.
  intros expand eval c ph key vars k d e d' e' RX RE NK NV NS H S1 S2. destruct (settles_unique expand eval c ph RX RE) as (US & _ & _ & _ & UE & _).
  inversion S1 as [? ? ? d1 vars1 d2 vars2 d3 vars3 ? V X V2 C V3 E]; subst. inversion S2 as [? ? ? e1 wars1 e2 wars2 e3 wars3 ? W Y W2 D W3 F]; subst.
  assert (A1 : alike k d1 e1 /\ same vars1 wars1 /\ map fst d = map fst d1).
  { inversion V as [? ? ? ? N V'|? ? ? vd vars0 vd' ? ? A V0 SV WE V1]; subst; inversion W as [? ? ? ? N' W'|? ? ? wd wars0 wd' ? ? B W0 SW WE' W1]; subst.
    - split; [exact H|]. split; [|reflexivity]. eapply values_same; [exact V'|exact W'|]. apply over_ext; [eapply alike_automatic; exact H|reflexivity].
    - destruct N. apply (proj2 (alike_section _ _ _ "variables" H)). eapply In_keys; exact B.
    - destruct N'. apply (proj1 (alike_section _ _ _ "variables" H)). eapply In_keys; exact A.
    - destruct (alike_assoc _ _ _ "variables" H) as [(Q & _)|(_ & Q)]; [congruence|]. rewrite Q, B in A. injection A as ->.
      assert (S0 : same vars0 wars0) by (eapply values_same; [exact V0|exact W0|]; apply over_ext; [reflexivity|]; apply over_ext; [eapply alike_automatic; exact H|reflexivity]).
      rewrite <- (US _ _ _ _ SV _ _ S0 SW) in *. pose proof (with_alike _ _ _ _ _ _ NK H WE WE') as A1. split; [exact A1|]. split.
      + eapply values_same; [exact V1|exact W1|]. apply over_ext; [reflexivity|]. apply over_ext; [exact S0|]. intros n. eapply alike_default; eassumption.
      + destruct WE as (p & w & q & -> & _ & ->). rewrite !map_app. reflexivity. }
  destruct A1 as (A1 & SV & K1).
  assert (A2 : alike k d2 e2).
  { destruct A1 as (p & x & y & q & -> & -> & N). destruct (expanded_app _ _ _ _ _ X) as (p' & q' & -> & P & Q). destruct (expanded_app _ _ _ _ _ Y) as (p2 & q2 & -> & P2 & Q2).
    rewrite (expanded_unique expand RX _ _ _ _ _ SV P P2) in *. inversion Q as [| |? ? ? q3 HV Q3]; subst. inversion Q2 as [| |? ? ? q4 HV' Q4]; subst. rewrite (expanded_unique expand RX _ _ _ _ _ SV Q3 Q4). exists p2, x, y, q4. rewrite <- (expanded_keys _ _ _ _ P2). auto. }
  assert (NS2 : forall s, section_of ph s -> ~ In s (map fst d2)) by (intros s HS; rewrite <- (expanded_keys _ _ _ _ X), <- K1; apply NS; exact HS).
  assert (NS3 : forall s, section_of ph s -> ~ In s (map fst e2)) by (intros s HS I; apply (NS2 s HS); apply (proj2 (alike_section k d2 e2 s A2)); exact I).
  inversion C as [? ? _|? ? ? s v K A|? ? ? ? s v K A]; subst; try (destruct (NS2 _ K); eapply In_keys; exact A). inversion D as [? ? _|? ? ? s v K A|? ? ? ? s v K A]; subst; try (destruct (NS3 _ K); eapply In_keys; exact A).
  assert (S3 : same vars3 wars3) by (eapply values_same; [exact V3|exact W3|]; eapply alike_seen; [exact A2|assumption|assumption|reflexivity]).
  destruct A2 as (p & x & y & q & -> & -> & N). destruct (entries_app _ _ _ _ _ _ _ _ E) as (p' & q' & -> & KP & P & Q). destruct (entries_app _ _ _ _ _ _ _ _ F) as (p2 & q2 & -> & KP2 & P2 & Q2).
  rewrite (UE _ _ _ P _ _ S3 P2) in *. inversion Q as [|? ? ? x' ? q3 _ SX Q3| |? ? ? ? ? [B|[(z & B)|(z & B)]]]; subst; try congruence. inversion Q2 as [|? ? ? y' ? q4 _ SY Q4| |? ? ? ? ? [B|[(z & B)|(z & B)]]]; subst; try congruence.
  rewrite (UE _ _ _ Q3 _ _ S3 Q4). exists p2, x', y', q4. rewrite <- KP2. auto.
Qed.
Theorem neighbours_out : forall expand eval c ph key around before k x y after d' e',
  (forall a b v, (forall n, assoc n a = assoc n b) -> expand a v = expand b v) -> (forall a b v, (forall n, assoc n a = assoc n b) -> eval a v = eval b v) ->
  k <> "variables" -> key <> Some "variables" -> ~ In k (map fst before) -> (forall s, section_of ph s -> ~ In s (map fst (before ++ (k, VDict x) :: after)%list)) ->
  settles expand eval c ph key around (before ++ (k, VDict x) :: after)%list d' -> settles expand eval c ph key around (before ++ (k, VDict y) :: after)%list e' ->
  exists before' x' y' after', d' = (before' ++ (k, VDict x') :: after')%list /\ e' = (before' ++ (k, VDict y') :: after')%list.
Proof.
  intros expand eval c ph key around before k x y after d' e' RX RE NK NV N NS S1 S2.
  destruct (neighbours expand eval c ph key around k _ (before ++ (k, VDict y) :: after)%list d' e' RX RE NK NV NS) as (p & x' & y' & q & A & B & _); [exists before, x, y, after; auto|exact S1|exact S2|]. eauto 8.
Qed.
