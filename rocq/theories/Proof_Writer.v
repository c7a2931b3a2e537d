From Verif Require Import Lib Str LibFacts StrFacts Model_Names Model_Path Model_Graph Model_Writer Spec_Writer.
Local Open Scope string_scope.

(** Orders. *)
Lemma first_trans : forall order x y z, first order z y -> first order y x -> first order z x.
Proof.
  intros order x y z H1 H2 a b E. specialize (H2 a b E). apply in_split in H2. destruct H2 as (a1 & a2 & ->). rewrite <- app_assoc in E. cbn [app] in E. specialize (H1 _ _ E). apply in_or_app. left. exact H1.
Qed.
Lemma first_direct : forall rs order x y, schedule rs order -> prerequisite rs x y -> made rs y -> first order y x.
Proof. intros rs order x y S P M a b E. exact (S a x b E y P M). Qed.

(** The targets and what is known of the ones before. *)
Lemma unify_from_in : forall l seen x, In x (unify_from seen l) <-> In x l /\ ~ In x seen.
Proof.
  induction l as [|e l IH]; intros seen x; cbn [unify_from]; [cbn; tauto|]. destruct (mem e seen) eqn:M.
  - rewrite IH. apply mem_In in M. cbn [In]. split; [tauto|]. intros [[->|H] N]; [contradiction|tauto].
  - cbn [In]. rewrite IH. apply mem_false in M. cbn [In]. split; [intros [->|[H N]]; [tauto|tauto]|]. intros [[->|H] N]; [tauto|]. destruct (String.eqb_spec e x); [tauto|]. right. split; [exact H|]. tauto.
Qed.
Lemma unify_in : forall l x, In x (unify l) <-> In x l.
Proof. intros l x. unfold unify. rewrite unify_from_in. cbn [In]. tauto. Qed.

Section Generated.
Variable sha1 : string -> string.
Variable needed : string -> bool.
Definition knows (k : known) (pre : list target) : Prop :=
  (forall q o, assoc q (outputs_of k) = Some o -> exists t, In t pre /\ qualified t = q /\ o = install_path t) /\
  (forall q o, assoc q (links_of k) = Some o -> exists t, In t pre /\ qualified t = q /\ o = binary t /\ (type t = Static_library \/ type t = Shared_library)) /\
  (forall t, In t pre -> assoc (qualified t) (outputs_of k) <> None) /\
  (forall t, In t pre -> type t = Static_library \/ type t = Shared_library -> assoc (qualified t) (links_of k) <> None).
Lemma assoc_app : forall A (l l' : list (string * A)) k, assoc k (l ++ l') = match assoc k l with Some v => Some v | None => assoc k l' end.
Proof. induction l as [|[a b] l IH]; intros l' k; cbn [app assoc]; [reflexivity|]. destruct (String.eqb k a); [reflexivity|apply IH]. Qed.
Lemma knows_learn : forall k pre t, knows k pre -> knows (learn k t) (pre ++ [t]).
Proof.
  intros k pre t (A & B & C & D). unfold knows, learn. cbn [outputs_of links_of].
  assert (L : forall l, In t (l ++ [t])%list) by (intros l; apply in_or_app; right; left; reflexivity).
  assert (LINK : match type t with Static_library | Shared_library => [(qualified t, binary t)] | _ => [] end = [] /\ ~ (type t = Static_library \/ type t = Shared_library) \/ match type t with Static_library | Shared_library => [(qualified t, binary t)] | _ => [] end = [(qualified t, binary t)] /\ (type t = Static_library \/ type t = Shared_library))
    by (destruct (type t); [left|right|right|left|left]; split; try reflexivity; try (intros [Q|Q]; discriminate); tauto).
  split; [|split; [|split]].
  - intros q o. cbn [assoc]. destruct (String.eqb_spec q (qualified t)) as [->|N]; [intros H; injection H as <-; exists t; split; [apply L|split; reflexivity]|]. intros H. destruct (A q o H) as (u & I & E). exists u. split; [apply in_or_app; left; exact I|exact E].
  - intros q o. destruct LINK as [[-> NL]|[-> YL]]; cbn [app].
    + intros H. destruct (B q o H) as (u & I & E). exists u. split; [apply in_or_app; left; exact I|exact E].
    + cbn [assoc]. destruct (String.eqb_spec q (qualified t)) as [->|N]; [intros H; injection H as <-; exists t; split; [apply L|split; [reflexivity|split; [reflexivity|exact YL]]]|]. intros H. destruct (B q o H) as (u & I & E). exists u. split; [apply in_or_app; left; exact I|exact E].
  - intros u I. cbn [assoc]. destruct (String.eqb_spec (qualified u) (qualified t)); [discriminate|]. apply in_app_or in I. destruct I as [I|[->|[]]]; [exact (C u I)|congruence].
  - intros u I T. apply in_app_or in I. destruct LINK as [[-> NL]|[-> YL]]; cbn [app].
    + destruct I as [I|[->|[]]]; [exact (D u I T)|contradiction].
    + cbn [assoc]. destruct (String.eqb_spec (qualified u) (qualified t)); [discriminate|]. destruct I as [I|[->|[]]]; [exact (D u I T)|congruence].
Qed.
Definition has (ts : list target) (deps link_deps : list string) (t : target) : Prop :=
  (forall d, depends ts t d -> install_path d <> "" -> In (install_path d) deps) /\
  (forall d, depends ts t d -> type d = Static_library \/ type d = Shared_library -> In (binary d) deps /\ In (binary d) link_deps) /\
  (forall x, In x deps -> exists d, depends ts t d /\ (x = install_path d \/ x = binary d)) /\
  (forall x, In x link_deps -> exists d, depends ts t d /\ x = binary d).
Lemma all_known_in : forall k l os, all_known k l = Some os -> (forall q, In q l -> exists o, assoc q (outputs_of k) = Some o /\ (o <> "" -> In o os)) /\ (forall o, In o os -> exists q, In q l /\ assoc q (outputs_of k) = Some o).
Proof.
  intros k. induction l as [|d l IH]; intros os H; cbn [all_known] in H.
  - injection H as <-. split; [intros q []|intros o []].
  - destruct (assoc d (outputs_of k)) as [o|] eqn:Q; [|discriminate]. destruct (all_known k l) as [os'|]; [|discriminate]. injection H as <-. destruct (IH os' eq_refl) as [F G]. split.
    + intros q [<-|I].
      * exists o. split; [exact Q|]. intros N. destruct (String.eqb_spec o ""); [contradiction|left; reflexivity].
      * destruct (F q I) as (o' & E & K). exists o'. split; [exact E|]. intros N. destruct (String.eqb_spec o ""); [exact (K N)|right; exact (K N)].
    + intros o' I. assert (J : o' = o \/ In o' os') by (destruct (String.eqb o ""); [right; exact I|destruct I as [<-|I]; tauto]). destruct J as [->|J]; [exists d; split; [left; reflexivity|exact Q]|]. destruct (G o' J) as (q & I' & E). exists q. split; [right; exact I'|exact E].
Qed.
Lemma same_target : forall ts t u, NoDup (map qualified ts) -> In t ts -> In u ts -> qualified t = qualified u -> t = u.
Proof.
  induction ts as [|a ts IH]; intros t u N I J E; [destruct I|]. cbn [map] in N. apply NoDup_cons_iff in N. destruct N as [NI N]. destruct I as [<-|I], J as [<-|J]; [reflexivity| | |exact (IH t u N I J E)].
  - destruct NI. rewrite E. apply in_map. exact J.
  - destruct NI. rewrite <- E. apply in_map. exact I.
Qed.
Lemma generate_parts : forall ts pre k rs, NoDup (map qualified (pre ++ ts)) -> knows k pre -> generate sha1 needed k ts = Some rs ->
  (forall t, In t ts -> exists deps link_deps, incl (write_all sha1 t deps link_deps (needed (qualified t))) rs /\ has (pre ++ ts) deps link_deps t) /\
  (forall r, In r rs -> exists t deps link_deps, In t ts /\ In r (write_all sha1 t deps link_deps (needed (qualified t))) /\ has (pre ++ ts) deps link_deps t).
Proof.
  induction ts as [|t ts IH]; intros pre k rs ND K G; cbn [generate] in G; [injection G as <-; split; [intros t []|intros r []]|].
  destruct (acceptable t); [|discriminate]. destruct (compute_deps k t) as [[deps ld]|] eqn:C; [|discriminate]. destruct (generate sha1 needed (learn k t) ts) as [rs'|] eqn:G'; [|discriminate]. cbn [option_map] in G. injection G as <-.
  assert (E : (pre ++ t :: ts = (pre ++ [t]) ++ ts)%list) by (rewrite <- app_assoc; reflexivity).
  rewrite E in ND. destruct (IH (pre ++ [t])%list (learn k t) rs' ND (knows_learn k pre t K) G') as [IH1 IH2].
  assert (H : has ((pre ++ [t]) ++ ts) deps ld t).
  { unfold compute_deps in C. destruct (all_known k (dependencies t)) as [os|] eqn:AK; [|discriminate]. cbn [option_map] in C. injection C as <- <-. destruct (all_known_in _ _ _ AK) as [F F']. destruct K as (K1 & K2 & K3 & K4).
    assert (PRE : forall u, In u pre -> In u ((pre ++ [t]) ++ ts)%list) by (intros u I; rewrite <- app_assoc; apply in_or_app; left; exact I).
    assert (SELF : In t ((pre ++ [t]) ++ ts)%list) by (rewrite <- app_assoc; apply in_or_app; right; left; reflexivity).
    assert (KN : forall d, depends ((pre ++ [t]) ++ ts) t d -> In d pre).
    { intros d (_ & I & D). destruct (F _ D) as (o & Q & _). destruct (K1 _ _ Q) as (u & U & EQ & _). rewrite <- (same_target _ u d ND (PRE u U) I EQ). exact U. }
    split; [|split; [|split]].
    - intros d D N. pose proof D as (_ & I & DD). destruct (F _ DD) as (o & Q & X). destruct (K1 _ _ Q) as (u & U & EQ & EO). pose proof (same_target _ u d ND (PRE u U) I EQ) as ->. rewrite EO in X. apply unify_in, in_or_app. left. exact (X N).
    - intros d D T. pose proof (KN d D) as P. pose proof D as (_ & I & DD). assert (L : In (binary d) (known_links k (dependencies t))).
      { unfold known_links. apply in_flat_map. exists (qualified d). split; [exact DD|]. destruct (assoc (qualified d) (links_of k)) as [o|] eqn:Q; [|destruct (K4 d P T Q)]. left. destruct (K2 _ _ Q) as (u & U & EQ & EO & _). pose proof (same_target _ u d ND (PRE u U) I EQ) as ->. exact EO. }
      split; [apply unify_in, in_or_app; right; exact L|apply unify_in; exact L].
    - intros x X. apply (proj1 (unify_in _ _)) in X. apply in_app_or in X. destruct X as [X|X].
      + destruct (F' x X) as (q & IQ & Q). destruct (K1 _ _ Q) as (u & U & EQ & EO). exists u. split; [split; [exact SELF|split; [exact (PRE u U)|rewrite EQ; exact IQ]]|left; exact EO].
      + unfold known_links in X. apply in_flat_map in X. destruct X as (q & IQ & X). destruct (assoc q (links_of k)) as [o|] eqn:Q; [|destruct X]. destruct X as [<-|[]]. destruct (K2 _ _ Q) as (u & U & EQ & EO & _). exists u. split; [split; [exact SELF|split; [exact (PRE u U)|rewrite EQ; exact IQ]]|right; exact EO].
    - intros x X. apply (proj1 (unify_in _ _)) in X. unfold known_links in X. apply in_flat_map in X. destruct X as (q & IQ & X). destruct (assoc q (links_of k)) as [o|] eqn:Q; [|destruct X]. destruct X as [<-|[]]. destruct (K2 _ _ Q) as (u & U & EQ & EO & _). exists u. split; [split; [exact SELF|split; [exact (PRE u U)|rewrite EQ; exact IQ]]|exact EO]. }
  rewrite E. split.
  - intros u [<-|I].
    + exists deps, ld. split; [apply incl_appl, incl_refl|exact H].
    + destruct (IH1 u I) as (de & li & IN & HA). exists de, li. split; [apply incl_appr; exact IN|exact HA].
  - intros r R. apply in_app_or in R. destruct R as [R|R]; [exists t, deps, ld; split; [left; reflexivity|split; [exact R|exact H]]|]. destruct (IH2 r R) as (u & de & li & I & R' & HA). exists u, de, li. split; [right; exact I|split; [exact R'|exact HA]].
Qed.
Lemma makefile_parts : forall ts rs, NoDup (map qualified ts) -> makefile sha1 needed ts = Some rs ->
  (forall t, In t ts -> exists deps link_deps, incl (write_all sha1 t deps link_deps (needed (qualified t))) rs /\ has ts deps link_deps t) /\
  (forall r, In r rs -> exists t deps link_deps, In t ts /\ In r (write_all sha1 t deps link_deps (needed (qualified t))) /\ has ts deps link_deps t).
Proof.
  intros ts rs ND G. apply (generate_parts ts [] _ rs ND) in G; [exact G|]. split; [|split; [|split]]; cbn; intros; try discriminate; contradiction.
Qed.
End Generated.
