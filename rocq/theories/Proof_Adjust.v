(** Proofs about AdjustStaticLibraryDependencies. *)
From Verif Require Import Lib LibFacts Model_Graph Spec_Graph Proof_Graph Proof_Deps.

(** The queries do not look at "dependencies", only at the fixed node links. *)
Definition agree (ts ts1 : targets) : Prop :=
  length ts1 = length ts /\
  forall t, match assoc t ts, assoc t ts1 with
            | None, None => True
            | Some s, Some s1 => same_but_dependencies s s1
            | _, _ => False
            end.

Lemma same_but_refl : forall s, same_but_dependencies s s.
Proof. intros s. repeat split. Qed.
Lemma same_but_trans : forall a b c, same_but_dependencies a b -> same_but_dependencies b c -> same_but_dependencies a c.
Proof. unfold same_but_dependencies. intros a b c H1 H2. intuition congruence. Qed.

Lemma agree_refl : forall ts, agree ts ts.
Proof. intros ts. split; [reflexivity|]. intros t. destruct (assoc t ts); [apply same_but_refl|exact I]. Qed.

Lemma add_imported_agree : forall ts ts1, agree ts ts1 -> forall fuel done rest,
  add_imported fuel ts1 done rest = add_imported fuel ts done rest.
Proof.
  intros ts ts1 [_ Ha]. induction fuel as [|fuel IH]; intros done rest; [reflexivity|].
  cbn [add_imported]. destruct rest as [|d rest]; [reflexivity|]. specialize (Ha d).
  destruct (assoc d ts) as [s|], (assoc d ts1) as [s1|]; try contradiction; [|reflexivity].
  destruct Ha as [-> _]. apply IH.
Qed.

Lemma imported_agree : forall ts ts1 links t, agree ts ts1 ->
  direct_and_imported ts1 links t = direct_and_imported ts links t.
Proof.
  intros ts ts1 links t H. unfold direct_and_imported. rewrite (proj1 H). apply add_imported_agree. exact H.
Qed.

Lemma ofold_ext : forall A B (f g : A -> B -> outcome A) l acc,
  (forall a b, f a b = g a b) -> ofold f l acc = ofold g l acc.
Proof.
  intros A B f g l; induction l as [|x l IH]; intros acc H; cbn [ofold]; [reflexivity|].
  rewrite H. destruct (g acc x); cbn [bind]; [apply IH; exact H|reflexivity].
Qed.

Lemma link_agree : forall ts ts1 links inc, agree ts ts1 -> forall fuel ini t acc,
  link_dependencies fuel ts1 links inc ini t acc = link_dependencies fuel ts links inc ini t acc.
Proof.
  intros ts ts1 links inc Ha. induction fuel as [|fuel IH]; intros ini t acc; [reflexivity|].
  cbn [link_dependencies]. assert (H := proj2 Ha t).
  destruct (assoc t ts) as [s|], (assoc t ts1) as [s1|]; try contradiction; [|reflexivity].
  destruct H as [_ [-> [-> [-> _]]]]. destruct (negb (sp_has_name s)); [reflexivity|].
  destruct (sp_type s) as [ty|]; [|reflexivity]. cbn zeta.
  rewrite (ofold_ext _ _ _ (fun a d => link_dependencies fuel ts links inc false d a) (links t) (oset_add t acc)); [reflexivity|].
  intros a b. apply IH.
Qed.

Lemma drop_soft_agree : forall ts ts1 orig ds, agree ts ts1 -> drop_soft ts1 orig ds = drop_soft ts orig ds.
Proof.
  intros ts ts1 orig ds Ha. induction ds as [|d ds IH]; cbn [drop_soft]; [reflexivity|]. assert (H := proj2 Ha d).
  destruct (assoc d ts) as [s|], (assoc d ts1) as [s1|]; try contradiction; [|reflexivity].
  destruct H as [_ [-> [_ [_ [-> _]]]]]. rewrite IH. reflexivity.
Qed.

(** Effect of [update]. *)
Lemma assoc_update : forall t s ts x, In t (names ts) ->
  assoc x (update t s ts) = if String.eqb x t then Some s else assoc x ts.
Proof.
  intros t s ts x; induction ts as [|[t' s'] ts IH]; cbn [update names map fst]; [intros []|]. intros H.
  destruct (String.eqb_spec t t') as [<-|Hn].
  - cbn [assoc]. destruct (String.eqb x t); reflexivity.
  - destruct H as [H|H]; [congruence|]. cbn [assoc]. rewrite (IH H).
    destruct (String.eqb_spec x t') as [->|]; [|reflexivity]. destruct (String.eqb_spec t' t); [congruence|reflexivity].
Qed.

Lemma names_update : forall t s ts, names (update t s ts) = names ts.
Proof.
  intros t s ts; induction ts as [|[t' s'] ts IH]; cbn [update names map fst]; [reflexivity|].
  destruct (String.eqb_spec t t') as [<-|Hn]; cbn [map fst]; [reflexivity|]. f_equal. exact IH.
Qed.

Lemma length_names : forall ts, length (names ts) = length ts.
Proof. intros ts. apply map_length. Qed.

Section Adjust.
  Variable ts : targets.
  Variable flat : list string.
  Variable sorted : bool.
  Hypothesis Hd : is_dict ts.
  Hypothesis Hc : closed ts.
  Hypothesis Ht : typed ts.
  Hypothesis Hex : forall t d, exports_to ts t d -> In d (names ts).
  Hypothesis Hflat : Permutation flat (names ts).

  Let links := node_dependencies ts.

  Lemma drop_soft_spec : forall orig ds, incl ds (names ts) -> NoDup ds ->
    exists kept, drop_soft ts orig ds = Ok kept /\ NoDup kept /\
      forall x, In x kept <-> In x ds /\ ((type_is ts x "static_library" /\ hard ts x) \/
                                          (~ type_is ts x "static_library" /\ In x orig)).
  Proof.
    intros orig ds; induction ds as [|d ds IH]; intros Hi Hnd; cbn [drop_soft].
    - exists []. split; [reflexivity|]. split; [constructor|]. intros x. simpl. tauto.
    - destruct (IH (fun x Hx => Hi x (or_intror Hx))) as [kept [E [N K]]]; [inversion Hnd; assumption|].
      destruct (lookup ts Ht d (Hi d (or_introl eq_refl))) as [s [ty [Es [_ Ety]]]]. rewrite Es, Ety.
      assert (Htyp := type_is_eq ts Hd d s ty "static_library" Es Ety).
      assert (Hh : hard ts d <-> sp_hard s = true).
      { split.
        - intros [s' [Hs' H]]. apply (In_assoc _ _ _ _ Hd) in Hs'. congruence.
        - intros H. exists s. split; [apply assoc_In; exact Es|exact H]. }
      assert (Hnk : ~ In d kept) by (intros C; apply K in C; inversion Hnd; tauto).
      assert (Hkeep : exists kept', bind (drop_soft ts orig ds) (fun r => Ok (d :: r)) = Ok kept' /\ kept' = d :: kept).
      { rewrite E. exists (d :: kept). split; reflexivity. }
      destruct Hkeep as [kept' [E' Ek]].
      destruct (String.eqb_spec ty "static_library") as [Ety'|Ety']; cbn [negb andb orb].
      + destruct (sp_hard s) eqn:Eh; cbn [negb orb].
        * exists kept'. split; [exact E'|]. subst kept'. split; [constructor; assumption|].
          intros x. simpl. rewrite K. split.
          -- intros [<-|[H1 H2]]; [split; [left; reflexivity|left; split; [apply Htyp; congruence|apply Hh; reflexivity]]|].
             split; [right; exact H1|exact H2].
          -- intros [[<-|H1] H2]; [left; reflexivity|right; split; assumption].
        * exists kept. split; [exact E|]. split; [exact N|]. intros x. rewrite K. simpl. split.
          -- intros [H1 H2]. split; [right; exact H1|exact H2].
          -- intros [[<-|H1] H2]; [|split; assumption]. exfalso.
             destruct H2 as [[_ H2]|[H2 _]]; [apply Hh in H2; discriminate|apply H2; apply Htyp; congruence].
      + destruct (mem_spec d orig) as [Hm|Hm]; cbn [negb].
        * exists kept'. split; [exact E'|]. subst kept'. split; [constructor; assumption|].
          intros x. simpl. rewrite K. split.
          -- intros [<-|[H1 H2]]; [|split; [right; exact H1|exact H2]].
             split; [left; reflexivity|right; split; [rewrite Htyp; congruence|exact Hm]].
          -- intros [[<-|H1] H2]; [left; reflexivity|right; split; assumption].
        * exists kept. split; [exact E|]. split; [exact N|]. intros x. rewrite K. simpl. split.
          -- intros [H1 H2]. split; [right; exact H1|exact H2].
          -- intros [[<-|H1] H2]; [|split; assumption]. exfalso.
             destruct H2 as [[H2 _]|[_ H2]]; [apply Htyp in H2; congruence|contradiction].
  Qed.

  Lemma add_link_spec : forall t lds cur,
    let add := add_link_dependencies t lds cur in
    let l0 := match cur with Some l => l | None => [] end in
    let l1 := match add with Some l => l | None => [] end in
    exists added, l1 = l0 ++ added /\ NoDup added /\ (forall x, In x added -> ~ In x l0) /\
      forall x, In x l1 <-> In x l0 \/ (x <> t /\ In x lds).
  Proof.
    intros t lds; induction lds as [|d lds IH]; intros cur; cbn zeta; cbn [add_link_dependencies fold_left].
    - exists []. rewrite app_nil_r. split; [reflexivity|]. split; [constructor|]. split; [intros x []|].
      intros x. simpl. tauto.
    - unfold add_link_dependencies in *. cbn [fold_left]. destruct (String.eqb_spec d t) as [->|Hn].
      + destruct (IH cur) as [added [H1 [H2 [H3 H4]]]]. exists added. repeat split; try assumption.
        * intros Hx. apply H4 in Hx. simpl. tauto.
        * intros Hx. apply H4. simpl in Hx. intuition congruence.
      + set (l0 := match cur with Some l => l | None => [] end).
        destruct (IH (Some (oset_add d l0))) as [added [H1 [H2 [H3 H4]]]].
        unfold oset_add in *. destruct (mem_spec d l0) as [Hm|Hm].
        * exists added. repeat split; try assumption.
          -- intros Hx. apply H4 in Hx. simpl. tauto.
          -- intros Hx. apply H4. simpl in Hx. destruct Hx as [Hx|[Hx [<-|Hy]]]; [left; exact Hx|left; exact Hm|right; split; assumption].
        * exists (d :: added). split; [rewrite H1, <- app_assoc; reflexivity|]. split.
          { constructor; [|exact H2]. intros C. apply (H3 d C). apply in_or_app. right. left. reflexivity. }
          split.
          { intros x [<-|Hx]; [exact Hm|]. intros C. apply (H3 x Hx). apply in_or_app. left. exact C. }
          intros x. rewrite H4. rewrite in_app_iff. simpl. split.
          -- intros [[H|[<-|[]]]|[H H']]; [left; exact H|right; split; [exact Hn|left; reflexivity]|right; split; [exact H|right; exact H']].
          -- intros [H|[H [<-|H']]]; [left; left; exact H|left; right; left; reflexivity|right; split; assumption].
  Qed.

  Lemma deps_list_depends : forall t s x, assoc t ts = Some s -> (In x (deps_list s) <-> depends_on ts t x).
  Proof.
    intros t s x Es. rewrite <- (node_dependencies_In ts t x Hd). unfold node_dependencies. rewrite Es. reflexivity.
  Qed.

  Lemma adjust_one : forall ts1 t s, agree ts ts1 -> names ts1 = names ts ->
    assoc t ts = Some s -> assoc t ts1 = Some s ->
    exists s', adjust_target flat links sorted ts1 t = Ok (update t s' ts1) /\ adjusted ts flat sorted t s s'
               \/ adjust_target flat links sorted ts1 t = Ok ts1 /\ s' = s /\ adjusted ts flat sorted t s s.
  Proof.
    intros ts1 t s Ha Hn Es Es1.
    assert (HtU : In t (names ts)) by (apply (in_map fst) in Es || (apply assoc_In in Es; apply (in_map fst) in Es); exact Es).
    destruct (lookup ts Ht t HtU) as [s0 [ty [Es0 [_ Ety]]]]. assert (s0 = s) by congruence; subst s0.
    unfold adjust_target. rewrite Es1, Ety.
    assert (Htyp := fun ty' => type_is_eq ts Hd t s ty ty' Es Ety).
    assert (Hlk := linkable_bool ts Hd t s ty Es Ety).
    destruct (String.eqb_spec ty "static_library") as [Est|Est].
    - assert (Hnl : ~ linkable ts t) by (rewrite Hlk; subst ty; discriminate).
      destruct (sp_deps s) as [orig|] eqn:Edeps.
      + rewrite (imported_agree ts ts1 links t Ha).
        destruct (direct_and_imported_spec ts t Hd Hc Hex HtU) as [l [El [Nl [Il _]]]]. fold links in El. rewrite El. cbn [bind].
        rewrite (drop_soft_agree ts ts1 orig l Ha).
        destruct (drop_soft_spec orig l) as [kept [Ek [Nk Ik]]]; [|exact Nl|].
        { intros x Hx. apply Il in Hx. destruct Hx as [d [Hd1 Hr]]. apply clos_rt_rtn1 in Hr.
          inversion Hr as [|y z Hy _]; subst; [apply (Hc t x Hd1)|apply (Hex y x Hy)]. }
        rewrite Ek. cbn [bind].
        set (s' := set_deps (set_deps_original s (Some orig)) (match kept with [] => None | _ => Some kept end)).
        exists s'. left. split; [reflexivity|].
        assert (Edl : deps_list s' = kept) by (unfold deps_list, s'; cbn; destruct kept; reflexivity).
        split; [repeat split|]. split; [|split].
        * intros _. rewrite Edeps. split; [reflexivity|]. split; [unfold s'; cbn; destruct kept; discriminate|].
          rewrite Edl. split; [exact Nk|]. intros x. rewrite Ik, Il. unfold imported_by. split; [|].
          -- intros [H1 [[H2 H3]|[H2 H3]]]; [left; tauto|right; tauto].
          -- intros [[H1 [H2 H3]]|[H1 H2]]; [split; [exact H1|left; split; assumption]|].
             split; [|right; split; assumption]. exists x. split; [|apply rt_refl].
             apply (deps_list_depends t s x Es). unfold deps_list. rewrite Edeps. exact H1.
        * intros C; contradiction.
        * intros C; exfalso; apply C; apply Htyp; congruence.
      + exists s. right. split; [reflexivity|]. split; [reflexivity|].
        split; [apply same_but_refl|]. split; [intros _; rewrite Edeps; reflexivity|].
        split; [intros C; contradiction|reflexivity].
    - assert (Hns : ~ type_is ts t "static_library") by (rewrite Htyp; congruence).
      destruct (mem ty linkable_types) eqn:El.
      + assert (Hl : linkable ts t) by (apply Hlk; reflexivity).
        unfold dependencies_to_link_against. unfold link_fuel. rewrite (proj1 Ha).
        rewrite (link_agree ts ts1 links true Ha).
        destruct (proj2 (link_initial ts true Hd Hc Ht t HtU) Hl) as [r [E [N I]]]. unfold link_fuel in E. fold links in E.
        rewrite E. cbn [bind].
        destruct (add_link_spec t (t :: r) (sp_deps s)) as [added [A1 [A2 [A3 A4]]]].
        set (ds := add_link_dependencies t (t :: r) (sp_deps s)) in *. cbn zeta in *.
        set (ds' := if sorted then option_map (fun l => filter (fun d => mem d l) (rev flat)) ds else ds).
        exists (set_deps s ds'). left. split; [reflexivity|]. split; [repeat split|].
        split; [intros C; contradiction|]. split; [|intros _ C; contradiction].
        intros _. split; [reflexivity|].
        assert (Hset : forall x, In x (match ds with Some l => l | None => [] end) <->
                                 In x (deps_list s) \/ (x <> t /\ linked_into ts true t x)).
        { intros x. rewrite A4. unfold deps_list. rewrite I. split.
          - intros [H|[H1 [H2|H2]]]; [left; exact H|contradiction|right; split; assumption].
          - intros [H|[H1 H2]]; [left; exact H|right; split; [exact H1|right; exact H2]]. }
        assert (HinU : forall x, In x (match ds with Some l => l | None => [] end) -> In x flat).
        { intros x Hx. apply Hset in Hx. apply (Permutation_in _ (Permutation_sym Hflat)). destruct Hx as [Hx|[_ Hx]].
          - apply (Hc t). apply (deps_list_depends t s x Es). exact Hx.
          - inversion Hx as [y H1 H2|y z H1 H2 H3 H4]; subst; [apply (Hc t x H1)|apply (Hc y x H3)]. }
        unfold deps_list at 1 3. cbn [sp_deps set_deps]. unfold ds'. destruct sorted.
        * split.
          -- intros x. rewrite <- Hset. destruct ds as [l|]; cbn [option_map]; [|tauto].
             rewrite filter_In, <- in_rev, mem_In. split; [tauto|]. intros Hx. split; [apply HinU|]; exact Hx.
          -- unfold deps_list. cbn [sp_deps set_deps]. destruct ds as [l|]; cbn [option_map]; [apply sublist_filter|apply sublist_nil].
        * split; [exact Hset|]. exists added. split; [exact A1|]. split; [exact A2|exact A3].
      + exists s. right. split; [reflexivity|]. split; [reflexivity|]. split; [apply same_but_refl|].
        split; [intros C; contradiction|]. split; [|reflexivity].
        intros C; apply Hlk in C; discriminate.
  Qed.

  Lemma agree_update : forall ts1 t s s', agree ts ts1 -> names ts1 = names ts -> assoc t ts = Some s ->
    same_but_dependencies s s' -> agree ts (update t s' ts1).
  Proof.
    intros ts1 t s s' Ha Hn Es Hs.
    assert (HtU : In t (names ts1)).
    { rewrite Hn. apply assoc_In in Es. apply (in_map fst) in Es. exact Es. }
    split.
    - rewrite <- length_names, names_update, length_names. apply (proj1 Ha).
    - intros x. rewrite (assoc_update t s' ts1 x HtU). destruct (String.eqb_spec x t) as [->|Hx]; [rewrite Es; exact Hs|apply (proj2 Ha)].
  Qed.

  Lemma adjust_loop : forall p ts1, agree ts ts1 -> names ts1 = names ts -> NoDup p -> incl p (names ts) ->
    (forall t, In t p -> assoc t ts1 = assoc t ts) ->
    exists ts', ofold (adjust_target flat links sorted) p ts1 = Ok ts' /\ names ts' = names ts /\
      (forall t, ~ In t p -> assoc t ts' = assoc t ts1) /\
      (forall t s, In t p -> assoc t ts = Some s -> exists s', assoc t ts' = Some s' /\ adjusted ts flat sorted t s s').
  Proof.
    induction p as [|t p IH]; intros ts1 Ha Hn Hnd Hi Hsame; cbn [ofold].
    - exists ts1. split; [reflexivity|]. split; [exact Hn|]. split; [reflexivity|intros t s []].
    - inversion Hnd as [|t0 p0 Htp Hnd']; subst t0 p0.
      destruct (assoc_Some_key _ t ts (Hi t (or_introl eq_refl))) as [s Es].
      assert (Es1 : assoc t ts1 = Some s) by (rewrite (Hsame t (or_introl eq_refl)); exact Es).
      assert (HtU : In t (names ts1)) by (rewrite Hn; apply Hi; left; reflexivity).
      destruct (adjust_one ts1 t s Ha Hn Es Es1) as [s' [[E Hadj]|[E [-> Hadj]]]]; rewrite E; cbn [bind].
      + destruct (IH (update t s' ts1)) as [ts' [E' [N' [O' A']]]].
        * apply (agree_update ts1 t s s'); try assumption. apply Hadj.
        * rewrite names_update. exact Hn.
        * exact Hnd'.
        * intros x Hx. apply Hi. right. exact Hx.
        * intros x Hx. rewrite (assoc_update t s' ts1 x HtU). destruct (String.eqb_spec x t) as [->|]; [contradiction|].
          apply Hsame. right. exact Hx.
        * exists ts'. split; [exact E'|]. split; [exact N'|]. split.
          -- intros x Hx. rewrite O'; [|intros C; apply Hx; right; exact C]. rewrite (assoc_update t s' ts1 x HtU).
             destruct (String.eqb_spec x t) as [->|]; [exfalso; apply Hx; left; reflexivity|reflexivity].
          -- intros x sx [<-|Hx] Esx; [|apply A'; assumption]. assert (sx = s) by congruence. subst sx.
             exists s'. split; [|exact Hadj]. rewrite (O' t Htp). rewrite (assoc_update t s' ts1 t HtU), String.eqb_refl. reflexivity.
      + destruct (IH ts1) as [ts' [E' [N' [O' A']]]]; try assumption.
        * intros x Hx. apply Hi. right. exact Hx.
        * intros x Hx. apply Hsame. right. exact Hx.
        * exists ts'. split; [exact E'|]. split; [exact N'|]. split.
          -- intros x Hx. apply O'. intros C; apply Hx; right; exact C.
          -- intros x sx [<-|Hx] Esx; [|apply A'; assumption]. assert (sx = s) by congruence. subst sx.
             exists s. split; [|exact Hadj]. rewrite (O' t Htp). exact Es1.
  Qed.

  Lemma adjust_spec :
    exists ts', adjust_static_library_dependencies flat links sorted ts = Ok ts' /\
      names ts' = names ts /\
      forall t s, In (t, s) ts -> exists s', In (t, s') ts' /\ adjusted ts flat sorted t s s'.
  Proof.
    destruct (adjust_loop flat ts (agree_refl ts) eq_refl) as [ts' [E [N [_ A]]]].
    - eapply Permutation_NoDup; [symmetry; exact Hflat|exact Hd].
    - intros x Hx. apply (Permutation_in _ Hflat). exact Hx.
    - reflexivity.
    - exists ts'. split; [exact E|]. split; [exact N|]. intros t s Hin.
      assert (HtU : In t (names ts)) by (apply (in_map fst) in Hin; exact Hin).
      destruct (A t s) as [s' [H1 H2]].
      + apply (Permutation_in _ (Permutation_sym Hflat)). exact HtU.
      + apply (In_assoc _ _ _ _ Hd). exact Hin.
      + exists s'. split; [apply assoc_In; exact H1|exact H2].
  Qed.
End Adjust.
