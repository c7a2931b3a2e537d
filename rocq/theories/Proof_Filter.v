(** Proofs about list filters. *)
From Verif Require Import LibFacts StrFacts Model_Value Model_Filter Spec_Merge Spec_Filter Proof_Merge2.
Local Open Scope string_scope.

Lemma rbind_Val : forall A B (r : result A) (f : A -> result B) b, rbind r f = Val b -> exists a, r = Val a /\ f a = Val b.
Proof. intros A B [a|e] f b H; [eauto|discriminate]. Qed.

Lemma assoc_del_same : forall B k (d : list (string * B)), assoc k (del_key k d) = None.
Proof.
  intros B k d. apply assoc_None. intros H. apply in_map_iff in H. destruct H as ([k' v] & E & Hin). cbn in E. subst.
  apply filter_In in Hin. destruct Hin as [_ Hin]. cbn in Hin. rewrite String.eqb_refl in Hin. discriminate.
Qed.
Lemma assoc_del_other : forall B k b (d : list (string * B)), k <> b -> assoc b (del_key k d) = assoc b d.
Proof.
  intros B k b d n. unfold del_key. induction d as [|[k' v] d IH]; [reflexivity|]. cbn [filter fst].
  destruct (String.eqb_spec k k') as [<-|n']; cbn [negb assoc].
  - destruct (String.eqb_spec b k); [congruence|exact IH].
  - rewrite IH. reflexivity.
Qed.
Lemma has_key_spec : forall B k (d : list (string * B)), has_key k d = true <-> assoc k d <> None.
Proof.
  intros B k d. unfold has_key. rewrite mem_In. rewrite assoc_None.
  destruct (in_dec string_dec k (map fst d)); split; tauto.
Qed.

Lemma Forall2_len : forall A B (R : A -> B -> Prop) l l', Forall2 R l l' -> length l = length l'.
Proof. intros A B R l l' F. induction F; cbn; congruence. Qed.

Section P.
  Variable eqv : value -> value -> bool.
  Variable compiles : string -> bool.
  Variable search : string -> string -> bool.
  Notation collect := (Model_Filter.collect).
  Notation mark := (Model_Filter.mark eqv).
  Notation regex_action := (Model_Filter.regex_action compiles).
  Notation apply_regex := (Model_Filter.apply_regex search).
  Notation filter_list := (Model_Filter.filter_list eqv compiles search).
  Notation filter_dict := (Model_Filter.filter_dict eqv compiles search).
  Notation filter_value := (Model_Filter.filter_value eqv compiles search).

  (** ** Actions *)

  (** What an action code says about the item, given the names and the filters so far. *)
  Definition act_ok (ex : list value) (filters : list (string * string)) (x : value) (a : Z) : Prop :=
    (a = 0%Z <-> excluded search (exists e, In e ex /\ eqv e x = true) filters x).

  Lemma mark_ok : forall items e ex acts, Forall2 (act_ok ex []) items acts -> Forall2 (act_ok (ex ++ [e])%list []) items (mark e items acts).
  Proof.
    induction items as [|x items IH]; intros e ex acts F; inversion F as [|? a ? acts' Ha F']; subst; cbn [Model_Filter.mark]; constructor; [|auto].
    unfold act_ok, excluded in *.
    destruct (eqv e x) eqn:E.
    - split; [|reflexivity]. intros _. right. split; [|intros a0 q []]. exists e. split; [apply in_app_iff; right; left; reflexivity|exact E].
    - rewrite Ha. split.
      + intros [(b & p & af & E1 & _)|[(e0 & Hin & He) H]]; [destruct b; discriminate|]. right. split; [|exact H].
        exists e0. split; [apply in_app_iff; left; exact Hin|exact He].
      + intros [(b & p & af & E1 & _)|[(e0 & Hin & He) H]]; [destruct b; discriminate|]. right. split; [|exact H].
        exists e0. split; [|exact He]. apply in_app_iff in Hin. destruct Hin as [Hin|[<-|[]]]; [exact Hin|congruence].
  Qed.
  Lemma marks_ok : forall items ex2 ex acts, Forall2 (act_ok ex []) items acts ->
    Forall2 (act_ok (ex ++ ex2)%list []) items (fold_left (fun acts e => mark e items acts) ex2 acts).
  Proof.
    intros items. induction ex2 as [|e ex2 IH]; intros ex acts F; [rewrite app_nil_r; exact F|].
    cbn [fold_left]. specialize (IH (ex ++ [e])%list (mark e items acts) (mark_ok _ _ _ _ F)). rewrite <- app_assoc in IH. exact IH.
  Qed.
  Lemma init_ok : forall items, Forall2 (act_ok [] []) items (repeat (-1)%Z (length items)).
  Proof.
    induction items as [|x items IH]; [constructor|]. cbn. constructor; [|exact IH].
    unfold act_ok, excluded. split; [discriminate|]. intros [(b & p & af & E1 & _)|[(e0 & [] & _) _]]. destruct b; discriminate.
  Qed.

  (** One more filter at the end. *)
  Lemma excluded_snoc : forall named filters a p x, a = "exclude" \/ a = "include" ->
    (excluded search named (filters ++ [(a, p)])%list x <->
     (matches search p x /\ a = "exclude") \/ (~ matches search p x /\ excluded search named filters x)).
  Proof.
    intros named filters a p x Ha. unfold excluded.
    assert (D : matches search p x \/ ~ matches search p x).
    { destruct x as [s| | | |]; try (right; intros (s' & E & _); discriminate).
      destruct (search p s) eqn:E; [left; exists s; auto|right]. intros (s' & E1 & E2). inversion E1. congruence. }
    split.
    - intros [(b & q & af & E & M & H)|[N H]].
      + destruct D as [D|D].
        * left. split; [exact D|]. destruct (exists_last (l := (("exclude", q) :: af)%list)) as (l' & y & Ey); [discriminate|].
          rewrite Ey, app_assoc in E. apply app_inj_tail in E. destruct E as [_ <-].
          destruct l' as [|z l']; cbn in Ey; inversion Ey; [reflexivity|]. subst.
          apply (H a p); [apply in_app_iff; right; left; reflexivity|exact D].
        * right. split; [exact D|]. left. destruct af as [|af0 af] using rev_ind.
          -- apply app_inj_tail in E. destruct E as [_ E]. inversion E; subst. contradiction.
          -- clear IHaf. rewrite app_comm_cons, app_assoc in E. apply app_inj_tail in E. destruct E as [E _].
             exists b, q, af. split; [exact E|]. split; [exact M|]. intros a1 q1 Hin. apply H. apply in_app_iff. left. exact Hin.
      + destruct D as [D|D].
        * left. split; [exact D|]. apply (H a p); [apply in_app_iff; right; left; reflexivity|exact D].
        * right. split; [exact D|]. right. split; [exact N|]. intros a1 q1 Hin. apply H. apply in_app_iff. left. exact Hin.
    - intros [[M ->]|[M [(b & q & af & E & M2 & H)|[N H]]]].
      + left. exists filters, p, []. split; [reflexivity|]. split; [exact M|]. intros a0 q [].
      + left. exists b, q, (af ++ [(a, p)])%list. split; [rewrite E, <- app_assoc; reflexivity|]. split; [exact M2|].
        intros a1 q1 Hin Hm. apply in_app_iff in Hin. destruct Hin as [Hin|[e|[]]]; [apply (H a1 q1); assumption|]. inversion e; subst. contradiction.
      + right. split; [exact N|]. intros a1 q1 Hin Hm. apply in_app_iff in Hin. destruct Hin as [Hin|[e|[]]]; [apply (H a1 q1); assumption|]. inversion e; subst. contradiction.
  Qed.

  Lemma matches_VStr : forall p s, matches search p (VStr s) <-> search p s = true.
  Proof. intros p s. split; [intros (s' & E & H); inversion E; exact H|intros H; exists s; auto]. Qed.

  Lemma apply_regex_ok : forall a av p items ex filters acts acts', (a = "exclude" /\ av = 0%Z) \/ (a = "include" /\ av = 1%Z) ->
    Forall2 (act_ok ex filters) items acts -> apply_regex av p items acts = Val acts' ->
    Forall2 (act_ok ex (filters ++ [(a, p)])%list) items acts'.
  Proof.
    intros a av p items ex filters acts acts' Ha F. revert acts'.
    assert (Ha' : a = "exclude" \/ a = "include") by (destruct Ha as [[? _]|[? _]]; auto).
    induction F as [|x a0 items acts Hx F IH]; intros acts' H; cbn [Model_Filter.apply_regex] in H.
    - inversion H. constructor.
    - apply rbind_Val in H. destruct H as (a1 & H1 & H). apply rbind_Val in H. destruct H as (r & H2 & H). inversion H; subst acts'.
      constructor; [|apply IH; exact H2]. unfold act_ok in *. rewrite (excluded_snoc _ filters a p x Ha').
      destruct (Z.eqb_spec a0 av) as [->|n].
      + inversion H1; subst a1. rewrite Hx. destruct Ha as [[-> ->]|[-> ->]].
        * assert (E : excluded search (exists e, In e ex /\ eqv e x = true) filters x) by (apply Hx; reflexivity).
          split; [|intros _; exact E]. intros _. destruct x as [s| | | |]; try (right; split; [intros (s' & E1 & _); discriminate|exact E]).
          destruct (search p s) eqn:Es; [left; split; [apply matches_VStr; exact Es|reflexivity]|right; split; [rewrite matches_VStr; congruence|exact E]].
        * split; [intros E; exfalso; apply Hx in E; discriminate|]. intros [[_ E]|[_ E]]; [discriminate|exact E].
      + destruct x as [s| | | |]; try discriminate. inversion H1; subst a1. rewrite matches_VStr.
        destruct (search p s); [|rewrite Hx].
        * destruct Ha as [[-> ->]|[-> ->]]; [split; [auto|reflexivity]|]. split; [discriminate|]. intros [[_ E]|[E _]]; [discriminate|]. exfalso; apply E; reflexivity.
        * split; [intros E; right; split; [discriminate|exact E]|]. intros [[E _]|[_ E]]; [discriminate|exact E].
  Qed.

  Lemma regex_action_ok : forall item av p, regex_action item = Val (av, p) ->
    exists a, filter_pair item (a, p) /\ ((a = "exclude" /\ av = 0%Z) \/ (a = "include" /\ av = 1%Z)).
  Proof.
    intros item av p H. unfold Model_Filter.regex_action in H. apply rbind_Val in H. destruct H as ([x y] & U & H).
    destruct x as [a| | | |], y as [q| | | |]; try discriminate.
    destruct (compiles q); [|discriminate]. exists a.
    assert (FP : filter_pair item (a, q)).
    { unfold unpack_pair in U. destruct item as [| |l|d|]; try discriminate.
      - destruct l as [|u [|v [|]]]; try discriminate. inversion U; subst. left. reflexivity.
      - destruct d as [|[k1 v1] [|[k2 v2] [|]]]; try discriminate. inversion U; subst. right. exists v1, v2. reflexivity. }
    destruct (String.eqb_spec a "exclude") as [->|n1]; [inversion H; subst; auto|].
    destruct (String.eqb_spec a "include") as [->|n2]; [inversion H; subst; auto|discriminate].
  Qed.

  Lemma regexes_ok : forall items rx ex filters acts acts', Forall2 (act_ok ex filters) items acts ->
    rfold (fun acts item => rbind (regex_action item) (fun ap => apply_regex (fst ap) (snd ap) items acts)) rx acts = Val acts' ->
    exists more, Forall2 filter_pair rx more /\ Forall2 (act_ok ex (filters ++ more)%list) items acts'.
  Proof.
    intros items. induction rx as [|item rx IH]; intros ex filters acts acts' F H; cbn [rfold] in H.
    - inversion H; subst. exists []. rewrite app_nil_r. split; [constructor|exact F].
    - apply rbind_Val in H. destruct H as (acts1 & H1 & H). apply rbind_Val in H1. destruct H1 as ([av p] & R & A). cbn [fst snd] in A.
      apply regex_action_ok in R. destruct R as (a & FP & Ha).
      pose proof (apply_regex_ok a av p items ex filters acts acts1 Ha F A) as F1.
      destruct (IH _ _ _ _ F1 H) as (more & FM & F2). exists ((a, p) :: more). split; [constructor; assumption|].
      rewrite <- app_assoc in F2. exact F2.
  Qed.

  (** ** Splitting *)
  Lemma delete_nth_app : forall l x r, delete_nth (length l) (l ++ x :: r)%list = (l ++ r)%list.
  Proof. induction l as [|y l IH]; intros x r; [reflexivity|]. cbn. rewrite IH. reflexivity. Qed.

  Lemma splits_snoc_in : forall (P : value -> Prop) items e k y, splits P items e k -> P y ->
    splits P (items ++ [y])%list (e ++ [y])%list k.
  Proof.
    intros P items e k y S Hy. induction S; cbn; [apply splits_in; [auto|constructor] | apply splits_in; auto | apply splits_out; auto].
  Qed.
  Lemma splits_snoc_out : forall (P : value -> Prop) items e k y, splits P items e k -> ~ P y ->
    splits P (items ++ [y])%list e (k ++ [y])%list.
  Proof.
    intros P items e k y S Hy. induction S; cbn; [apply splits_out; [auto|constructor] | apply splits_in; auto | apply splits_out; auto].
  Qed.

  Lemma split_loop_ok : forall (P : value -> Prop) items acts kept ex, Forall2 (fun x a => a = 0%Z <-> P x) items acts ->
    forall acts2, exists k e, split_loop (length items) (acts ++ acts2)%list (items ++ kept)%list ex = ((k ++ kept)%list, (e ++ ex)%list) /\ splits P items e k.
  Proof.
    intros P items. induction items as [|x items IH] using rev_ind; intros acts kept ex F acts2.
    - exists [], []. split; [reflexivity|constructor].
    - apply Forall2_app_inv_l in F. destruct F as (acts' & la & F & Fl & ->). inversion Fl as [|? a ? ? Ha Fn]; subst. inversion Fn; subst.
      assert (La : length items = length acts') by (eapply Forall2_len; exact F).
      assert (LEN : length (items ++ [x]) = S (length items)) by (rewrite app_length; cbn; lia).
      assert (NTH : nth (length items) ((acts' ++ [a]) ++ acts2) 1%Z = a).
      { rewrite <- app_assoc, La, app_nth2 by lia. rewrite Nat.sub_diag. reflexivity. }
      assert (NE : nth_error ((items ++ [x]) ++ kept) (length items) = Some x).
      { rewrite <- app_assoc, nth_error_app2 by lia. rewrite Nat.sub_diag. reflexivity. }
      rewrite LEN. cbn [split_loop]. rewrite NTH, NE. destruct (Z.eqb_spec a 0) as [->|n].
      + rewrite <- !app_assoc. cbn [app]. rewrite delete_nth_app.
        destruct (IH acts' kept (x :: ex) F (0%Z :: acts2)) as (k & e & E & S). exists k, (e ++ [x])%list. split.
        * rewrite E. rewrite <- app_assoc. reflexivity.
        * apply splits_snoc_in; [exact S|apply Ha; reflexivity].
      + rewrite <- !app_assoc. cbn [app].
        destruct (IH acts' (x :: kept) ex F (a :: acts2)) as (k & e & E & S). exists (k ++ [x])%list, e. split.
        * rewrite E. rewrite <- app_assoc. reflexivity.
        * apply splits_snoc_out; [exact S|intros Hp; apply n; apply Ha; exact Hp].
  Qed.

  (** ** One list *)
  Definition exclusions (o : option value) (ex : list value) : Prop :=
    (o = None /\ ex = []) \/ o = Some (VList ex).
  Definition list_outcome (d : dict) (b : string) (l kept excl : list value) : Prop :=
    exists ex filters, exclusions (assoc (b ++ "!") d) ex /\ filter_pairs (assoc (b ++ "/") d) filters /\
      splits (fun x => excluded search (exists e, In e ex /\ eqv e x = true) filters x) l excl kept.
  Definition excluded_value (excl : list value) : option value :=
    match excl with [] => None | _ => Some (VList excl) end.

  Lemma suffix_ne : forall b s, s <> "" -> b <> b ++ s.
  Proof. intros b s Hs E. apply Hs. apply (append_inj_l b). rewrite append_nil_r. symmetry. exact E. Qed.
  Lemma bang_slash : forall b, b ++ "!" <> b ++ "/".
  Proof. intros b E. apply append_inj_l in E. discriminate. Qed.
  Lemma bang_excl : forall b c, b ++ "!" <> c ++ "_excluded".
  Proof. intros b c E. change "_excluded" with ("_exclude" ++ "d") in E. rewrite <- append_assoc in E. apply snoc_inj in E. destruct E; discriminate. Qed.
  Lemma slash_excl : forall b c, b ++ "/" <> c ++ "_excluded".
  Proof. intros b c E. change "_excluded" with ("_exclude" ++ "d") in E. rewrite <- append_assoc in E. apply snoc_inj in E. destruct E; discriminate. Qed.

  Lemma filter_list_ok : forall d b d', filter_list d b = Val d' ->
    exists l kept excl, assoc b d = Some (VList l) /\ list_outcome d b l kept excl /\ assoc (b ++ "_excluded") d = None /\
      assoc b d' = Some (VList kept) /\ assoc (b ++ "!") d' = None /\ assoc (b ++ "/") d' = None /\
      assoc (b ++ "_excluded") d' = excluded_value excl /\
      (forall k, k <> b -> k <> b ++ "!" -> k <> b ++ "/" -> k <> b ++ "_excluded" -> assoc k d' = assoc k d).
  Proof.
    intros d b d' H. unfold Model_Filter.filter_list in H.
    destruct (assoc b d) as [v|] eqn:EB; [|discriminate]. destruct v as [| |l| |]; try discriminate.
    apply rbind_Val in H. destruct H as ([acts1 d1] & H1 & H). apply rbind_Val in H. destruct H as ([acts2 d2] & H2 & H). cbn [fst snd] in *.
    pose proof (suffix_ne b "!" ltac:(discriminate)) as N1. pose proof (suffix_ne b "/" ltac:(discriminate)) as N2.
    pose proof (suffix_ne b "_excluded" ltac:(discriminate)) as N3. pose proof (bang_slash b) as N4.
    pose proof (bang_excl b b) as N5. pose proof (slash_excl b b) as N6.
    assert (X1 : exists ex, exclusions (assoc (b ++ "!") d) ex /\ Forall2 (act_ok ex []) l acts1 /\ assoc (b ++ "!") d1 = None /\
                 forall k, k <> b ++ "!" -> assoc k d1 = assoc k d).
    { destruct (assoc (b ++ "!") d) as [v|] eqn:E1.
      - destruct v as [| |ex| |]; try discriminate. inversion H1; subst. exists ex. split; [right; reflexivity|].
        split; [apply (marks_ok l ex [] _ (init_ok l))|]. split; [apply assoc_del_same|]. intros k Hk. apply assoc_del_other. auto.
      - inversion H1; subst. exists []. split; [left; auto|]. split; [apply init_ok|]. split; [exact E1|auto]. }
    destruct X1 as (ex & Hex & F1 & A1 & O1).
    assert (X2 : exists filters, filter_pairs (assoc (b ++ "/") d) filters /\ Forall2 (act_ok ex filters) l acts2 /\ assoc (b ++ "/") d2 = None /\
                 forall k, k <> b ++ "/" -> assoc k d2 = assoc k d1).
    { rewrite <- (O1 (b ++ "/")) by congruence.
      destruct (assoc (b ++ "/") d1) as [v|] eqn:E2.
      - destruct v as [| |rx| |]; try discriminate. apply rbind_Val in H2. destruct H2 as (a2 & R & H2). inversion H2; subst.
        destruct (regexes_ok l rx ex [] acts1 acts2 F1 R) as (more & FM & F2). exists more. split; [right; eauto|].
        split; [exact F2|]. split; [apply assoc_del_same|]. intros k Hk. apply assoc_del_other. auto.
      - inversion H2; subst. exists []. split; [left; auto|]. split; [exact F1|]. split; [exact E2|auto]. }
    destruct X2 as (filters & Hf & F2 & A2 & O2).
    destruct (has_key (b ++ "_excluded") d2) eqn:EH; [discriminate|].
    assert (A3 : assoc (b ++ "_excluded") d2 = None).
    { destruct (assoc (b ++ "_excluded") d2) eqn:E; [|reflexivity]. exfalso.
      assert (has_key (b ++ "_excluded") d2 = true) by (apply has_key_spec; congruence). congruence. }
    destruct (split_loop_ok (fun x => excluded search (exists e, In e ex /\ eqv e x = true) filters x) l acts2 [] [] F2 []) as (k & e & E & S).
    rewrite !app_nil_r in E. assert (L : length acts2 = length l) by (symmetry; eapply Forall2_len; exact F2).
    rewrite L, E in H.
    exists l, k, e. split; [reflexivity|]. split; [exists ex, filters; auto|].
    split; [rewrite <- (O1 (b ++ "_excluded")), <- (O2 (b ++ "_excluded")) by congruence; exact A3|].
    assert (G : forall q, q <> b ++ "_excluded" -> assoc q d' = assoc q (set_key b (VList k) d2)).
    { intros q Hq. inversion H. destruct e; [reflexivity|]. apply assoc_set_other. auto. }
    split; [rewrite G by exact N3; apply assoc_set_same|].
    split; [rewrite G by exact N5; rewrite assoc_set_other by exact N1; rewrite O2 by exact N4; exact A1|].
    split; [rewrite G by exact N6; rewrite assoc_set_other by exact N2; exact A2|].
    split.
    - inversion H. destruct e as [|y e]; [rewrite assoc_set_other by exact N3; exact A3|apply assoc_set_same].
    - intros q Q1 Q2 Q3 Q4. rewrite G by exact Q4. rewrite assoc_set_other by auto. rewrite O2 by exact Q3. apply O1. exact Q2.
  Qed.

  (** ** Collecting the lists *)
  Lemma collect_spec : forall d es st st', rfold (collect d) es st = Val st' ->
    (forall b, In b (fst st') <-> In b (fst st) \/ (exists s v, In s ["!"; "/"] /\ In (b ++ s, v) es /\ assoc b d <> None)) /\
    (forall k, In k (snd st') <-> In k (snd st) \/ (exists b s v, k = b ++ s /\ In s ["!"; "/"] /\ In (k, v) es /\ assoc b d = None)) /\
    (NoDup (fst st) -> NoDup (fst st')) /\
    (forall b s v, In s ["!"; "/"] -> In (b ++ s, v) es -> exists l, v = VList l) /\
    (forall b s v, In s ["!"; "/"] -> In (b ++ s, v) es -> assoc b d = None \/ exists l, assoc b d = Some (VList l)).
  Proof.
    intros d es. induction es as [|[k v] es IH]; intros st st' H; cbn [rfold] in H.
    - inversion H; subst. split; [intros b; split; [auto|intros [Hb|(s & v & _ & [] & _)]; exact Hb]|].
      split; [intros k; split; [auto|intros [Hb|(b & s & v & _ & _ & [] & _)]; exact Hb]|].
      split; [auto|]. split; intros b s v _ [].
    - apply rbind_Val in H. destruct H as (st1 & H1 & H). specialize (IH st1 st' H). destruct IH as (I1 & I2 & I3 & I4 & I5).
      destruct st as [lists dels]. unfold Model_Filter.collect in H1.
      assert (NF : (forall b s, In s ["!"; "/"] -> k <> b ++ s) -> st1 = (lists, dels) -> 
        (forall b, In b (fst st') <-> In b lists \/ (exists s v0, In s ["!"; "/"] /\ In (b ++ s, v0) ((k, v) :: es) /\ assoc b d <> None)) /\
        (forall q, In q (snd st') <-> In q dels \/ (exists b s v0, q = b ++ s /\ In s ["!"; "/"] /\ In (q, v0) ((k, v) :: es) /\ assoc b d = None)) /\
        (NoDup lists -> NoDup (fst st')) /\
        (forall b s v0, In s ["!"; "/"] -> In (b ++ s, v0) ((k, v) :: es) -> exists l, v0 = VList l) /\
        (forall b s v0, In s ["!"; "/"] -> In (b ++ s, v0) ((k, v) :: es) -> assoc b d = None \/ exists l, assoc b d = Some (VList l))).
      { intros HN ->. cbn [fst snd] in *. split; [|split; [|split; [|split]]].
        - intros b. rewrite I1. split; [intros [Hb|(s & v0 & Hs & Hin & Hb)]; [auto|right; exists s, v0; split; [exact Hs|split; [right; exact Hin|exact Hb]]]|].
          intros [Hb|(s & v0 & Hs & [e|Hin] & Hb)]; [auto| |right; eauto]. inversion e. exfalso. eapply HN; eauto.
        - intros q. rewrite I2. split; [intros [Hb|(b & s & v0 & E & Hs & Hin & Hb)]; [auto|right; exists b, s, v0; split; [exact E|split; [exact Hs|split; [right; exact Hin|exact Hb]]]]|].
          intros [Hb|(b & s & v0 & E & Hs & [e|Hin] & Hb)]; [auto| |right; exists b, s, v0; auto]. inversion e; subst. exfalso. eapply HN; eauto.
        - exact I3.
        - intros b s v0 Hs [e|Hin]; [inversion e; exfalso; eapply HN; eauto|eauto].
        - intros b s v0 Hs [e|Hin]; [inversion e; exfalso; eapply HN; eauto|eauto]. }
      destruct (last_char k) as [op|] eqn:EL.
      + pose proof (last_char_Some k op EL) as Hk. destruct (filter_char op) eqn:EF.
        * clear NF. destruct v as [| |l| |]; try discriminate. set (lk := drop_last k) in *. clearbody lk.
          assert (Hop : In (String op "") ["!"; "/"]).
          { unfold filter_char in EF. apply orb_true_iff in EF. destruct EF as [E|E]; apply Ascii.eqb_eq in E; subst; cbn; auto. }
          assert (U : forall b s, In s ["!"; "/"] -> b ++ s = k -> b = lk).
          { intros b s Hs E. rewrite Hk in E. destruct Hs as [<-|[<-|[]]]; apply snoc_inj in E; tauto. }
          assert (L1 : forall b s v0, In s ["!"; "/"] -> In (b ++ s, v0) ((k, VList l) :: es) -> exists l, v0 = VList l).
          { intros b s v0 Hs [e|Hin]; [inversion e; eauto|eauto]. }
          destruct (assoc lk d) as [w|] eqn:ELK.
          -- destruct w as [| |l2| |]; try discriminate. inversion H1; subst st1. cbn [fst snd] in *.
             split; [|split; [|split; [|split]]].
             ++ intros b. rewrite I1.
                assert (M : In b (if mem lk lists then lists else (lists ++ [lk])%list) <-> In b lists \/ b = lk).
                { destruct (mem_spec lk lists) as [Hm|Hm]; [split; [auto|intros [Hb| ->]; assumption]|].
                  rewrite in_app_iff. cbn. split; [intros [Hb|[<-|[]]]; auto|intros [Hb| ->]; auto]. }
                rewrite M. split.
                ** intros [[Hb| ->]|(s & v0 & Hs & Hin & Hb)]; [auto| |right; exists s, v0; split; [exact Hs|split; [right; exact Hin|exact Hb]]].
                   right. exists (String op ""), (VList l). split; [exact Hop|]. split; [left; rewrite <- Hk; reflexivity|congruence].
                ** intros [Hb|(s & v0 & Hs & [e|Hin] & Hb)]; [auto| |right; eauto]. inversion e; subst. left. right. apply (U b s Hs). congruence.
             ++ intros q. rewrite I2. split; [intros [Hb|(b & s & v0 & E & Hs & Hin & Hb)]; [auto|right; exists b, s, v0; split; [exact E|split; [exact Hs|split; [right; exact Hin|exact Hb]]]]|].
                intros [Hb|(b & s & v0 & E & Hs & [e|Hin] & Hb)]; [auto| |right; exists b, s, v0; auto]. inversion e; subst q. 
                assert (b = lk) by (apply (U b s Hs); congruence). congruence.
             ++ intros ND. apply I3. destruct (mem_spec lk lists); [exact ND|apply NoDup_snoc; assumption].
             ++ exact L1.
             ++ intros b s v0 Hs [e|Hin]; [|eauto]. inversion e. right. exists l2. assert (b = lk) by (apply (U b s Hs); congruence). congruence.
          -- inversion H1; subst st1. cbn [fst snd] in *. split; [|split; [|split; [|split]]].
             ++ intros b. rewrite I1. split; [intros [Hb|(s & v0 & Hs & Hin & Hb)]; [auto|right; exists s, v0; split; [exact Hs|split; [right; exact Hin|exact Hb]]]|].
                intros [Hb|(s & v0 & Hs & [e|Hin] & Hb)]; [auto| |right; eauto]. inversion e. assert (b = lk) by (apply (U b s Hs); congruence). congruence.
             ++ intros q. rewrite I2, in_app_iff. cbn [In]. split.
                ** intros [[Hb|[<-|[]]]|(b & s & v0 & E & Hs & Hin & Hb)]; [auto| |right; exists b, s, v0; split; [exact E|split; [exact Hs|split; [right; exact Hin|exact Hb]]]].
                   right. exists lk, (String op ""), (VList l). split; [exact Hk|]. split; [exact Hop|]. split; [left; reflexivity|exact ELK].
                ** intros [Hb|(b & s & v0 & E & Hs & [e|Hin] & Hb)]; [auto| |right; exists b, s, v0; auto]. inversion e; subst. auto.
             ++ exact I3.
             ++ exact L1.
             ++ intros b s v0 Hs [e|Hin]; [|eauto]. inversion e. left. assert (b = lk) by (apply (U b s Hs); congruence). congruence.
        * apply NF; [|inversion H1; reflexivity]. intros b s Hs E. rewrite E in EL. 
          destruct Hs as [<-|[<-|[]]]; rewrite last_char_snoc in EL; inversion EL; subst; discriminate.
      + apply NF; [|inversion H1; reflexivity]. intros b s Hs E. rewrite E in EL. 
        destruct Hs as [<-|[<-|[]]]; rewrite last_char_snoc in EL; discriminate.
  Qed.

  Lemma del_keys_assoc : forall dels (d : dict) k, assoc k (fold_left (fun d k => del_key k d) dels d) = if mem k dels then None else assoc k d.
  Proof.
    induction dels as [|x dels IH]; intros d k; [reflexivity|]. cbn [fold_left]. rewrite IH.
    change (mem k (x :: dels)) with (String.eqb k x || mem k dels).
    destruct (mem k dels); [rewrite orb_true_r; reflexivity|]. rewrite orb_false_r. destruct (String.eqb_spec k x) as [->|n].
    - apply assoc_del_same.
    - apply assoc_del_other. auto.
  Qed.

  (** ** All the lists *)
  Lemma absent_stays : forall lists d d' k, rfold filter_list lists d = Val d' -> assoc k d = None ->
    (forall b, In b lists -> k <> b ++ "_excluded") -> assoc k d' = None.
  Proof.
    induction lists as [|b lists IH]; intros d d' k H Hk HN; cbn [rfold] in H; [inversion H; subst; exact Hk|].
    apply rbind_Val in H. destruct H as (d1 & H1 & H). apply filter_list_ok in H1.
    destruct H1 as (l & kept & excl & E1 & _ & _ & _ & E2 & E3 & _ & O). apply (IH d1 d' k H); [|intros c Hc; apply HN; right; exact Hc].
    destruct (string_dec k (b ++ "!")) as [->|n1]; [exact E2|]. destruct (string_dec k (b ++ "/")) as [->|n2]; [exact E3|].
    rewrite O; auto; [intros ->; congruence|apply HN; left; reflexivity].
  Qed.

  Lemma excluded_inj : forall b c, b ++ "_excluded" = c ++ "_excluded" -> b = c.
  Proof.
    intros b c E. change "_excluded" with ("_exclude" ++ "d") in E. 
    assert (K : forall s b c, b ++ s = c ++ s -> b = c).
    { clear. induction s as [|a s IH]; intros b c E; [rewrite !append_nil_r in E; exact E|].
      assert (E' : (b ++ String a "") ++ s = (c ++ String a "") ++ s) by (rewrite !append_assoc; exact E).
      apply IH in E'. apply snoc_inj in E'. tauto. }
    apply (K ("_exclude" ++ "d")). exact E.
  Qed.

  Lemma lists_loop : forall lists d d', rfold filter_list lists d = Val d' -> NoDup lists ->
    (forall b, In b lists -> ~ is_filter_key b /\ assoc b d <> None) ->
    (forall b, In b lists -> exists l kept excl, assoc b d = Some (VList l) /\ list_outcome d b l kept excl /\
       assoc (b ++ "_excluded") d = None /\ assoc b d' = Some (VList kept) /\ assoc (b ++ "_excluded") d' = excluded_value excl) /\
    (forall k, (forall b, In b lists -> k <> b /\ k <> b ++ "!" /\ k <> b ++ "/" /\ k <> b ++ "_excluded") -> assoc k d' = assoc k d).
  Proof.
    induction lists as [|b lists IH]; intros d d' H ND HP; cbn [rfold] in H.
    - inversion H; subst. split; [intros b []|reflexivity].
    - apply rbind_Val in H. destruct H as (d1 & H1 & H). apply filter_list_ok in H1. inversion ND as [|? ? Hnb ND']; subst.
      destruct H1 as (l & kept & excl & E1 & L & X0 & E2 & E3 & E4 & E5 & O).
      assert (NX : forall c, In c lists -> c <> b /\ c <> b ++ "!" /\ c <> b ++ "/" /\ c <> b ++ "_excluded").
      { intros c Hc. destruct (HP c (or_intror Hc)) as [Fc Pc]. split; [intros ->; contradiction|].
        split; [intros ->; apply Fc; left; exists b; reflexivity|].
        split; [intros ->; apply Fc; right; exists b; reflexivity|]. intros ->. contradiction. }
      assert (SAME : forall c, In c lists -> assoc c d1 = assoc c d).
      { intros c Hc. destruct (NX c Hc) as (? & ? & ? & ?). apply O; assumption. }
      destruct (IH d1 d' H ND') as [I1 I2].
      { intros c Hc. rewrite (SAME c Hc). apply HP. right. exact Hc. }
      destruct (HP b (or_introl eq_refl)) as [Fb Pb].
      assert (BN : forall c s, In s ["!"; "/"] -> b <> c ++ s).
      { intros c s Hs ->. apply Fb. destruct Hs as [<-|[<-|[]]]; [left|right]; exists c; reflexivity. }
      assert (XN : forall c s, In s ["!"; "/"] -> b ++ "_excluded" <> c ++ s).
      { intros c s Hs E. destruct Hs as [<-|[<-|[]]]; symmetry in E; [exact (bang_excl _ _ E)|exact (slash_excl _ _ E)]. }
      split.
      + intros c [<-|Hc].
        * exists l, kept, excl. split; [exact E1|]. split; [exact L|]. split; [exact X0|]. split.
          -- rewrite I2; [exact E2|]. intros c Hc. split; [intros ->; contradiction|]. split; [apply BN; cbn; auto|]. split; [apply BN; cbn; auto|].
             intros ->. destruct (I1 _ Hc) as (lc & kc & xc & Ec & _ & Xc & _). congruence.
          -- rewrite I2; [exact E5|]. intros c Hc. split; [intros e; apply (NX c Hc); auto|]. split; [apply XN; cbn; auto|]. split; [apply XN; cbn; auto|].
             intros E. apply excluded_inj in E. subst. contradiction.
        * destruct (I1 c Hc) as (lc & kc & xc & Ec & Lc & Xc & E6 & E7). rewrite (SAME c Hc) in Ec.
          destruct (HP c (or_intror Hc)) as [Fc Pc]. destruct (NX c Hc) as (n1 & n2 & n3 & n4).
          assert (S1 : forall s, In s ["!"; "/"] -> assoc (c ++ s) d1 = assoc (c ++ s) d).
          { intros s Hs. apply O.
            - intros E. apply (BN c s Hs). auto.
            - intros E. destruct Hs as [<-|[<-|[]]]; apply snoc_inj in E; destruct E as [E E']; [auto|discriminate].
            - intros E. destruct Hs as [<-|[<-|[]]]; apply snoc_inj in E; destruct E as [E E']; [discriminate|auto].
            - intros E. apply (XN c s Hs). auto. }
          exists lc, kc, xc. split; [exact Ec|]. split.
          -- destruct Lc as (ex & filters & Hex & Hf & S). exists ex, filters. rewrite <- !S1 by (cbn; auto). auto.
          -- split; [|auto]. destruct (string_dec (c ++ "_excluded") b) as [E|n]; [|rewrite <- O; [exact Xc|exact n| | |]].
             ++ exfalso. rewrite <- E in E2. congruence.
             ++ intros E. symmetry in E. exact (bang_excl _ _ E).
             ++ intros E. symmetry in E. exact (slash_excl _ _ E).
             ++ intros E. apply excluded_inj in E. auto.
      + intros k Hk. rewrite I2; [apply O; apply (Hk b (or_introl eq_refl))|]. intros c Hc. apply Hk. right. exact Hc.
  Qed.

  (** ** The dict *)
  Theorem filter_dict_lists : forall d d' b, plain_filters d -> filter_dict d = Val d' ->
    (In (b ++ "!") (map fst d) \/ In (b ++ "/") (map fst d)) -> In b (map fst d) ->
    exists l kept excl, assoc b d = Some (VList l) /\ list_outcome d b l kept excl /\
      assoc (b ++ "_excluded") d = None /\ assoc b d' = Some (VList kept) /\ assoc (b ++ "_excluded") d' = excluded_value excl.
  Proof.
    intros d d' b HP H Hf Hb. unfold Model_Filter.filter_dict in H. apply rbind_Val in H. destruct H as ([lists dels] & HC & H).
    apply collect_spec in HC. destruct HC as (C1 & C2 & C3 & C4 & C5). cbn [fst snd] in *.
    assert (Bn : assoc b d <> None) by (intros E; apply assoc_None in E; contradiction).
    assert (DN : forall k, In k dels -> exists c s, k = c ++ s /\ In s ["!"; "/"] /\ assoc c d = None).
    { intros k Hk. apply C2 in Hk. destruct Hk as [[]|(c & s & v & E & Hs & _ & Hc)]. eauto. }
    assert (KEEP : forall k, ~ In k dels -> assoc k (fold_left (fun d k => del_key k d) dels d) = assoc k d).
    { intros k Hk. rewrite del_keys_assoc. apply mem_false in Hk. rewrite Hk. reflexivity. }
    assert (Lk : forall c, In c lists -> ~ is_filter_key c /\ assoc c d <> None /\ ~ In c dels).
    { intros c Hc. apply C1 in Hc. destruct Hc as [[]|(s & v & Hs & Hin & Hc)].
      assert (Fc : ~ is_filter_key c).
      { apply (HP c s Hs). change (c ++ s) with (fst (c ++ s, v)). apply in_map. exact Hin. }
      split; [exact Fc|]. split; [exact Hc|]. intros Hd. apply DN in Hd. destruct Hd as (c' & s' & -> & Hs' & _).
      apply Fc. destruct Hs' as [<-|[<-|[]]]; [left|right]; exists c'; reflexivity. }
    destruct (lists_loop lists _ d' H (C3 (NoDup_nil _))) as [I1 _].
    { intros c Hc. destruct (Lk c Hc) as (F1 & F2 & F3). split; [exact F1|]. rewrite KEEP by exact F3. exact F2. }
    assert (Hbl : In b lists).
    { apply C1. right. destruct Hf as [Hf|Hf]; apply in_map_iff in Hf; destruct Hf as ([k v] & E & Hin); cbn in E; subst k.
      - exists "!", v. cbn. auto.
      - exists "/", v. cbn. auto. }
    destruct (I1 b Hbl) as (l & kept & excl & E1 & L & X & E2 & E3).
    rewrite KEEP in E1 by (apply (Lk b Hbl)). exists l, kept, excl. split; [exact E1|].
    assert (K2 : forall s, In s ["!"; "/"] -> ~ In (b ++ s) dels).
    { intros s Hs Hd. apply DN in Hd. destruct Hd as (c & s' & E & Hs' & Hc).
      assert (b = c); [|congruence]. destruct Hs as [<-|[<-|[]]], Hs' as [<-|[<-|[]]]; apply snoc_inj in E; tauto. }
    split; [|split; [|auto]].
    - destruct L as (ex & filters & Hex & Hfp & S). exists ex, filters. rewrite KEEP in Hex by (apply K2; cbn; auto). rewrite KEEP in Hfp by (apply K2; cbn; auto). auto.
    - rewrite KEEP in X; [exact X|]. intros Hd. apply DN in Hd. destruct Hd as (c & s' & E & Hs' & Hc). symmetry in E.
      destruct Hs' as [<-|[<-|[]]]; [exact (bang_excl _ _ E)|exact (slash_excl _ _ E)].
  Qed.

  Theorem filter_dict_others : forall d d' k, plain_filters d -> filter_dict d = Val d' -> ~ is_filter_key k ->
    (forall b, In b (map fst d) -> (In (b ++ "!") (map fst d) \/ In (b ++ "/") (map fst d)) -> k <> b /\ k <> b ++ "_excluded") ->
    assoc k d' = assoc k d.
  Proof.
    intros d d' k HP H Fk Hk. unfold Model_Filter.filter_dict in H. apply rbind_Val in H. destruct H as ([lists dels] & HC & H).
    apply collect_spec in HC. destruct HC as (C1 & C2 & C3 & C4 & C5). cbn [fst snd] in *.
    assert (DN : forall k, In k dels -> is_filter_key k).
    { intros q Hq. apply C2 in Hq. destruct Hq as [[]|(c & s & v & -> & Hs & _ & Hc)]. destruct Hs as [<-|[<-|[]]]; [left|right]; exists c; reflexivity. }
    assert (KEEP : forall k, ~ In k dels -> assoc k (fold_left (fun d k => del_key k d) dels d) = assoc k d).
    { intros q Hq. rewrite del_keys_assoc. apply mem_false in Hq. rewrite Hq. reflexivity. }
    assert (Lk : forall c, In c lists -> ~ is_filter_key c /\ assoc c d <> None /\ (In (c ++ "!") (map fst d) \/ In (c ++ "/") (map fst d))).
    { intros c Hc. apply C1 in Hc. destruct Hc as [[]|(s & v & Hs & Hin & Hc)].
      assert (Hin' : In (c ++ s) (map fst d)) by (change (c ++ s) with (fst (c ++ s, v)); apply in_map; exact Hin).
      split; [apply (HP c s Hs Hin')|]. split; [exact Hc|]. destruct Hs as [<-|[<-|[]]]; auto. }
    destruct (lists_loop lists _ d' H (C3 (NoDup_nil _))) as [_ I2].
    { intros c Hc. destruct (Lk c Hc) as (F1 & F2 & _). split; [exact F1|]. rewrite KEEP; [exact F2|]. intros Hd. apply F1. apply DN. exact Hd. }
    rewrite I2; [apply KEEP; intros Hd; apply Fk; apply DN; exact Hd|].
    intros b Hb. destruct (Lk b Hb) as (F1 & F2 & F3).
    assert (Hin : In b (map fst d)). { destruct (in_dec string_dec b (map fst d)) as [i|i]; [exact i|]. apply assoc_None in i. contradiction. }
    destruct (Hk b Hin F3) as [K1 K2]. split; [exact K1|].
    split; [intros ->; apply Fk; left; exists b; reflexivity|]. split; [intros ->; apply Fk; right; exists b; reflexivity|exact K2].
  Qed.

  Lemma lists_gone : forall lists d d', rfold filter_list lists d = Val d' ->
    forall b s, In b lists -> In s ["!"; "/"] -> assoc (b ++ s) d' = None.
  Proof.
    induction lists as [|c lists IH]; intros d d' H b s Hb Hs; cbn [rfold] in H; [destruct Hb|].
    apply rbind_Val in H. destruct H as (d1 & H1 & H). destruct Hb as [->|Hb]; [|eapply IH; eassumption].
    apply filter_list_ok in H1. destruct H1 as (l & kept & excl & _ & _ & _ & _ & E2 & E3 & _ & _).
    eapply absent_stays; [exact H| |].
    - destruct Hs as [<-|[<-|[]]]; assumption.
    - intros c Hc E. destruct Hs as [<-|[<-|[]]]; [exact (bang_excl _ _ E)|exact (slash_excl _ _ E)].
  Qed.

  (** No filter key survives, whatever the dict. *)
  Theorem filter_dict_no_keys : forall d d' k, filter_dict d = Val d' -> is_filter_key k -> assoc k d' = None.
  Proof.
    intros d d' k H Fk. unfold Model_Filter.filter_dict in H. apply rbind_Val in H. destruct H as ([lists dels] & HC & H).
    apply collect_spec in HC. destruct HC as (C1 & C2 & C3 & C4 & C5). cbn [fst snd] in *.
    assert (Hs : exists b s, k = b ++ s /\ In s ["!"; "/"]) by (destruct Fk as [(b & ->)|(b & ->)]; [exists b, "!"|exists b, "/"]; cbn; auto).
    destruct Hs as (b & s & -> & Hs).
    assert (NX : forall c, b ++ s <> c ++ "_excluded").
    { intros c E. destruct Hs as [<-|[<-|[]]]; [exact (bang_excl _ _ E)|exact (slash_excl _ _ E)]. }
    destruct (in_dec string_dec b lists) as [Hb|Hb]; [eapply lists_gone; eassumption|].
    eapply absent_stays; [exact H| |intros c _; apply NX].
    rewrite del_keys_assoc. destruct (mem_spec (b ++ s) dels) as [Hd|Hd]; [reflexivity|].
    destruct (assoc (b ++ s) d) as [v|] eqn:E; [|reflexivity]. exfalso. apply assoc_In in E.
    destruct (assoc b d) as [w|] eqn:Eb.
    - apply Hb. apply C1. right. exists s, v. split; [exact Hs|]. split; [exact E|congruence].
    - apply Hd. apply C2. right. exists b, s, v. auto.
  Qed.
End P.
