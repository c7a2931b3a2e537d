(** Proofs about the variables of Xcode: what they stand for. *)
From Coq Require Import Lia Relations.
From Verif Require Import Lib Str LibFacts StrFacts Model_Value Model_TopoSort Proof_TopoSort Model_Writer Proof_Suffix Proof_Install2 Model_XcodeEnv Spec_XcodeEnv Proof_XcodeEnv.
Local Open Scope string_scope.

Lemma put_in f ps p : In p (put f ps) <-> exists q, In q ps /\ ((exists l, f q = Some l /\ In p l) \/ (f q = None /\ p = q)).
Proof.
  unfold put. rewrite in_flat_map. split; intros [q [I H]]; exists q; (split; [exact I|]).
  - destruct (f q) as [l|] eqn:E; [left; exists l; split; [reflexivity|exact H]|]. destruct H as [<-|[]]. right. split; reflexivity.
  - destruct H as [[l [-> J]]|[-> ->]]; [exact J|left; reflexivity].
Qed.
Lemma fine_put f ps : Forall fine_piece ps -> (forall q l, f q = Some l -> Forall fine_piece l) -> Forall fine_piece (put f ps).
Proof.
  intros F L. apply Forall_forall. intros p I. apply put_in in I. destruct I as [q [I [[l [E J]]|[_ ->]]]].
  - specialize (L q l E). rewrite Forall_forall in L. exact (L p J).
  - rewrite Forall_forall in F. exact (F q I).
Qed.
Lemma brackets_put f ps : in_brackets ps -> (forall q l, f q = Some l -> in_brackets l) -> in_brackets (put f ps).
Proof.
  intros F L n I. apply put_in in I. destruct I as [q [I [[l [E J]]|[_ X]]]]; [exact (L q l E n J)|subst q; exact (F n I)].
Qed.

Section Meaning.
Variable def : string -> option (list piece).
Lemma means_app_inv a : forall b s, means def (a ++ b)%list s -> exists s1 s2, s = s1 ++ s2 /\ means def a s1 /\ means def b s2.
Proof.
  induction a as [|p a IH]; intros b s H; cbn [app] in H.
  - exists "", s. repeat split; [constructor|exact H].
  - inversion H as [|t ps r M|q n ps d t r O D M1 M2|q n ps r O D M]; subst.
    + destruct (IH b r M) as [s1 [s2 [-> [A B]]]]. exists (t ++ s1), s2. split; [rewrite append_assoc; reflexivity|]. split; [constructor; exact A|exact B].
    + destruct (IH b r M2) as [s1 [s2 [-> [A B]]]]. exists (t ++ s1), s2. split; [rewrite append_assoc; reflexivity|]. split; [exact (means_def def p n a d t s1 O D M1 A)|exact B].
    + destruct (IH b r M) as [s1 [s2 [-> [A B]]]]. exists (show p ++ s1), s2. split; [rewrite append_assoc; reflexivity|]. split; [exact (means_undef def p n a s1 O D A)|exact B].
Qed.
Lemma means_put k d f : def k = Some d -> (forall p l, f p = Some l -> l = map normal d /\ (p = Braces k \/ p = Parens k)) -> forall ps s, means def (put f ps) s -> means def ps s.
Proof.
  intros D Ff. induction ps as [|p ps IH]; intros s H; [exact H|]. unfold put in *. cbn [flat_map] in H. destruct (f p) as [l|] eqn:E.
  - destruct (Ff p l E) as [-> O]. destruct (means_app_inv _ _ _ H) as [s1 [s2 [-> [A B]]]]. exact (means_def def p k ps d s1 s2 O D A (IH s2 B)).
  - cbn [app] in H. inversion H as [|t ps' r M|q n ps' d' t r O D' M1 M2|q n ps' r O D' M]; subst.
    + constructor. exact (IH r M).
    + exact (means_def def p n ps d' t r O D' M1 (IH r M2)).
    + exact (means_undef def p n ps r O D' (IH r M)).
Qed.
Lemma means_fun ps s : means def ps s -> forall s', means def ps s' -> s' = s.
Proof.
  induction 1 as [|t ps r M IH|p n ps d t r O D M1 IH1 M2 IH2|p n ps r O D M IH]; intros s' H.
  - inversion H. reflexivity.
  - inversion H as [|t' ps' r' M'|q n ps' d' t' r' O' D' M1' M2'|q n ps' r' O' D' M']; subst.
    + rewrite (IH _ M'). reflexivity.
    + destruct O'; discriminate.
    + destruct O'; discriminate.
  - inversion H as [|t' ps' r' M'|q n' ps' d' t' r' O' D' M1' M2'|q n' ps' r' O' D' M']; subst.
    + destruct O; discriminate.
    + assert (n' = n) by (destruct O as [->| ->], O' as [X|X]; congruence). subst n'. rewrite D in D'. injection D' as <-. rewrite (IH1 _ M1'), (IH2 _ M2'). reflexivity.
    + assert (n' = n) by (destruct O as [->| ->], O' as [X|X]; congruence). subst n'. congruence.
  - inversion H as [|t' ps' r' M'|q n' ps' d' t' r' O' D' M1' M2'|q n' ps' r' O' D' M']; subst.
    + destruct O; discriminate.
    + assert (n' = n) by (destruct O as [->| ->], O' as [X|X]; congruence). subst n'. congruence.
    + rewrite (IH _ M'). reflexivity.
Qed.

Definition refers (ps : list piece) (n : string) : Prop := In (Braces n) ps \/ In (Parens n) ps.
Lemma means_none ps : in_brackets ps -> (forall n, refers ps n -> def n = None) -> means def ps (text ps).
Proof.
  induction ps as [|p ps IH]; intros B R; [constructor|]. destruct (brackets_cons _ _ B) as [NB B']. assert (M := IH B' (fun n I => R n (match I with or_introl J => or_introl (or_intror J) | or_intror J => or_intror (or_intror J) end))). cbn [text]. destruct p as [s|n|n|n].
  - constructor. exact M.
  - apply (means_undef def _ n); [left; reflexivity| |exact M]. apply R. left. left. reflexivity.
  - apply (means_undef def _ n); [right; reflexivity| |exact M]. apply R. right. left. reflexivity.
  - destruct (NB n eq_refl).
Qed.

Variable val : string -> string.
(** every variable before those that its definition refers to *)
Fixpoint in_turn (ks : list string) : Prop :=
  match ks with
  | [] => True
  | k :: ks' => (name k /\ ~ In k ks' /\ exists d, def k = Some d /\ val k = text (map normal d) /\ Forall fine_piece d /\ forall n, In (Braces n) (map normal d) -> def n <> None -> In n ks') /\ in_turn ks'
  end.
Lemma expand_means ks : in_turn ks -> forall qs, Forall fine_piece qs -> in_brackets qs -> (forall n, refers qs n -> def n <> None -> In n ks) ->
  means def qs (fold_left expand_one (map (fun k => (k, val k)) ks) (text qs)).
Proof.
  induction ks as [|k ks IH]; intros T qs F B R; cbn [map fold_left].
  - apply means_none; [exact B|]. intros n I. destruct (def n) eqn:E; [|reflexivity]. exfalso. apply (R n I). rewrite E. discriminate.
  - destruct T as [[K [NI [d [D [V [FD L]]]]]] T]. assert (FN := fine_normal d FD). assert (BN := brackets_normal d).
    set (q1 := put (is_braces k (map normal d)) qs). set (q2 := put (is_parens k (map normal d)) q1).
    assert (Q1 : forall q l, is_braces k (map normal d) q = Some l -> l = map normal d /\ q = Braces k).
    { intros [s|n|n|n] l; cbn [is_braces]; try discriminate. destruct (String.eqb_spec n k) as [->|]; [|discriminate]. intros E. injection E as <-. split; reflexivity. }
    assert (Q2 : forall q l, is_parens k (map normal d) q = Some l -> l = map normal d /\ q = Parens k).
    { intros [s|n|n|n] l; cbn [is_parens]; try discriminate. destruct (String.eqb_spec n k) as [->|]; [|discriminate]. intros E. injection E as <-. split; reflexivity. }
    assert (F1 : Forall fine_piece q1) by (apply fine_put; [exact F|intros q l E; destruct (Q1 q l E) as [-> _]; exact FN]).
    assert (F2 : Forall fine_piece q2) by (apply fine_put; [exact F1|intros q l E; destruct (Q2 q l E) as [-> _]; exact FN]).
    assert (B1 : in_brackets q1) by (apply brackets_put; [exact B|intros q l E; destruct (Q1 q l E) as [-> _]; exact BN]).
    assert (B2 : in_brackets q2) by (apply brackets_put; [exact B1|intros q l E; destruct (Q2 q l E) as [-> _]; exact BN]).
    assert (E : expand_one (text qs) (k, val k) = text q2).
    { unfold expand_one. rewrite V. change ("${" ++ k ++ "}") with (String "$" (String "{" (k ++ "}"))). change ("$(" ++ k ++ ")") with (String "$" (String "(" (k ++ ")"))).
      rewrite (replace_braces k (map normal d) qs K F B). fold q1. rewrite (replace_parens k (map normal d) q1 K F1 B1). fold q2. exact (replace_bare k _ q2 K F2 B2). }
    rewrite E. apply (means_put k d _ D (fun p l H => conj (proj1 (Q1 p l H)) (or_introl (proj2 (Q1 p l H))))). fold q1.
    apply (means_put k d _ D (fun p l H => conj (proj1 (Q2 p l H)) (or_intror (proj2 (Q2 p l H))))). fold q2.
    apply IH; [exact T|exact F2|exact B2|]. intros n RN DN.
    assert (NP : forall x, ~ In (Parens x) (map normal d)) by (intros x I; apply in_map_iff in I; destruct I as [p [X _]]; destruct p; discriminate).
    assert (KK : forall x, In x (k :: ks) -> x <> k -> In x ks) by (intros x [->|I] X; [congruence|exact I]).
    destruct RN as [I|I]; apply put_in in I; destruct I as [q [I [[l [X J]]|[X Y]]]].
    + destruct (Q2 q l X) as [-> _]. exact (L n J DN).
    + subst q. apply put_in in I. destruct I as [q [I [[l [X' J]]|[X' Y]]]].
      * destruct (Q1 q l X') as [-> _]. exact (L n J DN).
      * subst q. cbn [is_braces] in X'. destruct (String.eqb_spec n k) as [|NK]; [discriminate|]. apply KK; [|exact NK]. apply R; [left; exact I|exact DN].
    + destruct (Q2 q l X) as [-> _]. destruct (NP n J).
    + subst q. cbn [is_parens] in X. destruct (String.eqb_spec n k) as [|NK]; [discriminate|]. apply put_in in I. destruct I as [q [I [[l [X' J]]|[X' Y]]]].
      * destruct (Q1 q l X') as [-> _]. destruct (NP n J).
      * subst q. apply KK; [|exact NK]. apply R; [right; exact I|exact DN].
Qed.
End Meaning.

(** ** the environment *)
Lemma flatten_raw t : flatten (raw_setting t) = text (pieces t).
Proof.
  destruct t as [ps|l]; [reflexivity|]. cbn [raw_setting flatten pieces]. induction l as [|ps l IH]; [reflexivity|]. destruct l as [|qs l]; [reflexivity|].
  cbn [map String.concat spaced] in *. rewrite text_app. cbn [text show]. rewrite IH. reflexivity.
Qed.
Lemma assoc_map {A B} (f : A -> B) k l : assoc k (map (fun kv => (fst kv, f (snd kv))) l) = option_map f (assoc k l).
Proof. induction l as [|[a b] l IH]; [reflexivity|]. cbn [map fst snd assoc]. destruct (String.eqb k a); [reflexivity|exact IH]. Qed.
Lemma assoc_update k : forall e d, NoDup (map fst e) -> assoc k (update d e) = match assoc k e with Some v => Some v | None => assoc k d end.
Proof.
  induction e as [|[a b] e IH]; intros d N; [reflexivity|]. cbn [map fst] in N. inversion N as [|? ? NI N']; subst. unfold update. cbn [fold_left fst snd]. fold (update (set_key a b d) e). rewrite (IH _ N'). cbn [assoc].
  rewrite assoc_set. destruct (String.eqb_spec k a) as [->|D].
  - rewrite String.eqb_refl. destruct (assoc a e) as [v|] eqn:E; [|reflexivity]. apply assoc_In in E. destruct NI. apply in_map_iff. exists (a, v). split; [reflexivity|exact E].
  - destruct (String.eqb_spec a k) as [->|_]; [congruence|]. reflexivity.
Qed.
Lemma update_NoDup : forall e d, NoDup (map fst d) -> NoDup (map fst (update d e)).
Proof. induction e as [|[a b] e IH]; intros d N; [exact N|]. unfold update. cbn [fold_left fst snd]. fold (update (set_key a b d) e). apply IH, set_key_NoDup, N. Qed.

Section Env.
Variable in_order : list string -> list string.
Hypothesis O : forall l x, In x (in_order l) <-> In x l.
Variable own : list (string * told).
Variable given : list (string * list piece).
Hypothesis FD : fine_defs own given.
Definition env : list (string * string) := xcode_env (raw_own own) (raw_given given).
Lemma defined_fine k ps : defined own given k = Some ps -> name k /\ fine ps.
Proof.
  destruct FD as [_ [_ [F1 F2]]]. unfold defined. destruct (assoc k given) as [q|] eqn:E.
  - intros X. injection X as <-. exact (F2 k q (assoc_In _ _ _ _ E)).
  - destruct (assoc k own) as [t|] eqn:E'; [|discriminate]. intros X. injection X as <-. exact (F1 k t (assoc_In _ _ _ _ E')).
Qed.
Lemma assoc_env k : assoc k env = option_map (fun ps => text (map normal ps)) (defined own given k).
Proof.
  unfold env, xcode_env. rewrite (assoc_map normalize). rewrite assoc_update by (unfold raw_given; rewrite map_map; cbn [fst]; exact (proj1 (proj2 FD))).
  unfold raw_given, raw_own. rewrite (assoc_map text). rewrite map_map. cbn [fst snd]. rewrite (assoc_map (fun t => flatten (raw_setting t))).
  assert (Fi := defined_fine k). unfold defined in *. destruct (assoc k given) as [ps|].
  - cbn [option_map]. rewrite normalize_text; [reflexivity|]. exact (proj2 (Fi ps eq_refl)).
  - destruct (assoc k own) as [t|]; [|reflexivity]. cbn [option_map] in *. rewrite flatten_raw, normalize_text; [reflexivity|]. exact (proj2 (Fi _ eq_refl)).
Qed.
Lemma env_NoDup : NoDup (map fst env).
Proof. unfold env, xcode_env. rewrite map_map. cbn [fst]. apply update_NoDup. unfold raw_own. rewrite !map_map. cbn [fst]. exact (proj1 FD). Qed.
Lemma env_key k : In k (map fst env) <-> defined own given k <> None.
Proof.
  split.
  - intros I. destruct (assoc_Some_key _ k env I) as [v E]. rewrite assoc_env in E. destruct (defined own given k); [discriminate|discriminate E].
  - intros N. destruct (in_dec string_dec k (map fst env)) as [I|I]; [exact I|]. apply assoc_None in I. rewrite assoc_env in I. destruct (defined own given k); [discriminate I|congruence].
Qed.
Lemma normal_mentions ps n : In (Braces n) (map normal ps) <-> mentions ps n.
Proof.
  unfold mentions. split.
  - intros I. apply in_map_iff in I. destruct I as [p [E I]]. destruct p as [s|m|m|m]; cbn [normal] in E; try discriminate; injection E as ->; tauto.
  - intros [I|[I|I]]; apply in_map_iff; [exists (Braces n)|exists (Parens n)|exists (Bare n)]; (split; [reflexivity|exact I]).
Qed.
Lemma edge_iff x y : In y (edges in_order env x) <-> depends own given x y.
Proof.
  unfold edges, depends. rewrite O, filter_In, mem_In, env_key, assoc_env. split.
  - intros [I N]. destruct (defined own given x) as [ps|] eqn:E; [|destruct I]. cbn [option_map] in I. exists ps. destruct (defined_fine x ps E) as [_ [F _]].
    apply (refs_braces _ (fine_normal ps F) (brackets_normal ps)) in I. split; [reflexivity|]. split; [apply normal_mentions; exact I|exact N].
  - intros [ps [E [M N]]]. split; [|exact N]. rewrite E. cbn [option_map]. destruct (defined_fine x ps E) as [_ [F _]]. apply (refs_braces _ (fine_normal ps F) (brackets_normal ps)). apply normal_mentions. exact M.
Qed.
Lemma clos_iff (R R' : string -> string -> Prop) : (forall x y, R x y <-> R' x y) -> forall x y, clos_trans string R x y -> clos_trans string R' x y.
Proof. intros E x y H. induction H as [x y H|x y z _ A _ B]; [apply t_step, E, H|exact (t_trans _ _ _ _ _ A B)]. Qed.
Definition val (k : string) : string := match assoc k env with Some s => s | None => "" end.

Lemma sorted_cases :
  (~ (exists x, clos_trans string (depends own given) x x) /\ exists ks, sorted_env in_order (raw_own own) (raw_given given) = Some (map (fun k => (k, val k)) (rev ks)) /\ NoDup ks /\
     (forall k, In k ks <-> defined own given k <> None) /\ (forall x y, depends own given x y -> before x y ks)) \/
  ((exists x, clos_trans string (depends own given) x x) /\ sorted_env in_order (raw_own own) (raw_given given) = None).
Proof.
  unfold sorted_env. fold env. cbv zeta. unfold sorted_keys.
  assert (HU : forall x y, In x (map fst env) -> In y (edges in_order env x) -> In y (map fst env)).
  { intros x y _ I. apply edge_iff in I. destruct I as [_ [_ [_ N]]]. apply env_key, N. }
  destruct (topo_cases (edges in_order env) (map fst env) HU (S (length env)) (map fst env) ltac:(rewrite map_length; lia) (incl_refl _)) as [[l [E [N [I [B C]]]]]|[vs [c [E [I [C _]]]]]]; rewrite E.
  - left.
    assert (KI : forall k, In k l <-> defined own given k <> None).
    { intros k. rewrite I. split.
      - intros [g [G R]]. apply env_key. clear -HU G R. apply clos_rt_rt1n in R. induction R as [|x y z H _ IH]; [exact G|]. apply IH. exact (HU x y G H).
      - intros D. exists k. split; [apply env_key, D|apply rt_refl]. }
    split.
    + intros [x X]. apply C. exists x, x. split; [|split; [apply rt_refl|]].
      * assert (G : forall a b, clos_trans string (depends own given) a b -> exists y, depends own given a y) by (clear; intros a b X; induction X as [a b H|a b c _ A _ _]; [exists b; exact H|exact A]). destruct (G x x X) as [y [ps [D _]]]. apply env_key. rewrite D. discriminate.
      * exact (clos_iff (depends own given) (fun a b => In b (edges in_order env a)) (fun a b => iff_sym (edge_iff a b)) x x X).
    + exists l. split; [reflexivity|]. split; [exact N|]. split; [exact KI|]. intros x y D. apply B; [|apply edge_iff, D]. apply KI. destruct D as [ps [D _]]. rewrite D. discriminate.
  - right. split; [|reflexivity]. exists c. exact (clos_iff (fun a b => In b (edges in_order env a)) (depends own given) edge_iff c c C).
Qed.

Lemma order_spec :
  (~ (exists x, clos_trans string (depends own given) x x) /\ exists l, sorted_env in_order (raw_own own) (raw_given given) = Some l /\ NoDup (map fst l) /\
     (forall k v, In (k, v) l <-> exists ps, defined own given k = Some ps /\ v = text (map normal ps)) /\ (forall x y, depends own given x y -> before y x (map fst l))) \/
  ((exists x, clos_trans string (depends own given) x x) /\ sorted_env in_order (raw_own own) (raw_given given) = None).
Proof.
  destruct sorted_cases as [[NC [ks [E [N [K B]]]]]|[C E]]; [left|right; split; assumption].
  split; [exact NC|]. exists (map (fun k => (k, val k)) (rev ks)). split; [exact E|]. rewrite map_map. cbn [fst]. rewrite map_id. split; [apply NoDup_rev, N|]. split.
  - intros k v. rewrite in_map_iff. unfold val. split.
    + intros [k' [X I]]. injection X as -> <-. rewrite <- in_rev in I. apply K in I. rewrite assoc_env. destruct (defined own given k) as [ps|]; [|congruence]. exists ps. split; reflexivity.
    + intros [ps [D ->]]. exists k. rewrite assoc_env, D. split; [reflexivity|]. rewrite <- in_rev. apply K. rewrite D. discriminate.
  - intros x y D. destruct (B x y D) as [l1 [l2 [l3 X]]]. exists (rev l3), (rev l2), (rev l1). rewrite X. rewrite !rev_app_distr. cbn [rev]. rewrite !rev_app_distr. cbn [rev]. rewrite <- !app_assoc. reflexivity.
Qed.

Lemma in_turn_of ks : NoDup ks -> (forall k, In k ks -> defined own given k <> None) -> (forall x y, In x ks -> depends own given x y -> before x y ks) -> in_turn (defined own given) val ks.
Proof.
  induction ks as [|k ks IH]; intros N D B; [exact I|]. inversion N as [|? ? NI N']; subst. split.
  - destruct (defined own given k) as [d|] eqn:E; [|destruct (D k (or_introl eq_refl) E)]. destruct (defined_fine k d E) as [K [F _]]. split; [exact K|]. split; [exact NI|]. exists d. split; [reflexivity|].
    split; [unfold val; rewrite assoc_env, E; reflexivity|]. split; [exact F|]. intros n M DN. apply normal_mentions in M.
    assert (Bf := B k n (or_introl eq_refl) (ex_intro _ d (conj E (conj M DN)))). assert (In n (k :: ks)) as [->|J] by exact (proj2 (before_In _ _ _ _ Bf)); [|exact J]. destruct (before_irrefl _ _ _ N Bf).
  - apply IH; [exact N'|intros x J; apply D; right; exact J|]. intros x y J H. destruct (B x y (or_intror J) H) as [l1 [l2 [l3 X]]]. destruct l1 as [|z l1].
    + injection X as -> ->. destruct (NI J).
    + injection X as -> ->. exists l1, l2, l3. reflexivity.
Qed.
Lemma expand_spec l ps : sorted_env in_order (raw_own own) (raw_given given) = Some l -> Forall fine_piece ps -> in_brackets ps ->
  means (defined own given) ps (expand (text ps) l) /\ forall s, means (defined own given) ps s -> s = expand (text ps) l.
Proof.
  intros E F B. assert (M : means (defined own given) ps (expand (text ps) l)).
  - destruct sorted_cases as [[_ [ks [E' [N [K Bf]]]]]|[_ E']]; [|congruence]. rewrite E in E'. injection E' as ->. unfold expand. rewrite <- map_rev, rev_involutive.
    apply expand_means; [apply in_turn_of; [exact N|intros k I; apply K, I|intros x y _ D; exact (Bf x y D)]|exact F|exact B|]. intros n _ D. apply K, D.
  - split; [exact M|]. intros s S. exact (means_fun _ ps _ M s S).
Qed.
End Env.

(** ** a name that goes on *)
Lemma bare_prefix k v rest : name k -> has_char "$" v = false -> has_char "$" rest = false -> expand ("$" ++ k ++ rest) [(k, v)] = v ++ rest.
Proof.
  intros K V R. destruct (name_ref _ K) as [KN KR]. destruct k as [|a k]; [congruence|]. destruct (all_cons _ _ _ KR) as [A _]. destruct (ref_no _ A) as [_ [A1 [_ [A2 _]]]].
  unfold expand. cbn [rev app fold_left]. unfold expand_one.
  change ("${" ++ String a k ++ "}") with (String "$" (String "{" (String a k ++ "}"))). change ("$(" ++ String a k ++ ")") with (String "$" (String "(" (String a k ++ ")"))).
  change ("$" ++ String a k ++ rest) with (String "$" (String a k ++ rest)). change ("$" ++ String a k) with (String "$" (String a k)).
  assert (P : has_char "$" (String a k ++ rest) = false) by (rewrite has_char_app, (all_no ref_char "$" (String a k) KR eq_refl), R; reflexivity).
  rewrite replace_miss by (cbn [append String.prefix]; destruct (ascii_dec "$" "$") as [_|X]; [|congruence]; destruct (ascii_dec "{" a) as [X|_]; [congruence|reflexivity]).
  rewrite (replace_none _ _ (String a k ++ rest)) by exact P.
  rewrite replace_miss by (cbn [append String.prefix]; destruct (ascii_dec "$" "$") as [_|X]; [|congruence]; destruct (ascii_dec "(" a) as [X|_]; [congruence|reflexivity]).
  rewrite (replace_none _ _ (String a k ++ rest)) by exact P.
  change (String "$" (String a k ++ rest)) with (String "$" (String a k) ++ rest). rewrite replace_hit, replace_none by exact R. reflexivity.
Qed.
