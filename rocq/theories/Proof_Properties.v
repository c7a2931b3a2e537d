(** The properties in Visual Studio projects. *)
From Coq Require Import Permutation.
From Verif Require Import Lib LibFacts Str StrFacts Model_Value Model_TopoSort Proof_TopoSort Model_Properties Spec_Properties.
From Verif Require Proof_Merge2 Proof_Install2.
Local Open Scope string_scope.

(** ** references *)
Lemma starts_letter : forall a, starts_name a = letter a.
Proof. intros [[] [] [] [] [] [] [] []]; reflexivity. Qed.
Lemma in_letter : forall a, in_name a = letter_or_digit a.
Proof. intros [[] [] [] [] [] [] [] []]; reflexivity. Qed.
Lemma tail_bracket : forall s, name_tail s = match up_to_bracket s with Some n => if forallb letter_or_digit (list_ascii_of_string n) then Some n else None | None => None end.
Proof.
  induction s as [|a s IH]; [reflexivity|]. cbn [name_tail up_to_bracket]. destruct (Ascii.eqb a ")"); [reflexivity|]. rewrite in_letter, IH. destruct (up_to_bracket s) as [n|]; [|destruct (letter_or_digit a); reflexivity]. cbn [list_ascii_of_string forallb]. destruct (letter_or_digit a); [|reflexivity]. cbn [andb]. destruct (forallb _ _); reflexivity.
Qed.
Lemma name_reference : forall s, name_at s = reference s.
Proof.
  intros [|a [|b s]]; try reflexivity. unfold reference. destruct s as [|c s].
  - cbn. destruct (_ && _)%bool; reflexivity.
  - cbn [name_at]. rewrite starts_letter, tail_bracket. destruct (Ascii.eqb a "$" && Ascii.eqb b "(")%bool eqn:E; [|reflexivity]. cbn [andb up_to_bracket]. destruct (Ascii.eqb_spec c ")") as [->|N]; [reflexivity|]. destruct (up_to_bracket s) as [n|]; [|destruct (letter c); reflexivity]. cbn [identifier]. destruct (letter c); [|reflexivity]. cbn [andb]. destruct (forallb _ _); reflexivity.
Qed.
Lemma refers_iff : forall s k n, In n (references k s) <-> refers_from k s n.
Proof.
  induction s as [|a s IH]; intros k n; [reflexivity|]. cbn [references refers_from]. destruct k; [|apply IH]. rewrite name_reference. destruct (reference (String a s)) as [m|]; [|apply IH]. cbn [In]. rewrite IH. reflexivity.
Qed.
Lemma expand_ext : forall s k env env', (forall n, refers_from k s n -> env n = env' n) -> expanded env k s = expanded env' k s.
Proof.
  induction s as [|a s IH]; intros k env env' H; [reflexivity|]. cbn [expanded refers_from] in *. destruct k; [|apply IH; exact H]. destruct (reference (String a s)) as [m|].
  - rewrite (H m (or_introl eq_refl)). f_equal. apply IH. intros n R. apply H. right. exact R.
  - f_equal. apply IH. exact H.
Qed.
Lemma expand_plain : forall s env, has_char "$" s = false -> expand env s = s.
Proof.
  unfold expand. induction s as [|a s IH]; intros env H; [reflexivity|]. cbn [expanded]. cbn [has_char] in H. destruct (Ascii.eqb_spec a "$") as [->|N]; [discriminate|]. assert (R : reference (String a s) = None) by (cbn; destruct s as [|b s]; [reflexivity|]; destruct (Ascii.eqb_spec a "$"); [contradiction|reflexivity]). rewrite R, IH by exact H. reflexivity.
Qed.

(** ** the table *)
Definition flat (l : list (string * list (string * string))) : list (string * (string * string)) := flat_map (fun c => map (pair (fst c)) (snd c)) l.
Definition conds (l : list (string * (string * string))) (name value : string) : list string :=
  map fst (filter (fun x => String.eqb (fst (snd x)) name && String.eqb (snd (snd x)) value) l).
Definition add_one (p : properties) (x : string * (string * string)) : properties := add_property (fst x) (fst (snd x)) (snd (snd x)) p.
Lemma added_flat : forall l, added l = fold_left add_one (flat l) [].
Proof.
  intros l. unfold added. generalize (@nil (string * list (string * list string))) as p. induction l as [|[c g] l IH]; intros p; [reflexivity|]. cbn [fold_left flat flat_map fst snd]. rewrite fold_left_app. fold (flat l). rewrite IH. f_equal. clear. revert p. induction g as [|x g IH]; intros p; [reflexivity|]. cbn [fold_left map]. exact (IH _).
Qed.
Definition tabled (p : properties) (l : list (string * (string * string))) : Prop :=
  NoDup (map fst p) /\ (forall n, In n (map fst p) <-> exists x, In x l /\ fst (snd x) = n) /\
  (forall n, NoDup (map fst (values_of p n))) /\ (forall n v, In v (map fst (values_of p n)) <-> exists x, In x l /\ snd x = (n, v)) /\
  (forall n v, conditions_of (values_of p n) v = conds l n v).
Lemma values_set_same : forall p n v, values_of (set_key n v p) n = v.
Proof. intros p n v. unfold values_of. rewrite Proof_Merge2.assoc_set_same. reflexivity. Qed.
Lemma values_set_other : forall p n v m, m <> n -> values_of (set_key n v p) m = values_of p m.
Proof. intros p n v m N. unfold values_of. rewrite Proof_Merge2.assoc_set_other by congruence. reflexivity. Qed.
Lemma conditions_set_same : forall p n v, conditions_of (set_key n v p) n = v.
Proof. intros p n v. unfold conditions_of. rewrite Proof_Merge2.assoc_set_same. reflexivity. Qed.
Lemma conditions_set_other : forall p n v m, m <> n -> conditions_of (set_key n v p) m = conditions_of p m.
Proof. intros p n v m N. unfold conditions_of. rewrite Proof_Merge2.assoc_set_other by congruence. reflexivity. Qed.
Lemma set_keys : forall {B} n (v : B) p m, In m (map fst (set_key n v p)) <-> m = n \/ In m (map fst p).
Proof.
  intros B n v p m. induction p as [|[k w] p IH]; cbn; [intuition congruence|]. destruct (String.eqb_spec n k) as [->|N]; cbn; [intuition congruence|]. rewrite IH. intuition congruence.
Qed.
Lemma set_NoDup : forall {B} n (v : B) p, NoDup (map fst p) -> NoDup (map fst (set_key n v p)).
Proof.
  intros B n v p. induction p as [|[k w] p IH]; cbn; intros D; [repeat constructor; intros []|]. inversion D as [|? ? D1 D2]; subst. destruct (String.eqb_spec n k) as [->|N]; cbn; [constructor; assumption|]. constructor; [|exact (IH D2)]. intros I. apply set_keys in I. destruct I as [I|I]; congruence || contradiction.
Qed.
Lemma add_tabled : forall p l x, tabled p l -> tabled (add_one p x) (l ++ [x]).
Proof.
  intros p l [c [n v]] (T1 & T2 & T3 & T4 & T5). unfold add_one, add_property. cbn [fst snd]. split; [|split; [|split; [|split]]].
  - apply set_NoDup. exact T1.
  - intros m. rewrite set_keys, T2. split.
    + intros [->|(x & I & E)]; [exists (c, (n, v)); split; [apply in_or_app; right; left; reflexivity|reflexivity]|exists x; split; [apply in_or_app; left; exact I|exact E]].
    + intros (x & I & E). apply in_app_or in I. destruct I as [I|[<-|[]]]; [right; exists x; auto|left; symmetry; exact E].
  - intros m. destruct (string_dec m n) as [->|N]; [rewrite values_set_same; apply set_NoDup; apply T3|rewrite values_set_other by exact N; apply T3].
  - intros m w. destruct (string_dec m n) as [->|N].
    + rewrite values_set_same, set_keys, T4. split.
      * intros [->|(x & I & E)]; [exists (c, (n, v)); split; [apply in_or_app; right; left; reflexivity|reflexivity]|exists x; split; [apply in_or_app; left; exact I|exact E]].
      * intros (x & I & E). apply in_app_or in I. destruct I as [I|[<-|[]]]; [right; exists x; auto|left; cbn in E; congruence].
    + rewrite values_set_other by exact N. rewrite T4. split.
      * intros (x & I & E). exists x. split; [apply in_or_app; left; exact I|exact E].
      * intros (x & I & E). apply in_app_or in I. destruct I as [I|[<-|[]]]; [exists x; auto|cbn in E; congruence].
  - intros m w. unfold conds. rewrite filter_app, map_app. fold (conds l m w). cbn [filter fst snd]. destruct (string_dec m n) as [->|N].
    + rewrite values_set_same, String.eqb_refl. destruct (string_dec w v) as [->|NW].
      * rewrite conditions_set_same, String.eqb_refl, T5. reflexivity.
      * rewrite conditions_set_other by exact NW. rewrite T5. destruct (String.eqb_spec v w); [congruence|]. cbn. rewrite app_nil_r. reflexivity.
    + rewrite values_set_other by exact N. rewrite T5. destruct (String.eqb_spec n m); [congruence|]. cbn. rewrite app_nil_r. reflexivity.
Qed.
Lemma added_tabled : forall l, tabled (added l) (flat l).
Proof.
  intros l. rewrite added_flat. set (f := flat l). assert (G : forall a b p, tabled p a -> tabled (fold_left add_one b p) (a ++ b)).
  { clear. intros a b. revert a. induction b as [|x b IH]; intros a p T; [rewrite app_nil_r; exact T|]. cbn [fold_left]. specialize (IH (a ++ [x])%list (add_one p x) (add_tabled _ _ _ T)). rewrite <- app_assoc in IH. exact IH. }
  apply (G [] f []). split; [constructor|]. split; [intros n; cbn; split; [intros []|intros (x & [] & _)]|]. split; [intros n; constructor|]. split; [intros n v; cbn; split; [intros []|intros (x & [] & _)]|]. reflexivity.
Qed.
Lemma flat_In : forall l c n v, In (c, (n, v)) (flat l) <-> exists g, In (c, g) l /\ In (n, v) g.
Proof.
  intros l c n v. unfold flat. split.
  - intros I. apply (proj1 (in_flat_map _ _ _)) in I. destruct I as ([c' g] & I & J). cbn in J. apply in_map_iff in J. destruct J as (y & E & J). injection E as -> ->. exists g. auto.
  - intros (g & I & J). apply in_flat_map. exists (c, g). split; [exact I|]. cbn. apply in_map. exact J.
Qed.

(** ** evaluation *)
Definition upd (env : environment) (name v : string) : environment := fun n => if String.eqb (lower_case n) (lower_case name) then v else env n.
Definition ct (here : string) : string := "'$(Configuration)|$(Platform)'=='" ++ here ++ "'".
Lemma ct_inj : forall a b, ct a = ct b -> a = b.
Proof.
  intros a b E. unfold ct in E. assert (L : forall p x y, p ++ x = p ++ y -> x = y) by (induction p as [|c p IH]; intros x y H; [exact H|injection H as H; exact (IH _ _ H)]). apply L in E.
  revert b E. induction a as [|c a IH]; intros [|d b] E; [reflexivity|injection E as _ E; destruct b; discriminate E|injection E as _ E; destruct a; discriminate E|]. injection E as -> E. f_equal. exact (IH _ E).
Qed.
Lemma evaluate_app : forall here a b env, evaluate here (a ++ b) env = evaluate here b (evaluate here a env).
Proof. intros here. induction a as [|[[n c] v] a IH]; intros b env; [reflexivity|]. cbn [app evaluate]. apply IH. Qed.
Lemma evaluate_none : forall here name v cs env, ~ In (ct here) cs -> evaluate here (map (fun x => (name, Some x, v)) cs) env = env.
Proof.
  intros here name v. induction cs as [|c cs IH]; intros env N; [reflexivity|]. cbn [map evaluate applies]. fold (ct here). destruct (String.eqb_spec c (ct here)) as [->|_]; [destruct N; left; reflexivity|]. apply IH. intros I. apply N. right. exact I.
Qed.
Lemma evaluate_once : forall here name v cs env, NoDup cs -> In (ct here) cs -> evaluate here (map (fun x => (name, Some x, v)) cs) env = upd env name (expand env v).
Proof.
  intros here name v. induction cs as [|c cs IH]; intros env D I; [destruct I|]. inversion D as [|? ? D1 D2]; subst. cbn [map evaluate applies]. fold (ct here). destruct (String.eqb_spec c (ct here)) as [->|N].
  - rewrite evaluate_none by exact D1. reflexivity.
  - destruct I as [I|I]; [contradiction|]. exact (IH _ D2 I).
Qed.
Lemma evaluate_some : forall here name v n, has_char "$" v = false -> forall cs env, evaluate here (map (fun x => (name, Some x, v)) cs) env n = env n \/ evaluate here (map (fun x => (name, Some x, v)) cs) env n = upd env name v n.
Proof.
  intros here name v n P. induction cs as [|c cs IH]; intros e; [left; reflexivity|]. cbn [map evaluate]. cbn zeta. rewrite (expand_plain v e P). destruct (applies here (Some c)); [|apply IH]. right. fold (upd e name v). destruct (IH (upd e name v)) as [H|H]; rewrite H; unfold upd; destruct (String.eqb (lower_case n) (lower_case name)); reflexivity.
Qed.
Lemma evaluate_many : forall here name v n, has_char "$" v = false -> forall cs env, In (ct here) cs -> evaluate here (map (fun x => (name, Some x, v)) cs) env n = upd env name v n.
Proof.
  intros here name v n P. induction cs as [|c cs IH]; intros env I; [destruct I|]. cbn [map evaluate applies]. cbn zeta. fold (ct here). rewrite (expand_plain v env P). destruct (String.eqb_spec c (ct here)) as [->|N].
  - fold (upd env name v). destruct (evaluate_some here name v n P cs (upd env name v)) as [H|H]; rewrite H; unfold upd; destruct (String.eqb (lower_case n) (lower_case name)); reflexivity.
  - destruct I as [I|I]; [contradiction|]. exact (IH _ I).
Qed.

Section Group.
  Variable l : list (string * list (string * string)).
  Hypothesis heres : NoDup (map fst l).
  Let l' := map (fun c => (ct (fst c), snd c)) l.
  Let p := added l'.
  Let num := length l.

  Lemma flat_stated : forall c n v, In (c, (n, v)) (flat l') <-> exists here, c = ct here /\ stated l here n v.
  Proof.
    intros c n v. rewrite flat_In. unfold l', stated. split.
    - intros (g & I & J). apply in_map_iff in I. destruct I as ([h g'] & E & I). injection E as <- <-. exists h. split; [reflexivity|]. exists g'. auto.
    - intros (h & -> & g & I & J). exists g. split; [|exact J]. apply in_map_iff. exists (h, g). auto.
  Qed.
  Lemma conds_In : forall c n v, In c (conds (flat l') n v) <-> exists here, c = ct here /\ stated l here n v.
  Proof.
    intros c n v. rewrite <- flat_stated. unfold conds. rewrite in_map_iff. split.
    - intros ([c' [n' v']] & E & I). apply filter_In in I. destruct I as (I & F). cbn in E, F. apply andb_true_iff in F. destruct F as (F1 & F2). apply String.eqb_eq in F1, F2. subst. exact I.
    - intros I. exists (c, (n, v)). split; [reflexivity|]. apply filter_In. split; [exact I|]. cbn. rewrite !String.eqb_refl. reflexivity.
  Qed.
  Lemma one_g : forall here g g', In (here, g) l -> In (here, g') l -> g = g'.
  Proof.
    clear - heres. intros here g g' I J. induction l as [|[h x] m IH]; [destruct I|]. cbn in heres. inversion heres as [|? ? D1 D2]; subst. destruct I as [I|I], J as [J|J].
    - congruence.
    - injection I as -> ->. destruct D1. apply in_map_iff. exists (here, g'). auto.
    - injection J as -> ->. destruct D1. apply in_map_iff. exists (here, g). auto.
    - exact (IH D2 I J).
  Qed.
  Lemma filter_once : forall name (g : list (string * string)), NoDup (filter (String.eqb name) (map fst g)) -> forall v, length (filter (fun x : string * string => String.eqb (fst x) name && String.eqb (snd x) v) g) <= 1 /\ (forall w, In (name, v) g -> In (name, w) g -> v = w).
  Proof.
    clear. intros name g. induction g as [|[n w] g IH]; intros D v; [cbn; split; [lia|intros w []]|]. cbn [map fst filter] in D |- *. cbn [fst snd]. destruct (String.eqb_spec name n) as [<-|N].
    - inversion D as [|? ? D1 D2]; subst. assert (Z : forall u, ~ In (name, u) g). { intros u I. apply D1. apply filter_In. split; [apply in_map_iff; exists (name, u); auto|apply String.eqb_refl]. }
      split.
      + rewrite String.eqb_refl. cbn [andb]. assert (F : filter (fun x : string * string => String.eqb (fst x) name && String.eqb (snd x) v) g = []). { destruct (filter _ g) as [|[a b] r] eqn:E; [reflexivity|]. assert (I : In (a, b) (filter (fun x : string * string => String.eqb (fst x) name && String.eqb (snd x) v) g)) by (rewrite E; left; reflexivity). apply filter_In in I. destruct I as (I & F). cbn in F. apply andb_true_iff in F. destruct F as (F & _). apply String.eqb_eq in F. subst a. destruct (Z b I). }
        rewrite F. destruct (String.eqb w v); cbn; lia.
      + intros u [I|I] [J|J]; try (exfalso; eapply Z; eassumption). congruence.
    - destruct (IH D v) as (A & B). destruct (String.eqb_spec n name); [congruence|]. cbn [andb]. split; [exact A|]. intros u [I|I] [J|J]; try congruence. exact (B u I J).
  Qed.
  Lemma conds_NoDup : forall name v, (forall here g, In (here, g) l -> NoDup (filter (String.eqb name) (map fst g))) -> NoDup (conds (flat l') name v).
  Proof.
    intros name v. subst p num l'. induction l as [|[h g] m IH]; intros H; [constructor|]. cbn in heres. inversion heres as [|? ? D1 D2]; subst. cbn [map flat flat_map fst snd]. unfold conds. rewrite filter_app, map_app. fold (flat (map (fun c => (ct (fst c), snd c)) m)). apply NoDup_app_intro.
    - destruct (filter_once name g (H h g (or_introl eq_refl)) v) as (L & _). clear - L. assert (E : length (map fst (filter (fun x : string * (string * string) => String.eqb (fst (snd x)) name && String.eqb (snd (snd x)) v) (map (pair (ct h)) g))) <= 1).
      { rewrite map_length. replace (length (filter (fun x : string * (string * string) => String.eqb (fst (snd x)) name && String.eqb (snd (snd x)) v) (map (pair (ct h)) g))) with (length (filter (fun x : string * string => String.eqb (fst x) name && String.eqb (snd x) v) g)); [exact L|]. clear L. induction g as [|x g IH]; [reflexivity|]. cbn [map filter snd]. destruct (_ && _)%bool; cbn [length]; rewrite IH; reflexivity. }
      destruct (map fst _) as [|a [|b r]]; [constructor|repeat constructor; intros []|cbn in E; lia].
    - apply IH; [exact D2|]. intros here g' I. apply (H here g'). right. exact I.
    - intros c I J. apply in_map_iff in I. destruct I as ([c1 x1] & E1 & I). apply filter_In in I. destruct I as (I & _). apply in_map_iff in I. destruct I as (y & E2 & _). injection E2 as <- <-. cbn in E1. subst c.
      apply in_map_iff in J. destruct J as ([c2 [n2 v2]] & E3 & J). cbn in E3. subst c2. apply filter_In in J. destruct J as (J & _). apply flat_In in J. destruct J as (g' & J & _). apply in_map_iff in J. destruct J as ([h' g''] & E4 & J). apply (f_equal fst) in E4. cbn [fst] in E4. apply ct_inj in E4. subst h'. apply D1. apply in_map_iff. exists (h, g''). auto.
  Qed.
  Lemma values_In : forall n v, In v (sort (map fst (values_of p n))) <-> exists here, stated l here n v.
  Proof.
    intros n v. rewrite sort_In. destruct (added_tabled l') as (_ & _ & _ & T & _). fold p in T. rewrite T. split.
    - intros ([c x] & I & E). cbn in E. subst x. apply flat_stated in I. destruct I as (h & _ & S). exists h. exact S.
    - intros (h & S). exists (ct h, (n, v)). split; [apply flat_stated; exists h; auto|reflexivity].
  Qed.
  Lemma keys_In : forall n, In n (map fst p) <-> exists here v, stated l here n v.
  Proof.
    intros n. destruct (added_tabled l') as (_ & T & _). fold p in T. rewrite T. split.
    - intros ([c [m v]] & I & E). cbn in E. subst m. apply flat_stated in I. destruct I as (h & _ & S). exists h, v. exact S.
    - intros (h & v & S). exists (ct h, (n, v)). split; [apply flat_stated; exists h; auto|reflexivity].
  Qed.
  Definition segment (name v : string) : list entry :=
    let c := conditions_of (values_of p name) v in if Nat.eqb (length c) num then [(name, None, v)] else map (fun x => (name, Some x, v)) c.
  Lemma conditions_are : forall n v, conditions_of (values_of p n) v = conds (flat l') n v.
  Proof. destruct (added_tabled l') as (_ & _ & _ & _ & T). exact T. Qed.
  Lemma quiet : forall here name vs env, (forall v, In v vs -> ~ In (ct here) (conds (flat l') name v) /\ length (conds (flat l') name v) <> num) -> evaluate here (flat_map (segment name) vs) env = env.
  Proof.
    intros here name vs. induction vs as [|v vs IH]; intros env H; [reflexivity|]. cbn [flat_map]. rewrite evaluate_app. assert (E : evaluate here (segment name v) env = env).
    { unfold segment. rewrite conditions_are. destruct (H v (or_introl eq_refl)) as (H1 & H2). apply Nat.eqb_neq in H2. rewrite H2. apply evaluate_none. exact H1. }
    rewrite E. apply IH. intros w I. apply H. right. exact I.
  Qed.
  Lemma block : forall here name env, In here (map fst l) -> consistent l name ->
    (forall v, stated l here name v -> forall n, evaluate here (entries_of num p name) env n = upd env name (expand env v) n) /\
    ((forall v, ~ stated l here name v) -> forall n, evaluate here (entries_of num p name) env n = env n).
  Proof.
    intros here name env HI C. change (entries_of num p name) with (flat_map (segment name) (sort (map fst (values_of p name)))).
    assert (ND : NoDup (sort (map fst (values_of p name)))) by (apply sort_NoDup; destruct (added_tabled l') as (_ & _ & T & _); apply T).
    assert (NI : forall v, ~ stated l here name v -> ~ In (ct here) (conds (flat l') name v)) by (intros v N I; apply conds_In in I; destruct I as (h & E & S); apply ct_inj in E; subst h; contradiction).
    destruct C as [A|(v0 & P & All & Only)].
    - assert (Z : forall v, ~ stated l here name v -> ~ In (ct here) (conds (flat l') name v) /\ length (conds (flat l') name v) <> num).
      { intros v N. split; [exact (NI v N)|]. intros L. apply (NI v N). assert (Inc : incl (conds (flat l') name v) (map ct (map fst l))).
        { intros c I. apply conds_In in I. destruct I as (h & -> & (g & I & _)). apply in_map. apply in_map_iff. exists (h, g). auto. }
        apply (NoDup_length_incl (conds_NoDup name v A)) in Inc; [|rewrite !map_length, L; apply le_n]. apply Inc. apply in_map. exact HI. }
      split.
      + intros v S n. assert (I : In v (sort (map fst (values_of p name)))) by (apply values_In; exists here; exact S). apply in_split in I. destruct I as (a & b & E). rewrite E in *. rewrite flat_map_app. cbn [flat_map]. rewrite !evaluate_app.
        assert (U : forall w, stated l here name w -> w = v). { intros w (g & G1 & G2). destruct S as (g' & G3 & G4). pose proof (one_g _ _ _ G1 G3) as X. subst g'. destruct (filter_once name g (A here g G1) w) as (_ & F). exact (F v G2 G4). }
        apply NoDup_remove in ND. destruct ND as (_ & ND). rewrite (quiet here name a) by (intros w W; apply Z; intros S'; apply U in S'; subst w; apply ND; apply in_or_app; left; exact W). rewrite (quiet here name b) by (intros w W; apply Z; intros S'; apply U in S'; subst w; apply ND; apply in_or_app; right; exact W).
        unfold segment. rewrite conditions_are. destruct (Nat.eqb _ num); [reflexivity|]. rewrite evaluate_once; [reflexivity|exact (conds_NoDup name v A)|]. apply conds_In. exists here. auto.
      + intros N n. rewrite quiet; [reflexivity|]. intros v _. apply Z. apply N.
    - apply in_map_iff in HI. destruct HI as ([h g] & HE & HI). cbn in HE. subst h. assert (S : stated l here name v0) by (exists g; split; [exact HI|exact (All _ _ HI)]). split.
      + intros v (g' & G1 & G2) n. assert (v = v0) by exact (Only _ _ _ G1 G2). subst v. assert (E : sort (map fst (values_of p name)) = [v0]).
        { assert (X : forall w, In w (sort (map fst (values_of p name))) -> w = v0) by (intros w W; apply values_In in W; destruct W as (h & (g2 & W1 & W2)); exact (Only _ _ _ W1 W2)). assert (Y : In v0 (sort (map fst (values_of p name)))) by (apply values_In; exists here; exact S). destruct (sort (map fst (values_of p name))) as [|a [|b r]]; [destruct Y|rewrite (X a (or_introl eq_refl)); reflexivity|]. exfalso. inversion ND as [|? ? D1 _]; subst. apply D1. left. rewrite (X a (or_introl eq_refl)), (X b (or_intror (or_introl eq_refl))). reflexivity. }
        rewrite E. cbn [flat_map]. rewrite app_nil_r. unfold segment. rewrite conditions_are. destruct (Nat.eqb _ num); [reflexivity|]. rewrite (evaluate_many _ _ _ _ P); [rewrite (expand_plain v0 env P); reflexivity|]. apply conds_In. exists here. auto.
      + intros N. destruct (N v0 S).
  Qed.
  Lemma evaluate_ext : forall here es env env', (forall n, env n = env' n) -> forall n, evaluate here es env n = evaluate here es env' n.
  Proof.
    clear. intros here. induction es as [|[[m c] v] es IH]; intros env env' H n; [apply H|]. cbn [evaluate]. apply IH. intros k. destruct (applies here c); [|apply H]. cbn zeta. destruct (String.eqb _ _); [|apply H]. apply expand_ext. intros x _. apply H.
  Qed.
  Hypothesis all_consistent : forall name, consistent l name.
  Lemma chain_other : forall here names env n, In here (map fst l) -> (forall x v, In x names -> stated l here x v -> lower_case n <> lower_case x) -> evaluate here (flat_map (entries_of num p) names) env n = env n.
  Proof.
    intros here names. induction names as [|x names IH]; intros env n HI H; [reflexivity|]. cbn [flat_map]. rewrite evaluate_app. rewrite IH; [|exact HI|intros y v I; apply H; right; exact I]. destruct (block here x env HI (all_consistent x)) as (B1 & B2).
    assert (D : (exists v, stated l here x v) \/ forall v, ~ stated l here x v).
    { apply in_map_iff in HI. destruct HI as ([h g] & HE & HI). cbn in HE. subst h. destruct (in_dec string_dec x (map fst g)) as [I|I].
      - left. apply in_map_iff in I. destruct I as ([y v] & E & I). cbn in E. subst y. exists v, g. auto.
      - right. intros v (g' & G1 & G2). rewrite (one_g _ _ _ G1 HI) in G2. apply I. apply in_map_iff. exists (x, v). auto. }
    destruct D as [(v & S)|N]; [|apply B2; exact N]. rewrite (B1 v S). unfold upd. destruct (String.eqb_spec (lower_case n) (lower_case x)) as [E|_]; [|reflexivity]. destruct (H x v (or_introl eq_refl) S E).
  Qed.
End Group.

Section Order.
  Variable l : list (string * list (string * string)).
  Hypothesis heres : NoDup (map fst l).
  Variable set_order : list string -> list string.
  Hypothesis set_members : forall s x, In x (set_order s) <-> In x s.
  Let p := added (map (fun c => (ct (fst c), snd c)) l).

  Lemma edges_uses : forall x y, In y (edges set_order p x) <-> uses l x y.
  Proof.
    intros x y. unfold edges. rewrite set_members, filter_In, in_flat_map, andb_true_iff, mem_In, negb_true_iff. unfold uses. pose proof (keys_In l y) as K. fold p in K. rewrite K. rewrite String.eqb_neq. split.
    - intros ((v & I & R) & (h & w & S) & N). split; [|split; [exists h, w; exact S|exact N]]. pose proof (values_In l x v) as V. fold p in V. apply V in I. destruct I as (h' & S'). exists h', v. split; [exact S'|]. apply refers_iff. exact R.
    - intros ((h' & v & S' & R) & (h & w & S) & N). split; [|split; [exists h, w; exact S|exact N]]. exists v. split; [|apply refers_iff; exact R]. pose proof (values_In l x v) as V. fold p in V. apply V. exists h'. exact S'.
  Qed.
  Lemma group_cases :
    (exists names, topologically_sorted (S (length p)) (map fst p) (edges set_order p) = Sorted names /\ NoDup names /\ (forall x, In x names <-> exists here v, stated l here x v) /\ forall x y, In x names -> uses l x y -> before x y names) \/
    (exists vs c, topologically_sorted (S (length p)) (map fst p) (edges set_order p) = CycleError vs /\ Relation_Operators.clos_trans string (uses l) c c).
  Proof.
    assert (U : forall x y, In x (map fst p) -> In y (edges set_order p x) -> In y (map fst p)) by (intros x y _ I; apply edges_uses in I; destruct I as (_ & (h & v & S) & _); apply keys_In; exists h, v; exact S).
    assert (T : forall a b, Relation_Operators.clos_trans string (fun x y => In y (edges set_order p x)) a b -> Relation_Operators.clos_trans string (uses l) a b) by (induction 1 as [x y H|x y z _ IH1 _ IH2]; [apply Relation_Operators.t_step; apply edges_uses; exact H|exact (Relation_Operators.t_trans _ _ _ _ _ IH1 IH2)]).
    destruct (topo_cases (edges set_order p) (map fst p) U (S (length p)) (map fst p)) as [(names & E & D & M & B & _)|(vs & c & E & _ & C & _)].
    - rewrite map_length. apply le_n.
    - intros x I. exact I.
    - left. exists names. split; [exact E|]. split; [exact D|]. split; [|intros x y I H; apply B; [exact I|apply edges_uses; exact H]].
      intros x. rewrite M. split.
      + intros (g & I & R). pose proof (keys_In l) as K. fold p in K. rewrite <- K. clear - R I U. apply Operators_Properties.clos_rt_rt1n in R. induction R as [|x y z H _ IH]; [exact I|]. apply IH. exact (U x y I H).
      + intros S. exists x. split; [pose proof (keys_In l x) as K; fold p in K; apply K; exact S|apply Relation_Operators.rt_refl].
    - right. exists vs, c. split; [exact E|exact (T _ _ C)].
  Qed.
  Hypothesis all_consistent : forall name, consistent l name.
  Hypothesis alike : spelled_alike l.
  Lemma group_evaluates : forall es, property_group set_order (length l) p = Sorted es -> forall here g env, In (here, g) l ->
    (forall name v, In (name, v) g -> evaluate here es env name = expand (fun n => if String.eqb n name then env n else evaluate here es env n) v) /\
    (forall n, (forall name v, In (name, v) g -> lower_case n <> lower_case name) -> evaluate here es env n = env n).
  Proof.
    intros es E here g env HI. assert (HI' : In here (map fst l)) by (apply in_map_iff; exists (here, g); auto). unfold property_group in E. destruct group_cases as [(names & T & D & M & B)|(vs & c & T & _)]; [|rewrite T in E; discriminate]. rewrite T in E. injection E as <-. set (L := rev names).
    assert (DL : NoDup L) by (apply NoDup_rev; exact D). assert (SG : forall x v, stated l here x v <-> In (x, v) g) by (intros x v; split; [intros (g' & G1 & G2); rewrite <- (one_g l heres _ _ _ G1 HI); exact G2|intros I; exists g; auto]).
    split.
    - intros name v I. assert (S : stated l here name v) by (apply SG; exact I). assert (IL : In name L) by (apply (proj1 (in_rev names name)); apply M; exists here, v; exact S). destruct (in_split _ _ IL) as (a & b & EL). rewrite EL. rewrite flat_map_app. cbn [flat_map]. rewrite !evaluate_app. set (E1 := evaluate here (flat_map (entries_of (length l) p) a) env).
      rewrite EL in DL. assert (NB : forall x w, In x b -> stated l here x w -> lower_case name <> lower_case x).
      { intros x w X W Q. assert (name = x) by (apply (alike here x w name W); [left; exists here, v; exact S|exact Q]). subst x. apply NoDup_remove in DL. destruct DL as (_ & DL). apply DL. apply in_or_app. right. exact X. }
      rewrite (chain_other l heres all_consistent here b) by assumption. destruct (block l heres here name E1 HI' (all_consistent name)) as (B1 & _). fold p in B1. rewrite (B1 v S). unfold upd. rewrite String.eqb_refl. apply expand_ext. intros n R. fold (refers v n) in R.
      assert (NA : forall k w, In k a -> stated l here k w -> lower_case n = lower_case k -> n = k) by (intros k w _ W Q; apply (alike here k w n W); [right; exists here, name, v; auto|exact Q]).
      destruct (String.eqb_spec n name) as [->|NN].
      + unfold E1. apply (chain_other l heres all_consistent); [exact HI'|]. intros x w X W Q. pose proof (NA x w X W Q). subst x. apply NoDup_remove in DL. destruct DL as (_ & DL). apply DL. apply in_or_app. left. exact X.
      + assert (Dn : (exists h w, stated l h n w) \/ ~ (exists h w, stated l h n w)). { destruct (in_dec string_dec n (map fst p)) as [X|X]; [left; apply (keys_In l n); exact X|right; intros Y; apply X; apply (keys_In l n); exact Y]. }
        assert (Later : In n b -> False).
        { intros X. assert (Bf : before name n names). { apply B; [apply M; exists here, v; exact S|]. split; [exists here, v; auto|]. split; [|exact NN]. apply M. apply (proj2 (in_rev names n)). fold L. rewrite EL. apply in_or_app. right. right. exact X. }
          destruct Bf as (x1 & x2' & x3 & Bf). assert (Bi : In n (x2' ++ n :: x3)) by (apply in_or_app; right; left; reflexivity). revert Bf Bi. generalize (x2' ++ n :: x3)%list as x2. intros x2 Bf Bi. unfold L in EL. rewrite Bf in EL. rewrite rev_app_distr in EL. cbn [rev] in EL. rewrite <- app_assoc in EL. assert (Q : forall (u w u' w' : list string) k, (u ++ k :: w = u' ++ k :: w')%list -> NoDup (u' ++ k :: w')%list -> u = u' /\ w = w').
          { clear. induction u as [|c u IH]; intros w u' w' k E N.
            - destruct u' as [|c' u']; [injection E as ->; auto|]. cbn in E. injection E as -> E. exfalso. cbn in N. inversion N as [|? ? N1 _]; subst. apply N1. apply in_or_app. right. left. reflexivity.
            - destruct u' as [|c' u']; [cbn in E; injection E as -> E; exfalso; cbn in N; inversion N as [|? ? N1 _]; subst; apply N1; apply in_or_app; right; left; reflexivity|]. cbn in E. injection E as -> E. cbn in N. inversion N as [|? ? _ N2]; subst. destruct (IH _ _ _ _ E N2) as (-> & ->). auto. }
          cbn [app] in EL. destruct (Q _ _ _ _ _ EL DL) as (QA & QB). rewrite <- QB in X. apply in_rev in X. assert (DN : NoDup (x1 ++ name :: x2)) by (rewrite <- Bf; exact D). apply NoDup_app_inv in DN. destruct DN as (_ & _ & DN). apply (DN n X). right. exact Bi. }
        symmetry. rewrite (chain_other l heres all_consistent here b _ n HI').
        * destruct (block l heres here name E1 HI' (all_consistent name)) as (B2 & _). fold p in B2. rewrite (B2 v S). unfold upd. destruct (String.eqb_spec (lower_case n) (lower_case name)) as [Q|_]; [|reflexivity]. destruct NN. apply (alike here name v n S); [right; exists here, name, v; auto|exact Q].
        * intros x w X W Q. assert (n = x) by (apply (alike here x w n W); [right; exists here, name, v; auto|exact Q]). subst x. exact (Later X).
    - intros n H. apply (chain_other l heres all_consistent); [exact HI'|]. intros x w _ W. apply H with w. apply SG. exact W.
  Qed.
End Order.
