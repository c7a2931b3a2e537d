From Verif Require Import Lib LibFacts Str StrFacts Model_Graph Spec_Graph Proof_Graph Proof_Deps Model_Names Spec_Names.

(** ** Qualified names *)

Lemma parse_qualify : forall file target toolset,
  no_colon target -> no_colon toolset -> no_hash toolset -> (toolset = EmptyString -> no_hash target) ->
  parse_qualified_target (qualified_target file target toolset) =
  (Some file, target, match toolset with EmptyString => None | _ => Some toolset end).
Proof.
  intros file target toolset H1 H2 H3 H4. unfold parse_qualified_target, qualified_target.
  destruct toolset as [|c toolset].
  - assert (E : rsplit1 colon (file ++ String colon target)%string = Some (file, target))
      by (apply rsplit1_Some; split; [reflexivity|exact H1]).
    rewrite E. assert (E2 : rsplit1 hash target = None) by (apply rsplit1_None; apply H4; reflexivity).
    rewrite E2. reflexivity.
  - set (ts := String c toolset) in *.
    assert (E : rsplit1 colon ((file ++ String colon target) ++ String hash ts)%string = Some (file, (target ++ String hash ts)%string)).
    { apply rsplit1_Some. split; [rewrite append_assoc; reflexivity|]. rewrite has_char_app.
      unfold no_colon in *. rewrite H1. cbn [orb has_char]. change (Ascii.eqb hash colon) with false. cbn iota. exact H2. }
    rewrite E. assert (E2 : rsplit1 hash (target ++ String hash ts)%string = Some (target, ts))
      by (apply rsplit1_Some; split; [reflexivity|exact H3]).
    rewrite E2. reflexivity.
Qed.

Lemma qualify_injective : forall f1 t1 s1 f2 t2 s2,
  no_colon t1 -> no_colon s1 -> no_hash s1 -> (s1 = EmptyString -> no_hash t1) ->
  no_colon t2 -> no_colon s2 -> no_hash s2 -> (s2 = EmptyString -> no_hash t2) ->
  qualified_target f1 t1 s1 = qualified_target f2 t2 s2 -> f1 = f2 /\ t1 = t2 /\ s1 = s2.
Proof.
  intros f1 t1 s1 f2 t2 s2 A1 A2 A3 A4 B1 B2 B3 B4 E.
  assert (H : parse_qualified_target (qualified_target f1 t1 s1) = parse_qualified_target (qualified_target f2 t2 s2))
    by (rewrite E; reflexivity).
  rewrite parse_qualify, parse_qualify in H by assumption. inversion H. repeat split.
  destruct s1, s2; congruence.
Qed.

Lemma parse_spelled : forall q f t s, parse_qualified_target q = (f, t, s) -> spelled q f t s.
Proof.
  intros q f t s H. unfold parse_qualified_target in H. unfold spelled.
  destruct (rsplit1 colon q) as [[b r]|] eqn:E1.
  - apply rsplit1_Some in E1. destruct E1 as [-> _].
    destruct (rsplit1 hash r) as [[t' s']|] eqn:E2; inversion H; subst.
    + apply rsplit1_Some in E2. destruct E2 as [-> _]. rewrite append_assoc. reflexivity.
    + rewrite append_nil_r, append_assoc. reflexivity.
  - destruct (rsplit1 hash q) as [[t' s']|] eqn:E2; inversion H; subst.
    + apply rsplit1_Some in E2. destruct E2 as [-> _]. reflexivity.
    + rewrite append_nil_r. reflexivity.
Qed.

Lemma build_file_qualified : forall file target toolset, no_colon target -> no_colon toolset ->
  build_file (qualified_target file target toolset) = file.
Proof.
  intros file target toolset H1 H2. unfold build_file, qualified_target. destruct toolset as [|c s].
  - assert (E : rsplit1 colon (file ++ String colon target)%string = Some (file, target))
      by (apply rsplit1_Some; split; [reflexivity|exact H1]). rewrite E. reflexivity.
  - set (ts := String c s) in *.
    assert (E : rsplit1 colon ((file ++ String colon target) ++ String hash ts)%string = Some (file, (target ++ String hash ts)%string)).
    { apply rsplit1_Some. split; [rewrite append_assoc; reflexivity|]. rewrite has_char_app.
      unfold no_colon in *. rewrite H1. cbn [orb has_char]. change (Ascii.eqb hash colon) with false. cbn iota. exact H2. }
    rewrite E. reflexivity.
Qed.

(** ** BuildTargetsDict *)

Lemma build_targets_loop_spec : forall todo acc, NoDup (map fst acc) ->
  (build_targets_loop todo acc = inl (acc ++ todo) /\ NoDup (map fst (acc ++ todo))) \/
  (exists q, build_targets_loop todo acc = inr (DuplicateTarget q) /\
             exists l1 l2 l3, map fst (acc ++ todo) = l1 ++ q :: l2 ++ q :: l3).
Proof.
  induction todo as [|[q ti] todo IH]; intros acc Hnd; cbn [build_targets_loop].
  - left. rewrite app_nil_r. split; [reflexivity|exact Hnd].
  - destruct (mem_spec q (map fst acc)) as [Hm|Hm].
    + right. exists q. split; [reflexivity|]. apply in_split in Hm. destruct Hm as [l1 [l2 E]].
      exists l1, l2, (map fst todo). rewrite map_app, E. cbn [map fst]. rewrite <- app_assoc. reflexivity.
    + destruct (IH (acc ++ [(q, ti)])) as [[E N]|[q' [E N]]].
      * rewrite map_app. apply NoDup_snoc; assumption.
      * left. rewrite <- app_assoc in E, N. split; assumption.
      * right. exists q'. rewrite <- app_assoc in N. split; assumption.
Qed.

Lemma all_targets_names : forall data, map fst (all_targets data) = qualified_names data.
Proof.
  intros data. unfold all_targets, qualified_names. induction data as [|[f tis] data IH]; [reflexivity|].
  cbn [flat_map]. rewrite map_app, IH. f_equal. rewrite map_map. reflexivity.
Qed.

Lemma build_targets_spec : forall data,
  (NoDup (qualified_names data) -> build_targets_dict data = inl (all_targets data)) /\
  (~ NoDup (qualified_names data) -> exists q, build_targets_dict data = inr (DuplicateTarget q) /\
     exists l1 l2 l3, qualified_names data = l1 ++ q :: l2 ++ q :: l3).
Proof.
  intros data. unfold build_targets_dict. destruct (build_targets_loop_spec (all_targets data) []) as [[E N]|[q [E [l1 [l2 [l3 N]]]]]].
  - constructor.
  - cbn [app] in *. rewrite all_targets_names in N. split; [intros _; exact E|intros C; contradiction].
  - cbn [app] in *. rewrite all_targets_names in N. split; [|intros _; exists q; split; [exact E|exists l1, l2, l3; exact N]].
    intros C. exfalso. rewrite N in C. apply NoDup_remove_2 in C. apply C. apply in_or_app. right. apply in_or_app. right. left. reflexivity.
Qed.

(** ** Wildcards *)

Fixpoint expand_map (data : build_data) (target : string) (ds : list string) : list string + names_error :=
  match ds with
  | [] => inl []
  | d :: ds' =>
    if negb (is_wildcard d) then
      match expand_map data target ds' with inl r => inl (d :: r) | inr e => inr e end
    else if String.eqb (build_file d) (build_file target) then inr (SameFileWildcard target)
    else match assoc (build_file d) data with
         | None => inr (NoSuchBuildFile (build_file d))
         | Some tis =>
           match expand_map data target ds' with
           | inl r => inl (wildcard_matches d (build_file d) tis ++ r)
           | inr e => inr e
           end
         end
  end.

Lemma delete_at_app : forall l d r, delete_at (length l) (l ++ d :: r) = l ++ r.
Proof.
  intros l d r. unfold delete_at. rewrite firstn_app, firstn_all, Nat.sub_diag. cbn [firstn]. rewrite app_nil_r.
  rewrite skipn_app. rewrite skipn_all2 by lia. replace (S (length l) - length l) with 1 by lia. reflexivity.
Qed.
Lemma insert_at_app : forall l x r, insert_at (length l) x (l ++ r) = l ++ x :: r.
Proof.
  intros l x r. unfold insert_at. rewrite firstn_app, firstn_all, Nat.sub_diag. cbn [firstn]. rewrite app_nil_r.
  rewrite skipn_app, skipn_all, Nat.sub_diag. reflexivity.
Qed.
Lemma insert_matches_app : forall ms l r, insert_matches (length l) ms (l ++ r) = (length (l ++ ms), (l ++ ms) ++ r).
Proof.
  induction ms as [|m ms IH]; intros l r; cbn [insert_matches]; [rewrite app_nil_r; reflexivity|].
  rewrite insert_at_app. assert (H := IH (l ++ [m]) r). rewrite app_length in H. cbn [length] in H.
  replace (length l + 1) with (S (length l)) in H by lia. rewrite <- app_assoc in H. cbn [app] in H. rewrite H.
  rewrite <- !app_assoc. reflexivity.
Qed.

Lemma expand_loop_map : forall data target rest fuel done, length rest < fuel ->
  expand_loop fuel data target (length done) (done ++ rest) =
  match expand_map data target rest with inl r => inl (done ++ r) | inr e => inr e end.
Proof.
  intros data target rest; induction rest as [|d rest IH]; intros fuel done Hf; (destruct fuel as [|fuel]; [lia|]); cbn [expand_loop].
  - rewrite app_nil_r. rewrite (proj2 (nth_error_None done (length done))) by lia. cbn. rewrite app_nil_r. reflexivity.
  - rewrite nth_error_app2 by lia. rewrite Nat.sub_diag. cbn [nth_error expand_map]. cbn [length] in Hf.
    destruct (negb (is_wildcard d)).
    + assert (H := IH fuel (done ++ [d])). rewrite app_length in H. cbn [length] in H. rewrite Nat.add_1_r in H.
      rewrite <- app_assoc in H. cbn [app] in H. rewrite H by lia. destruct (expand_map data target rest); [|reflexivity].
      rewrite <- app_assoc. reflexivity.
    + destruct (String.eqb (build_file d) (build_file target)); [reflexivity|].
      destruct (assoc (build_file d) data) as [tis|]; [|reflexivity].
      rewrite delete_at_app, insert_matches_app. rewrite IH by lia. destruct (expand_map data target rest); [|reflexivity].
      rewrite <- app_assoc. reflexivity.
Qed.

Lemma expand_wildcards_map : forall data target ds, expand_wildcards data target ds = expand_map data target ds.
Proof.
  intros data target ds. unfold expand_wildcards. assert (H := expand_loop_map data target ds (S (length ds)) []). cbn [app length] in H.
  rewrite H by lia. destruct (expand_map data target ds); reflexivity.
Qed.

Lemma concat_map_flat : forall A B (f : A -> list B) l, concat (map f l) = flat_map f l.
Proof. intros A B f l; induction l as [|x l IH]; cbn; [reflexivity|]. rewrite IH. reflexivity. Qed.

(** What one entry expands to. *)
Definition expansion (data : build_data) (d : string) : list string :=
  if is_wildcard d then match assoc (build_file d) data with
                        | Some tis => wildcard_matches d (build_file d) tis
                        | None => []
                        end
  else [d].

Local Notation expandable_ data target d :=
  (is_wildcard d = true -> build_file d <> build_file target /\ In (build_file d) (map fst data)).

Lemma expand_map_spec : forall data target ds,
  ((forall d, In d ds -> expandable_ data target d) -> expand_map data target ds = inl (flat_map (expansion data) ds)) /\
  (forall r, expand_map data target ds = inl r -> forall d, In d ds -> expandable_ data target d).
Proof.
  intros data target ds; induction ds as [|d ds [IH1 IH2]]; cbn [expand_map flat_map].
  - split; [reflexivity|intros r _ d []].
  - unfold expansion at 1. destruct (is_wildcard d) eqn:Ew; cbn [negb].
    + split.
      * intros H. destruct (H d (or_introl eq_refl) Ew) as [H1 H2].
        destruct (String.eqb_spec (build_file d) (build_file target)); [contradiction|].
        destruct (assoc_Some_key _ _ _ H2) as [tis Et]. rewrite Et. rewrite IH1 by (intros x Hx; apply H; right; exact Hx). reflexivity.
      * intros r. destruct (String.eqb_spec (build_file d) (build_file target)) as [|Hn]; [discriminate|].
        destruct (assoc (build_file d) data) as [tis|] eqn:Et; [|discriminate].
        destruct (expand_map data target ds) as [r'|]; [|discriminate]. intros _ x [<-|Hx].
        -- intros _. split; [exact Hn|]. apply assoc_In in Et. apply (in_map fst) in Et. exact Et.
        -- apply (IH2 r' eq_refl). exact Hx.
    + split.
      * intros H. rewrite IH1 by (intros x Hx; apply H; right; exact Hx). reflexivity.
      * intros r. destruct (expand_map data target ds) as [r'|]; [|discriminate]. intros _ x [<-|Hx].
        -- intros C; congruence.
        -- apply (IH2 r' eq_refl). exact Hx.
Qed.

Lemma wildcard_matches_In : forall d file target toolset tis x,
  parse_qualified_target d = (Some file, target, Some toolset) ->
  (In x (wildcard_matches d file tis) <->
   exists ti, In ti tis /\ ti_suppress ti = false /\ pattern_matches target toolset ti /\
              x = qualified_target file (ti_name ti) (ti_toolset ti)).
Proof.
  intros d file target toolset tis x E. unfold wildcard_matches. rewrite E. rewrite in_map_iff.
  unfold pattern_matches, star. split.
  - intros [ti [Ex Hin]]. apply filter_In in Hin. destruct Hin as [H1 H2]. rewrite !andb_true_iff, !orb_true_iff, !String.eqb_eq, negb_true_iff in H2.
    exists ti. split; [exact H1|]. split; [apply H2|]. split; [|symmetry; exact Ex]. split; [apply H2|apply H2].
  - intros [ti [H1 [H2 [[H3 H4] H5]]]]. exists ti. split; [symmetry; exact H5|]. apply filter_In. split; [exact H1|].
    rewrite !andb_true_iff, !orb_true_iff, !String.eqb_eq, negb_true_iff. tauto.
Qed.

Lemma build_file_parse : forall q f t s, parse_qualified_target q = (Some f, t, s) -> build_file q = f.
Proof.
  intros q f t s H. unfold parse_qualified_target, build_file in *. destruct (rsplit1 colon q) as [[b r]|].
  - destruct (rsplit1 hash r) as [[t' s']|]; inversion H; reflexivity.
  - destruct (rsplit1 hash q) as [[t' s']|]; inversion H.
Qed.

Lemma is_wildcard_parse : forall q f t s, parse_qualified_target q = (f, t, s) ->
  (is_wildcard q = true <-> t = "*"%string \/ s = Some "*"%string).
Proof.
  intros q f t s H. unfold is_wildcard. rewrite H. rewrite orb_true_iff, String.eqb_eq. unfold star.
  destruct s as [s|]; [rewrite String.eqb_eq; split; intros [X|X]; try (left; exact X); right; congruence|].
  split; intros [X|X]; try (left; exact X); discriminate.
Qed.

Lemma plain_not_wildcard : forall file ti, plain_info ti ->
  is_wildcard (qualified_target file (ti_name ti) (ti_toolset ti)) = false.
Proof.
  intros file ti [H1 [H2 [H3 [H4 [H5 H6]]]]].
  assert (E := parse_qualify file (ti_name ti) (ti_toolset ti) H1 H2 H3 (fun C => False_ind _ (H6 C))).
  destruct (is_wildcard (qualified_target file (ti_name ti) (ti_toolset ti))) eqn:Ew; [|reflexivity]. exfalso.
  apply (proj1 (is_wildcard_parse _ _ _ _ E)) in Ew. destruct Ew as [C|C]; [contradiction|].
  destruct (ti_toolset ti); [discriminate|]. congruence.
Qed.

Lemma wildcards_spec : forall data target ds,
  (* success exactly when no wildcard points at the same or an unknown file *)
  ((exists r, expand_wildcards data target ds = inl r) <-> forall d, In d ds -> expandable_ data target d) /\
  (forall r, expand_wildcards data target ds = inl r ->
     r = flat_map (expansion data) ds /\
     sublist (filter (fun d => negb (is_wildcard d)) ds) r /\
     ((forall f tis ti, In (f, tis) data -> In ti tis -> plain_info ti) ->
      forall x, In x r -> is_wildcard x = false)).
Proof.
  intros data target ds. rewrite expand_wildcards_map. destruct (expand_map_spec data target ds) as [H1 H2]. split.
  - split; [intros [r E]; apply (H2 r E)|]. intros H. exists (flat_map (expansion data) ds). apply H1. exact H.
  - intros r E. assert (Er : r = flat_map (expansion data) ds).
    { specialize (H1 (H2 r E)). congruence. }
    split; [exact Er|]. subst r. split.
    + clear. induction ds as [|d ds IH]; cbn [filter flat_map]; [constructor|]. unfold expansion at 1.
      destruct (is_wildcard d); cbn [negb].
      * rewrite <- (app_nil_l (filter _ _)). apply sublist_app; [apply sublist_nil|exact IH].
      * change (d :: filter (fun d => negb (is_wildcard d)) ds) with ([d] ++ filter (fun d => negb (is_wildcard d)) ds).
        apply sublist_app; [apply sublist_refl|exact IH].
    + intros Hp x Hx. apply in_flat_map in Hx. destruct Hx as [d [Hd Hx]]. unfold expansion in Hx.
      destruct (is_wildcard d) eqn:Ew; [|destruct Hx as [<-|[]]; exact Ew].
      destruct (assoc (build_file d) data) as [tis|] eqn:Et; [|destruct Hx]. apply assoc_In in Et.
      unfold wildcard_matches in Hx. destruct (parse_qualified_target d) as [[f t] s]. apply in_map_iff in Hx.
      destruct Hx as [ti [<- Hti]]. apply filter_In in Hti. apply plain_not_wildcard. apply (Hp _ _ ti Et). apply Hti.
Qed.

(** ** Pruning *)

Lemma find_qualified_In : forall t qs q, In q (find_qualified_targets t qs) <-> In q qs /\ target_name_of q = t.
Proof. intros t qs q. unfold find_qualified_targets. rewrite filter_In, String.eqb_eq. tauto. Qed.

Lemma resolve_roots_spec : forall flat roots,
  (exists qs, resolve_roots flat roots = inl qs /\
     (forall r, In r roots -> exists q, named_by flat r q) /\
     (forall q, In q qs <-> exists r, In r roots /\ named_by flat r q)) \/
  (exists r, In r roots /\ resolve_roots flat roots = inr (TargetNotFound (strip r)) /\ ~ exists q, named_by flat r q).
Proof.
  intros flat roots; induction roots as [|r roots IH]; cbn [resolve_roots].
  - left. exists []. split; [reflexivity|]. split; [intros r []|]. intros q. split; [intros []|intros [r [[] _]]].
  - destruct (find_qualified_targets (strip r) flat) as [|q0 qs0] eqn:E.
    + right. exists r. split; [left; reflexivity|]. split; [reflexivity|]. intros [q [H1 H2]].
      assert (C : In q (find_qualified_targets (strip r) flat)) by (apply find_qualified_In; split; assumption).
      rewrite E in C. destruct C.
    + destruct IH as [[qs [E1 [H1 H2]]]|[r' [H1 [H2 H3]]]].
      * left. rewrite E1. exists ((q0 :: qs0) ++ qs). split; [reflexivity|]. rewrite <- E. split.
        -- intros r' [<-|Hr]; [|apply H1; exact Hr]. exists q0. assert (Hq : In q0 (find_qualified_targets (strip r) flat)) by (rewrite E; left; reflexivity).
           apply find_qualified_In in Hq. exact Hq.
        -- intros q. rewrite in_app_iff, find_qualified_In, H2. split.
           ++ intros [Hq|[r' [Hr Hq]]]; [exists r; split; [left; reflexivity|exact Hq]|exists r'; split; [right; exact Hr|exact Hq]].
           ++ intros [r' [[<-|Hr] Hq]]; [left; exact Hq|right; exists r'; split; assumption].
      * right. rewrite H2. exists r'. split; [right; exact H1|]. split; [reflexivity|exact H3].
Qed.

Lemma collect_wanted_spec : forall ts, is_dict ts -> closed ts -> ~ cyclic ts -> forall roots wanted,
  incl roots (names ts) -> NoDup wanted ->
  exists w, collect_wanted (node_dependencies ts) (S (length ts)) roots wanted = Ok w /\ NoDup w /\
    forall x, In x w <-> In x wanted \/ exists r, In r roots /\ (x = r \/ depends_transitively ts r x).
Proof.
  intros ts Hd Hc Hn roots; induction roots as [|r roots IH]; intros wanted Hi Hnd; cbn [collect_wanted].
  - exists wanted. split; [reflexivity|]. split; [exact Hnd|]. intros x. split; [tauto|]. intros [H|[r [[] _]]]; exact H.
  - destruct (deep_of_spec ts r Hd Hc Hn (Hi r (or_introl eq_refl))) as [l [E [_ [Hl _]]]]. unfold deep_of in E. rewrite E. cbn [bind].
    destruct (fold_oset_add l (oset_add r wanted) (oset_add_NoDup r wanted Hnd)) as [N [I _]].
    destruct (IH (fold_left (fun w d => oset_add d w) l (oset_add r wanted)) (fun x Hx => Hi x (or_intror Hx)) N) as [w [Ew [Nw Hw]]].
    exists w. split; [exact Ew|]. split; [exact Nw|]. intros x. rewrite Hw, I, oset_add_In, Hl. split.
    + intros [[[->|H]|H]|[r' [Hr H]]].
      * right. exists r. split; [left; reflexivity|left; reflexivity].
      * left; exact H.
      * right. exists r. split; [left; reflexivity|right; exact H].
      * right. exists r'. split; [right; exact Hr|exact H].
    + intros [H|[r' [[<-|Hr] H]]].
      * left; left; right; exact H.
      * destruct H as [->|H]; [left; left; left; reflexivity|left; right; exact H].
      * right. exists r'. split; assumption.
Qed.

Lemma prune_spec : forall ts flat roots data, is_dict ts -> closed ts -> ~ cyclic ts -> Permutation flat (names ts) ->
  ((forall r, In r roots -> exists q, named_by flat r q) ->
   exists wanted flat' data', prune_unwanted_targets ts flat (node_dependencies ts) roots data = inl (wanted, flat', data') /\
     NoDup wanted /\ (forall x, In x wanted <-> wanted_by ts flat roots x) /\
     sublist flat' flat /\ (forall x, In x flat' <-> wanted_by ts flat roots x) /\
     map fst data' = map fst data /\
     (forall f tis, In (f, tis) data -> exists tis', In (f, tis') data' /\ sublist tis' tis /\
        forall ti, In ti tis' <-> In ti tis /\ wanted_by ts flat roots (qualified_target f (ti_name ti) (ti_toolset ti)))) /\
  ((exists r, In r roots /\ ~ exists q, named_by flat r q) ->
   exists r, In r roots /\ (~ exists q, named_by flat r q) /\
     prune_unwanted_targets ts flat (node_dependencies ts) roots data = inr (TargetNotFound (strip r))).
Proof.
  intros ts flat roots data Hd Hc Hn Hp. unfold prune_unwanted_targets.
  destruct (resolve_roots_spec flat roots) as [[qs [E [H1 H2]]]|[r [H1 [H2 H3]]]].
  - rewrite E. split; [|intros [r [Hr C]]; exfalso; apply C; apply H1; exact Hr]. intros _.
    destruct (collect_wanted_spec ts Hd Hc Hn qs []) as [w [Ew [Nw Hw]]].
    + intros q Hq. apply H2 in Hq. destruct Hq as [r [_ [Hq _]]]. apply (Permutation_in _ Hp). exact Hq.
    + constructor.
    + rewrite Ew.
      assert (Hwx : forall x, In x w <-> wanted_by ts flat roots x).
      { intros x. rewrite Hw. unfold wanted_by. split.
        - intros [[]|[q [Hq H]]]. apply H2 in Hq. destruct Hq as [r [Hr Hq]]. exists r, q. split; [exact Hr|]. split; [exact Hq|exact H].
        - intros [r [q [Hr [Hq H]]]]. right. exists q. split; [apply H2; exists r; split; assumption|exact H]. }
      eexists w, _, _. split; [reflexivity|]. split; [exact Nw|]. split; [exact Hwx|]. split; [apply sublist_filter|]. split; [|split].
      * intros x. rewrite filter_In, mem_In, Hwx. split; [tauto|]. intros Hx. split; [|exact Hx].
        destruct Hx as [r [q [Hr [[Hq _] [->|H]]]]]; [exact Hq|]. apply (Permutation_in _ (Permutation_sym Hp)).
        unfold depends_transitively in H. apply clos_trans_tn1 in H. inversion H as [y Hy|y z Hy _]; subst; apply (Hc _ _ Hy).
      * rewrite map_map. apply map_ext. intros [f tis]. reflexivity.
      * intros f tis Hin. eexists. split; [apply in_map_iff; exists (f, tis); split; [reflexivity|exact Hin]|].
        split; [apply sublist_filter|]. intros ti. rewrite filter_In, mem_In, Hwx. tauto.
  - rewrite H2. split; [intros C; exfalso; apply H3; apply C; exact H1|]. intros _. exists r. split; [exact H1|]. split; [exact H3|reflexivity].
Qed.

(** ** Colliding targets *)

Definition place (q : string) : option string :=
  match rsplit1 colon q with Some (p, n) => Some (subdir_of p ++ String colon n)%string | None => None end.

Lemma place_same : forall q1 q2 k, place q1 = Some k -> (place q2 = Some k <-> same_place q1 q2).
Proof.
  intros q1 q2 k H1. unfold place in *. destruct (rsplit1 colon q1) as [[p1 n1]|] eqn:E1; [|discriminate].
  apply rsplit1_Some in E1. destruct E1 as [-> N1]. injection H1 as <-. split.
  - destruct (rsplit1 colon q2) as [[p2 n2]|] eqn:E2; [|discriminate]. apply rsplit1_Some in E2. destruct E2 as [-> N2].
    intros H. injection H as H.
    assert (K1 : rsplit1 colon (subdir_of p1 ++ String colon n1)%string = Some (subdir_of p1, n1)) by (apply rsplit1_Some; split; [reflexivity|exact N1]).
    assert (K2 : rsplit1 colon (subdir_of p2 ++ String colon n2)%string = Some (subdir_of p2, n2)) by (apply rsplit1_Some; split; [reflexivity|exact N2]).
    rewrite <- H, K2 in K1. injection K1 as K3 K4. subst n2. exists p1, p2, n1. repeat split; [exact N1|congruence].
  - intros [p1' [p2' [n [Ea [Eb [Nn Es]]]]]].
    assert (K1 : rsplit1 colon (p1 ++ String colon n1)%string = Some (p1', n)) by (apply rsplit1_Some; split; [exact Ea|exact Nn]).
    assert (K2 : rsplit1 colon (p1 ++ String colon n1)%string = Some (p1, n1)) by (apply rsplit1_Some; split; [reflexivity|exact N1]).
    assert (K3 : rsplit1 colon q2 = Some (p2', n)) by (apply rsplit1_Some; split; [exact Eb|exact Nn]).
    rewrite K3. rewrite K2 in K1. injection K1 as -> ->. rewrite Es. reflexivity.
Qed.

Lemma colliding_loop : forall qs used, (forall q, In q qs -> place q <> None) ->
  (verify_colliding_loop used qs = inl tt <->
   (forall q k, In q qs -> place q = Some k -> ~ In k used) /\ ~ colliding qs) /\
  (verify_colliding_loop used qs <> inl tt -> exists n d, verify_colliding_loop used qs = inr (Colliding n d)).
Proof.
  intros qs; induction qs as [|q qs IH]; intros used Hq; cbn [verify_colliding_loop].
  - split; [|intros C; congruence]. split; [|reflexivity]. intros _. split; [intros q k []|].
    intros [l1 [q1 [l2 [q2 [l3 [E _]]]]]]. destruct l1; discriminate.
  - assert (Hpl := Hq q (or_introl eq_refl)). unfold place in Hpl.
    destruct (rsplit1 colon q) as [[p n]|] eqn:E; [|congruence].
    assert (Epl : place q = Some (subdir_of p ++ String colon n)%string) by (unfold place; rewrite E; reflexivity).
    set (k := (subdir_of p ++ String colon n)%string) in *. clear Hpl.
    destruct (mem_spec k used) as [Hm|Hm].
    + split; [|intros _; eexists _, _; reflexivity]. split; [discriminate|]. intros [H _]. exfalso. apply (H q k (or_introl eq_refl) Epl Hm).
    + destruct (IH (used ++ [k]) (fun x Hx => Hq x (or_intror Hx))) as [IH1 IH2]. split; [|exact IH2]. rewrite IH1. split.
      * intros [H1 H2]. split.
        -- intros x kx [<-|Hx] Ekx; [congruence|]. intros C. apply (H1 x kx Hx Ekx). apply in_or_app. left. exact C.
        -- intros [l1 [q1 [l2 [q2 [l3 [El Hs]]]]]]. destruct l1 as [|a l1]; cbn [app] in El; inversion El; subst.
           ++ apply (place_same q1 q2 k Epl) in Hs. apply (H1 q2 k); [apply in_or_app; right; left; reflexivity|exact Hs|].
              apply in_or_app. right. left. reflexivity.
           ++ apply H2. exists l1, q1, l2, q2, l3. split; [reflexivity|exact Hs].
      * intros [H1 H2]. split.
        -- intros x kx Hx Ekx C. apply in_app_or in C. destruct C as [C|[<-|[]]]; [apply (H1 x kx (or_intror Hx) Ekx C)|].
           apply H2. apply in_split in Hx. destruct Hx as [l1 [l2 ->]]. exists [], q, l1, x, l2. split; [reflexivity|].
           apply (place_same q x k Epl). exact Ekx.
        -- intros [l1 [q1 [l2 [q2 [l3 [El Hs]]]]]]. apply H2. subst qs. exists (q :: l1), q1, l2, q2, l3. split; [reflexivity|exact Hs].
Qed.

Lemma colliding_spec : forall qs, (forall q, In q qs -> has_char colon q = true) ->
  (verify_no_colliding_targets qs = inl tt <-> ~ colliding qs) /\
  ((exists n d, verify_no_colliding_targets qs = inr (Colliding n d)) <-> verify_no_colliding_targets qs <> inl tt).
Proof.
  intros qs Hq. destruct (colliding_loop qs []) as [H1 H2].
  - intros q Hin C. unfold place in C. destruct (rsplit1 colon q) as [[p n]|] eqn:E; [discriminate|].
    apply rsplit1_None in E. specialize (Hq q Hin). congruence.
  - unfold verify_no_colliding_targets. split.
    + rewrite H1. split; [tauto|]. intros H. split; [intros q k _ _ []|exact H].
    + split; [intros [n [d ->]]; discriminate|exact H2].
Qed.

(** ** The wildcard statement of Props_Names *)

Lemma is_wildcard_spec : forall d file target toolset, parse_qualified_target d = (Some file, target, Some toolset) ->
  (is_wildcard d = true <-> wildcard d).
Proof.
  intros d file target toolset E. rewrite (is_wildcard_parse d _ _ _ E). unfold wildcard. split.
  - intros H. exists file, target, toolset. split; [exact E|]. destruct H as [H|H]; [left; exact H|right; congruence].
  - intros [f [t [s [E' H]]]]. rewrite E in E'. inversion E'; subst. destruct H as [H|H]; [left; exact H|right; congruence].
Qed.

Lemma expandable_spec : forall data target d, fully_qualified d ->
  ((is_wildcard d = true -> build_file d <> build_file target /\ In (build_file d) (map fst data)) <-> expandable data target d).
Proof.
  intros data target d [f [t [s E]]]. unfold expandable. rewrite <- (is_wildcard_spec d f t s E). tauto.
Qed.

Lemma wildcards_final : forall data target ds,
  NoDup (map fst data) -> (forall d, In d ds -> fully_qualified d) ->
  ((exists r, expand_wildcards data target ds = inl r) <-> forall d, In d ds -> expandable data target d) /\
  (forall r, expand_wildcards data target ds = inl r ->
     (exists pieces, Forall2 (expands data) ds pieces /\ r = concat pieces) /\
     ((forall f tis ti, In (f, tis) data -> In ti tis -> plain_info ti) -> forall x, In x r -> ~ wildcard x)).
Proof.
  intros data target ds Hnd Hq. destruct (wildcards_spec data target ds) as [H1 H2]. split.
  - rewrite H1. split; intros H d Hd; apply (expandable_spec data target d (Hq d Hd)); apply H; exact Hd.
  - intros r E. assert (Hex := proj1 H1 (ex_intro _ r E)). destruct (H2 r E) as [Er [_ Hw]]. split.
    + exists (map (expansion data) ds). split; [|rewrite Er; symmetry; apply concat_map_flat].
      clear - Hnd Hq Hex. induction ds as [|d ds IH]; cbn [map]; constructor.
      * destruct (Hq d (or_introl eq_refl)) as [f [t [s E]]]. assert (Hb := build_file_parse _ _ _ _ E).
        assert (Hw := is_wildcard_spec d f t s E). unfold expansion. destruct (is_wildcard d) eqn:Ew.
        -- right. destruct (Hex d (or_introl eq_refl) Ew) as [_ Hk]. rewrite Hb in *. destruct (assoc_Some_key _ _ _ Hk) as [tis Et].
           rewrite Et. apply assoc_In in Et. split; [apply Hw; reflexivity|].
           unfold wildcard_matches. rewrite E.
           eexists f, t, s, tis, _. split; [reflexivity|]. split; [exact Et|]. split; [apply sublist_filter|]. split; [|reflexivity].
           intros ti. rewrite filter_In, !andb_true_iff, !orb_true_iff, !String.eqb_eq, negb_true_iff. unfold pattern_matches, star. tauto.
        -- left. split; [intros C; apply Hw in C; discriminate|reflexivity].
      * apply IH; intros x Hx; [apply Hq|apply Hex]; right; exact Hx.
    + intros Hp x Hx [f [t [s [E' Hst]]]]. specialize (Hw Hp x Hx).
      assert (C := proj2 (is_wildcard_spec x f t s E') (ex_intro _ f (ex_intro _ t (ex_intro _ s (conj E' Hst))))). congruence.
Qed.

Lemma name_collision : exists f1 t1 f2 t2,
  f1 <> f2 /\ t1 <> t2 /\ qualified_target f1 t1 "target" = qualified_target f2 t2 "target".
Proof. exists "a.gyp"%string, "b:c"%string, "a.gyp:b"%string, "c"%string. repeat split; discriminate. Qed.

Lemma star_name : exists data target ds r,
  NoDup (map fst data) /\ (forall d, In d ds -> fully_qualified d) /\
  expand_wildcards data target ds = inl r /\ exists x, In x r /\ wildcard x.
Proof.
  exists [("b.gyp", [mk_tinfo "*" "target" false])]%string, "a.gyp:t#target"%string, ["b.gyp:*#target"]%string, ["b.gyp:*#target"]%string.
  split; [constructor; [intros []|constructor]|]. split; [intros d [<-|[]]; eexists _, _, _; reflexivity|]. split; [reflexivity|].
  eexists. split; [left; reflexivity|]. eexists _, _, _. split; [reflexivity|]. left. reflexivity.
Qed.
