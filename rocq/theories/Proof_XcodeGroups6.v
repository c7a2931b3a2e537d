From Verif Require Import Lib Str StrFacts LibFacts Model_Names Model_Path Model_Writer Model_XcodeGroups Spec_XcodeGroups.
From Verif Require Import Proof_Path Proof_XcodeGroups Proof_XcodeGroups2 Proof_XcodeGroups3 Proof_XcodeGroups4 Proof_XcodeGroups5.
From Verif Require Proof_Expand Proof_Vs.
From Coq Require Import Lia Permutation.
Local Open Scope string_scope.
Arguments init : simpl never.

Lemma ends_one : forall s a, ends_slash (s ++ String a "") = Ascii.eqb a "/".
Proof. induction s as [|x s IH]; intros a; [reflexivity|]. specialize (IH a). destruct s; exact IH. Qed.
(** ** A file below a source tree *)
Lemma variable_end_more : forall v q acc, has_char ")" v = false -> variable_end acc (v ++ ")/" ++ q) = Some (acc ++ v, Some q).
Proof.
  induction v as [|a v IH]; intros q acc H; [cbn; rewrite append_nil_r; reflexivity|]. cbn [has_char] in H. change (String a v ++ ")/" ++ q) with (String a (v ++ ")/" ++ q)). cbn [variable_end].
  destruct (Ascii.eqb a ")") eqn:E; [discriminate H|]. rewrite IH by exact H. rewrite append_assoc. reflexivity.
Qed.
Lemma source_more : forall v q, has_char ")" v = false -> source_tree ("$(" ++ v ++ ")/" ++ q) = Some (v, Some q).
Proof.
  intros v q H. unfold source_tree. rewrite prefix_dollar. set (r := v ++ ")/" ++ q). change (String.length ("$(" ++ r)) with (S (S (String.length r))). replace (S (S (String.length r)) - 2) with (String.length r) by lia.
  change (substring 2 (String.length r) ("$(" ++ r)) with (substring 0 (String.length r) r). rewrite substring_whole. exact (variable_end_more v q "" H).
Qed.
Lemma below_tree : forall n above v q, has_char ")" v = false -> v <> "<group>" -> isabs q = false -> ends_slash q = false ->
  let f := new_file n ("$(" ++ v ++ ")/" ++ q) in place above (props_of f) = "$(" ++ v ++ ")/" ++ q /\ key (props_of f) = Some ("$(" ++ v ++ ")/" ++ q).
Proof.
  intros n above v q H G A E f. unfold f, new_file. cbn [props_of].
  assert (T : tree (init n (Some ("$(" ++ v ++ ")/" ++ q))) = v /\ path (init n (Some ("$(" ++ v ++ ")/" ++ q))) = Some q).
  { unfold init. rewrite (source_more v q H). split; reflexivity. }
  destruct T as [T1 T2]. rewrite T2, E. unfold place, key. rewrite T1, T2. destruct (String.eqb_spec v "<group>"); [contradiction|]. split; [reflexivity|].
  assert (L : ends_slash ("$(" ++ v ++ ")") = false).
  { exact (ends_one ("$(" ++ v) ")"). }
  rewrite join_fine; [|destruct v; discriminate|exact L|exact A]. rewrite !append_assoc. reflexivity.
Qed.

(** ** A directory *)
Lemma dir_split : forall l, Forall okn l -> l <> [] -> split_char slash (String.concat "/" l ++ "/") = (l ++ [""])%list.
Proof.
  intros l K N. replace (String.concat "/" l ++ "/") with (String.concat "/" (l ++ [""])%list) by (rewrite concat_snoc by exact N; reflexivity).
  apply split_concat; [destruct l; discriminate|]. intros x X. apply in_app_or in X. destruct X as [X|[<-|[]]]; [|reflexivity]. rewrite Forall_forall in K. apply K. exact X.
Qed.
Lemma norm_trailing : forall b l acc, norm_comps b acc (l ++ [""])%list = norm_comps b acc l.
Proof. induction l as [|c l IH]; intros acc; [reflexivity|]. cbn [app norm_comps]. repeat match goal with |- (if ?b then _ else _) = _ => destruct b end; apply IH. Qed.
Lemma dir_norm : forall l, normal l -> normpath (String.concat "/" l ++ "/") = String.concat "/" l.
Proof.
  intros l H. assert (F := normal_fix l H). destruct (normal_okn l H) as [K N].
  assert (A : isabs (String.concat "/" l) = false) by (apply concat_not_abs; intros c C; rewrite Forall_forall in K; exact (K c C)).
  assert (E : String.concat "/" l <> "") by (apply concat_nonempty; [intros c C; rewrite Forall_forall in K; apply (K c C)|exact N]).
  assert (D := dir_split l K N). assert (D' := normal_split l K N). unfold normpath in *. destruct (String.concat "/" l) as [|x s]; [contradiction|]. cbn [append] in *. rewrite D, norm_trailing. rewrite D' in F.
  change (isabs (String x (s ++ "/"))) with (isabs (String x s)). replace (initial_slashes (String x (s ++ "/"))) with (initial_slashes (String x s)); [exact F|]. cbn in A |- *. rewrite A. reflexivity.
Qed.
Lemma dir_dirname : forall l, normal l -> dirname (String.concat "/" l ++ "/") = String.concat "/" l.
Proof.
  intros l H. destruct (normal_okn l H) as [K N]. assert (E : String.concat "/" l <> "") by (apply concat_nonempty; [intros c C; rewrite Forall_forall in K; apply (K c C)|exact N]).
  unfold dirname, path_split. rewrite (proj2 (rsplit1_Some slash _ (String.concat "/" l) "")); [|split; [reflexivity|reflexivity]].
  rewrite all_slashes_head; [|exact E|apply concat_not_abs; intros c C; rewrite Forall_forall in K; exact (K c C)]. rewrite rstrip_one; [reflexivity|exact E|]. apply concat_ends; assumption.
Qed.
Lemma ends_snoc : forall s, ends_slash (s ++ "/") = true.
Proof. intros s. exact (ends_one s "/"). Qed.
Lemma new_dir : forall c, okn c -> no_variable c -> new_file None (c ++ "/") = File {| name := None; tree := "<group>"; path := Some c |}.
Proof.
  intros c C V. unfold new_file. assert (S : source_tree (c ++ "/") = None).
  { apply source_plain. unfold no_variable in *. destruct (String.prefix "$(" (c ++ "/")) eqn:P; [|reflexivity]. exfalso. apply Proof_Vs.prefix_iff in P. destruct P as [r P].
    destruct c as [|a [|b c]]; [discriminate P|discriminate P|]. cbn [append] in P. injection P as P1 P2 P3. subst a b. change (String "$" (String "(" c)) with ("$(" ++ c) in V. rewrite prefix_dollar in V. discriminate V. }
  assert (B : basename (c ++ "/") = ""). { unfold basename, path_split. rewrite (proj2 (rsplit1_Some slash _ c "")); [|split; reflexivity]. reflexivity. }
  unfold init. rewrite S, B. change (String.eqb "" "") with true. cbn [orb path name tree]. rewrite ends_snoc. do 3 f_equal. rewrite Proof_Expand.length_app. cbn [String.length].
  replace (String.length c + 1 - 1) with (String.length c) by lia. clear. induction c as [|a c IH]; [reflexivity|]. cbn. rewrite IH. reflexivity.
Qed.
Lemma child_nil : forall k, child_at k [] = None.
Proof. intros k. unfold child_at. destruct (String.eqb k ""); reflexivity. Qed.
Lemma append_first : forall e, append_child e [] = Added [e].
Proof. intros e. unfold append_child. destruct (key (props_of e)) as [s|]; cbn [existsb]; rewrite ?andb_false_r; destruct e as [p|[|] p sub]; reflexivity. Qed.
Lemma dir_added : forall n l kids, normal l -> Forall no_variable l -> add n (String.concat "/" l ++ "/") [] = Added kids ->
  listed kids = [String.concat "/" l] /\ forall above, above <> "" -> flat_map (files above) kids = [above ++ "/" ++ String.concat "/" l].
Proof.
  induction n as [|n IH]; intros l kids H V A; [discriminate A|]. destruct (normal_okn l H) as [K N]. cbn [add] in A. rewrite ends_snoc, (dir_norm l H), (dir_dirname l H) in A.
  destruct (splitext (basename (String.concat "/" l))) as [r e]. cbn [andb orb] in A. destruct (String.eqb e ".lproj"); [discriminate A|].
  assert (D : split_char "/" (String.concat "/" l ++ "/") = (l ++ [""])%list) by exact (dir_split l K N). rewrite D in A. destruct l as [|c l]; [congruence|].
  apply Forall_cons_iff in K. destruct K as [K1 K]. apply Forall_cons_iff in V. destruct V as [V1 V]. destruct l as [|d l].
  - cbn [length app Nat.eqb orb] in A. cbn [String.concat] in A. rewrite child_nil, append_first, (new_dir c K1 V1) in A. injection A as <-. split; [reflexivity|]. intros above B. cbn. destruct (String.eqb_spec above ""); [contradiction|]. reflexivity.
  - rewrite app_length in A. cbn [length app Nat.eqb orb Nat.add] in A. assert (Z : Nat.eqb (length l + 1) 0 = false) by (apply Nat.eqb_neq; lia).
    assert (okc false c) as C by (split; [exact K1|left; exact V1]).
    assert (IN : init None (Some c) = {| name := None; tree := "<group>"; path := Some c |}) by (rewrite (init_name c K1), (source_plain c V1); reflexivity).
    rewrite ?Z in A. cbn [andb orb] in A.
    assert (Q : String.concat "/" (d :: l ++ [""])%list = String.concat "/" (d :: l) ++ "/") by (change (d :: l ++ [""])%list with ((d :: l) ++ [""])%list; rewrite concat_snoc by discriminate; reflexivity).
    rewrite child_nil, append_first, Q in A.
    destruct (add n (String.concat "/" (d :: l) ++ "/") []) as [sub'| |] eqn:S; try discriminate A. injection A as <-.
    destruct (IH (d :: l) sub' (normal_tail _ _ _ H) V S) as [_ IH2].
      rewrite IN. unfold listed. cbn [flat_map files]. rewrite app_nil_r. unfold place. cbn [tree path]. change (String.eqb "<group>" "<group>") with true. cbv iota. split.
      * change (String.eqb "" "") with true. cbv iota. rewrite IH2 by exact (proj2 K1). reflexivity.
      * intros above B. destruct (String.eqb_spec above ""); [contradiction|]. cbn [flat_map files]. rewrite app_nil_r. unfold place. cbn [tree path]. change (String.eqb "<group>" "<group>") with true. cbv iota. destruct (String.eqb_spec above ""); [contradiction|].
        rewrite IH2 by (destruct above; [contradiction|discriminate]). rewrite (concat_cons _ c (d :: l)), !append_assoc. reflexivity.
Qed.
Lemma directory_added : forall n p kids, isabs p = false -> ends_slash p = true -> Forall no_variable (split_char "/" (normpath p)) -> add n p [] = Added kids -> listed kids = [normpath p].
Proof.
  intros n p kids A E V H. destruct (normpath_rel p A) as (l & P & N). destruct (normal_okn l N) as [K NE]. rewrite P in V |- *. rewrite (normal_split' l K NE) in V.
  apply (dir_added n l kids N V). rewrite <- H. destruct n as [|n]; [reflexivity|]. cbn [add]. rewrite ends_snoc, E, P, (dir_norm l N). reflexivity.
Qed.
