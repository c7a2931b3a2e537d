From Verif Require Import Lib Str StrFacts LibFacts Model_Names Model_Path Model_Writer Model_XcodeGroups Spec_XcodeGroups.
From Verif Require Import Proof_Path Proof_XcodeGroups Proof_XcodeGroups2.
From Verif Require Proof_Vs.
From Coq Require Import Lia Permutation.
Local Open Scope string_scope.
Arguments init : simpl never.

Definition comps (top : bool) (l : list string) : Prop := match l with [] => False | c :: cs => okc top c /\ Forall (okc false) cs end.

Lemma append_ok : forall e kids k, append_child e kids = Added k -> k = (kids ++ [e])%list.
Proof. intros e kids k. unfold append_child. destruct (match key (props_of e) with Some s => _ | None => false end); [discriminate|]. destruct (match e with File _ => false | Group v p _ => _ end); [discriminate|]. congruence. Qed.
Lemma goods_snoc : forall top kids e, goods top kids -> good top e -> (forall k, In k kids -> id k <> id e) -> goods top (kids ++ [e])%list.
Proof.
  intros top kids e [F D] G N. split; [apply Forall_app; split; [exact F|constructor; [exact G|constructor]]|]. rewrite map_app. cbn [map]. apply NoDup_app_intro; [exact D|repeat constructor; intros []|].
  intros x X [Y|[]]. apply in_map_iff in X. destruct X as (k & E & K). apply (N k K). congruence.
Qed.
Lemma goods_replace : forall top l1 e e' l2, goods top (l1 ++ e :: l2)%list -> good top e' -> id e' = id e -> goods top (l1 ++ e' :: l2)%list.
Proof.
  intros top l1 e e' l2 [F D] G E. split.
  - apply Forall_app in F. destruct F as [F1 F2]. apply Forall_cons_iff in F2. apply Forall_app. split; [exact F1|constructor; [exact G|tauto]].
  - rewrite map_app in *. cbn [map] in *. rewrite E. exact D.
Qed.
Lemma child_find : forall c kids, okn c -> child_at c kids = find (has_key c) kids.
Proof. intros c kids [_ C]. unfold child_at. destruct (String.eqb_spec c ""); [contradiction|reflexivity]. Qed.
Lemma find_none_all : forall (m : elem -> bool) kids, find m kids = None -> forall e, In e kids -> m e = false.
Proof. intros m kids H e E. exact (find_none m kids H e E). Qed.
Lemma find_In : forall (m : elem -> bool) kids e, find m kids = Some e -> In e kids.
Proof. intros m kids e H. apply (find_some m kids H). Qed.
Lemma listed_one : forall e, listed [e] = files "" e.
Proof. intros e. unfold listed. cbn. apply app_nil_r. Qed.

Lemma listed_grow : forall l1 l2 e e' s, Permutation (files "" e') (s :: files "" e) -> Permutation (listed (l1 ++ e' :: l2)%list) (s :: listed (l1 ++ e :: l2)%list).
Proof.
  intros l1 l2 e e' s P. rewrite !listed_app. change (listed (e' :: l2)) with (files "" e' ++ listed l2)%list. change (listed (e :: l2)) with (files "" e ++ listed l2)%list.
  transitivity (listed l1 ++ (s :: files "" e) ++ listed l2)%list; [apply Permutation_app_head, Permutation_app_tail; exact P|]. apply Permutation_sym, Permutation_middle.
Qed.

(** A file in the group itself. *)
Lemma file_main : forall top c kids kids', okc top c -> goods top kids -> add_file c kids = Added kids' ->
  goods top kids' /\ ((kids' = kids /\ In c (listed kids)) \/ (~ In c (listed kids) /\ Permutation (listed kids') (c :: listed kids))).
Proof.
  intros top c kids kids' C G H. unfold add_file in H. rewrite (child_find c kids (proj1 C)) in H. destruct (find (has_key c) kids) as [e|] eqn:E.
  - destruct (find_split _ _ _ E) as (M & l1 & l2 & K & _). assert (I := find_In _ _ _ E). destruct G as [F D]. rewrite Forall_forall in F. apply (proj1 (has_key_id top e c (F e I) (proj1 C))) in M. destruct (id_cases top e c (F e I) M) as [_ [->|(sub & -> & _)]]; [|discriminate H].
    injection H as <-. split; [split; [apply Forall_forall; exact F|exact D]|]. left. split; [reflexivity|]. unfold listed. apply in_flat_map. eexists. split; [exact I|]. left. apply (place_init top c C).
  - apply append_ok in H. subst kids'. rewrite (new_file_init top c C). assert (N : forall k, In k kids -> id k <> (false, Some c)).
    { intros k K X. destruct G as [F _]. rewrite Forall_forall in F. apply (proj2 (has_key_id top k c (F k K) (proj1 C))) in X. rewrite (find_none_all _ _ E k K) in X. discriminate X. }
    split.
    + apply goods_snoc; [exact G|constructor; exact C|]. intros k K. replace (id (File (init None (Some c)))) with (false, Some c) by (cbn [id props_of]; rewrite (key_init top c C); reflexivity). exact (N k K).
    + right. split.
      * intros I. destruct (listed_In top kids c G I) as [(d & <- & _ & K)|[(d & sub & t & X & _)|(n & sub & d & r & X & _)]].
        -- apply (N _ K). cbn [id props_of]. rewrite (key_init top c C). reflexivity.
        -- exact (no_slash_app c d t (proj1 (proj1 C)) X).
        -- exact (no_slash_app c d n (proj1 (proj1 C)) X).
      * rewrite listed_app, listed_one. cbn [files]. rewrite (place_init top c C). apply Permutation_sym, Permutation_cons_append.
Qed.

(** A variant. *)
Lemma new_variant_file : forall r d n, okn d -> okn n -> no_variable d -> new_file (Some r) (d ++ "/" ++ n) = File {| name := Some r; tree := "<group>"; path := Some (d ++ "/" ++ n) |}.
Proof.
  intros r d n D N V. unfold new_file, init. assert (P : no_variable (d ++ "/" ++ n)). { unfold no_variable in *. destruct (String.prefix "$(" (d ++ "/" ++ n)) eqn:Q; [|reflexivity]. apply Proof_Vs.prefix_iff in Q. destruct Q as (t & Q). destruct D as [_ D]. destruct d as [|a d]; [congruence|]. cbn in Q. injection Q as Qa Q. subst a. destruct d as [|b d]; [discriminate Q|]. cbn in Q. injection Q as Qb _. subst b. change (String "$" (String "(" d)) with ("$(" ++ d) in V. rewrite prefix_dollar in V. discriminate V. }
  rewrite (source_plain _ P). cbn [path name tree]. rewrite ends_slash_sep by exact (proj2 N). rewrite (ends_slash_no_char n (proj2 N) (proj1 N)). reflexivity.
Qed.
Lemma variant_ids : forall n sub e, Forall (variant_file n) sub -> In e sub -> id e = (false, key (props_of e)).
Proof. intros n sub e F E. rewrite Forall_forall in F. destruct (F e E) as (d & r & _ & _ & _ & ->). reflexivity. Qed.
Lemma variant_main : forall top d x r kids kids', okn d -> no_variable d -> okn x -> language d = Some r -> goods top kids -> add_variant x None r (d ++ "/" ++ x) kids = Added kids' ->
  goods top kids' /\ (no_file kids -> no_file kids') /\ ((kids' = kids /\ In (d ++ "/" ++ x) (listed kids)) \/ (~ In (d ++ "/" ++ x) (listed kids) /\ Permutation (listed kids') ((d ++ "/" ++ x) :: listed kids))).
Proof.
  intros top d x r kids kids' D V X L G H. unfold add_variant in H.
  assert (VF : variant_file x (File {| name := Some r; tree := "<group>"; path := Some (d ++ "/" ++ x) |})) by (exists d, r; repeat split; try assumption; apply D).
  (* no group and no other variant lists it *)
  assert (O : forall s, (forall e, In e kids -> id e = (true, Some x) -> exists sub, e = Group true {| name := Some x; tree := "<group>"; path := None |} sub /\ ~ In (File {| name := Some s; tree := "<group>"; path := Some (d ++ "/" ++ x) |}) sub /\ s = r) -> In (d ++ "/" ++ x) (listed kids) -> s = r -> False).
  { intros s Hs I Es. subst s. destruct (listed_In top kids _ G I) as [(c & E & C & _)|[(c & sub & t & E & C & K & T)|(n & sub & c & q & E & N & C & L' & K & J)]].
    - destruct C as [C _]. apply (no_slash_app c d x (proj1 C)). symmetry. exact E.
    - destruct (slash_split _ _ _ _ (proj1 D) (proj1 (proj1 C)) E) as [<- <-]. destruct G as [F _]. rewrite Forall_forall in F. assert (Gk := F _ K). destruct (id_cases top _ d Gk) as (_ & [Z|(sub' & Z & F' & N' & L' & _)]).
      + cbn [id props_of]. rewrite (key_init top d C). reflexivity.
      + discriminate Z.
      + injection Z as <-. destruct (listed_In false sub x (conj F' N') T) as [(c & <- & _ & K')|[(c & u & t & E' & _)|(n & u & c & q & E' & _)]].
        * apply (L' (fun Y => eq_ind (Some r) (fun o => match o with Some _ => True | None => False end) Logic.I None (eq_trans (eq_sym L) Y)) _ K').
        * exact (no_slash_app x c t (proj1 X) E').
        * exact (no_slash_app x c n (proj1 X) E').
    - destruct (slash_split _ _ _ _ (proj1 D) (proj1 C) E) as [<- <-]. destruct (Hs _ K eq_refl) as (sub' & Z & NI & _). injection Z as <-. apply NI. rewrite L in L'. injection L' as <-. exact J. }
  destruct (find (is_variant (Some x) None) kids) as [e|] eqn:E.
  - destruct (find_split _ _ _ E) as (M & l1 & l2 & K & CH). assert (I := find_In _ _ _ E). assert (G' := G). destruct G' as [F ND]. rewrite Forall_forall in F. apply (proj1 (variant_id top e x (F e I))) in M. destruct (id_variant top e x (F e I) M) as (sub & -> & _ & FV & NE & DS).
    assert (PK : (d ++ "/" ++ x) <> "") by (destruct d; discriminate).
    unfold child_at in H. destruct (String.eqb_spec (d ++ "/" ++ x) ""); [contradiction|]. destruct (find (has_key (d ++ "/" ++ x)) sub) as [f|] eqn:Ef.
    + assert (If := find_In _ _ _ Ef). destruct (find_split _ _ _ Ef) as (Mf & _). rewrite Forall_forall in FV. destruct (FV f If) as (d' & r' & L' & D' & V' & ->). injection H as <-. split; [exact G|]. split; [tauto|]. left. split; [reflexivity|].
      unfold has_key, key in Mf. cbn [props_of tree path] in Mf. change (String.eqb "<group>" "<group>") with true in Mf. cbv iota in Mf. apply String.eqb_eq in Mf. unfold listed. apply in_flat_map. eexists. split; [exact I|]. cbn [files]. apply in_flat_map. eexists. split; [exact If|]. left. exact Mf.
    + rewrite (new_variant_file r d x D X V) in H. destruct (append_child _ sub) as [sub'| |] eqn:A; try discriminate H. apply append_ok in A. subst sub'. rewrite CH in H. injection H as <-.
      assert (NK : forall f, In f sub -> id f <> (false, Some (d ++ "/" ++ x))).
      { intros f If Y. rewrite (variant_ids x sub f FV If) in Y. injection Y as Y. assert (Z := find_none_all _ _ Ef f If). unfold has_key in Z. rewrite Y, String.eqb_refl in Z. discriminate Z. }
      split; [|split].
      * rewrite K in G. apply (goods_replace top l1 _ _ l2 G); [|reflexivity]. constructor; [exact X|apply Forall_app; split; [exact FV|constructor; [exact VF|constructor]]|destruct sub; discriminate|].
        rewrite map_app. apply NoDup_app_intro; [exact DS|repeat constructor; intros []|]. intros y Y [Z|[]]. apply in_map_iff in Y. destruct Y as (f & Y1 & Y2). apply (NK f Y2). rewrite Y1, <- Z. reflexivity.
      * intros NF p J. rewrite K in NF. apply in_app_or in J. destruct J as [J|[J|J]]; [apply (NF p); apply in_or_app; left; exact J|discriminate J|apply (NF p); apply in_or_app; right; right; exact J].
      * right. split.
        -- intros J. apply (O r); [|exact J|reflexivity]. intros k Kk Ik. assert (k = Group true {| name := Some x; tree := "<group>"; path := None |} sub) by (apply (nodup_same kids k _ ND Kk I); rewrite Ik; reflexivity). subst k. exists sub. split; [reflexivity|]. split; [|reflexivity]. intros Q. apply (NK _ Q). reflexivity.
        -- rewrite K. apply (listed_grow l1 l2). rewrite !files_variant, listed_app, listed_one. cbn [files]. apply Permutation_sym, Permutation_cons_append.
  - apply append_ok in H. subst kids'. rewrite (new_variant_file r d x D X V). assert (N : forall k, In k kids -> id k <> (true, Some x)).
    { intros k K Y. destruct G as [F _]. rewrite Forall_forall in F. apply (proj2 (variant_id top k x (F k K))) in Y. rewrite (find_none_all _ _ E k K) in Y. discriminate Y. }
    change (init (Some x) None) with {| name := Some x; tree := "<group>"; path := None |}. split; [|split].
    + apply goods_snoc; [exact G| |exact N]. constructor; [exact X|constructor; [exact VF|constructor]|discriminate|repeat constructor; intros []].
    + intros NF p J. apply in_app_or in J. destruct J as [J|[J|[]]]; [exact (NF p J)|discriminate J].
    + right. split; [intros J; apply (O r); [|exact J|reflexivity]; intros k Kk Ik; destruct (N k Kk Ik)|]. rewrite listed_app, listed_one, files_variant, listed_one. cbn [files]. apply Permutation_sym, Permutation_cons_append.
Qed.
