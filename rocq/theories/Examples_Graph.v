(** Concrete target dicts used to show that the hypotheses of the graph
    theorems can be met, with boolean checkers for those hypotheses. *)
From Verif Require Import Lib LibFacts Model_Graph Spec_Graph.

Definition nodupb (l : list string) : bool := Nat.eqb (length (nodup string_dec l)) (length l).
Lemma nodupb_ok : forall l, nodupb l = true -> NoDup l.
Proof.
  intros l H. apply Nat.eqb_eq in H. induction l as [|x l IH]; [constructor|].
  simpl in H. destruct (in_dec string_dec x l) as [Hi|Hi].
  - exfalso. assert (length (nodup string_dec l) <= length l); [|simpl in H; lia].
    apply NoDup_incl_length; [apply NoDup_nodup|]. intros y Hy. apply nodup_In in Hy. exact Hy.
  - simpl in H. constructor; [exact Hi|apply IH; lia].
Qed.

Definition closedb (ts : targets) : bool :=
  forallb (fun '(_, s) => forallb (fun d => mem d (map fst ts)) (deps_list s)) ts.
Lemma closedb_ok : forall ts, closedb ts = true -> closed ts.
Proof.
  intros ts H t d [s [l [H1 [H2 H3]]]]. unfold closedb in H. rewrite forallb_forall in H.
  specialize (H _ H1). cbn in H. rewrite forallb_forall in H. apply mem_In. apply H. unfold deps_list. rewrite H2. exact H3.
Qed.

Definition exportsb (ts : targets) : bool :=
  forallb (fun '(_, s) => forallb (fun d => mem d (map fst ts)) (sp_exports s)) ts.
Lemma exportsb_ok : forall ts, exportsb ts = true -> forall t d, exports_to ts t d -> In d (names ts).
Proof.
  intros ts H t d [s [H1 H2]]. unfold exportsb in H. rewrite forallb_forall in H.
  specialize (H _ H1). cbn in H. rewrite forallb_forall in H. apply mem_In. apply H. exact H2.
Qed.

Definition typedb (ts : targets) : bool :=
  forallb (fun '(_, s) => sp_has_name s && match sp_type s with Some _ => true | None => false end) ts.
Lemma typedb_ok : forall ts, typedb ts = true -> typed ts.
Proof.
  intros ts H t s H1. unfold typedb in H. rewrite forallb_forall in H. specialize (H _ H1). cbn in H.
  apply andb_true_iff in H. destruct H as [H2 H3]. split; [exact H2|]. destruct (sp_type s); [discriminate|discriminate H3].
Qed.

Definition target (ty : string) (deps exports : list string) (hard : bool) : spec :=
  mk_spec (Some deps) exports (Some ty) true true hard true None.

(** An executable over two static libraries, one of which re-exports a hard
    code-generation library, plus a shared library. *)
Definition sample : targets :=
  [("app", target "executable" ["liba"; "libshared"] [] false);
   ("liba", target "static_library" ["libb"; "gen"] ["libb"] false);
   ("libb", target "static_library" ["gen"] ["gen"] false);
   ("gen", target "static_library" [] [] true);
   ("libshared", target "shared_library" ["libb"] [] false)]%string.

Definition sample_flat : list string := ["gen"; "libb"; "libshared"; "liba"; "app"]%string.

(** The same graph with the dict and the lists enumerated differently. *)
Definition sample_permuted : targets :=
  [("libshared", target "shared_library" ["libb"] [] false);
   ("gen", target "static_library" [] [] true);
   ("liba", target "static_library" ["gen"; "libb"; "gen"] ["libb"] false);
   ("app", target "executable" ["libshared"; "liba"] [] false);
   ("libb", target "static_library" ["gen"] ["gen"] false)]%string.

(** A cycle b -> c -> b next to an unrelated target a. *)
Definition sample_cycle : targets :=
  [("a", target "none" [] [] false);
   ("b", target "none" ["c"] [] false);
   ("c", target "none" ["b"] [] false)]%string.

(** A cycle reachable from a target without dependencies. *)
Definition sample_cycle2 : targets :=
  [("a", target "none" [] [] false);
   ("b", target "none" ["c"; "a"] [] false);
   ("c", target "none" ["b"] [] false)]%string.

Definition sample_missing : targets :=
  [("a", target "none" ["ghost"] [] false)]%string.

Lemma sample_dict : is_dict sample. Proof. apply nodupb_ok. reflexivity. Qed.
Lemma sample_permuted_dict : is_dict sample_permuted. Proof. apply nodupb_ok. reflexivity. Qed.
Lemma sample_cycle_dict : is_dict sample_cycle. Proof. apply nodupb_ok. reflexivity. Qed.
Lemma sample_cycle2_dict : is_dict sample_cycle2. Proof. apply nodupb_ok. reflexivity. Qed.
Lemma sample_missing_dict : is_dict sample_missing. Proof. apply nodupb_ok. reflexivity. Qed.
Lemma sample_closed : closed sample. Proof. apply closedb_ok. reflexivity. Qed.
Lemma sample_cycle_closed : closed sample_cycle. Proof. apply closedb_ok. reflexivity. Qed.
Lemma sample_typed : typed sample. Proof. apply typedb_ok. reflexivity. Qed.
Lemma sample_exports : forall t d, exports_to sample t d -> In d (names sample).
Proof. apply exportsb_ok. reflexivity. Qed.

Definition depends_onb (ts : targets) (t d : string) : bool :=
  existsb (fun '(t', s) => String.eqb t t' && mem d (deps_list s)) ts.
Lemma depends_onb_ok : forall ts t d, depends_onb ts t d = true <-> depends_on ts t d.
Proof.
  intros ts t d. unfold depends_onb. rewrite existsb_exists. split.
  - intros [[t' s] [H1 H2]]. apply andb_true_iff in H2. destruct H2 as [H2 H3]. apply String.eqb_eq in H2. subst t'.
    apply mem_In in H3. unfold deps_list in H3. destruct (sp_deps s) as [l|] eqn:E; [|destruct H3].
    exists s, l. repeat split; assumption.
  - intros [s [l [H1 [H2 H3]]]]. exists (t, s). split; [exact H1|]. rewrite String.eqb_refl. cbn.
    apply mem_In. unfold deps_list. rewrite H2. exact H3.
Qed.

Lemma sample_cycle_cyclic : cyclic sample_cycle.
Proof.
  exists "b"%string. apply t_trans with "c"%string; apply t_step; apply depends_onb_ok; reflexivity.
Qed.
