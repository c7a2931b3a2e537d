(** Proofs about compiler and linker flags: what the lines leave behind. *)
From Verif Require Import Lib Str StrFacts LibFacts Model_Path Model_Memo Spec_Quote Model_Quote Proof_Quote Model_Writer Proof_Suffix Proof_Parts Model_Flags Spec_Flags Proof_Flags Proof_Flags2.
Local Open Scope string_scope.

(** Names of variables the lines set *)
Definition owned (x : string) : bool :=
  mem x ["TOOLSET"; "TARGET"; "OBJS"; "LIBS"] || String.prefix "DEFS_" x || String.prefix "CFLAGS_" x || String.prefix "INCS_" x || String.prefix "LDFLAGS_" x || String.prefix "LIBTOOLFLAGS_" x.
Definition stable (v0 v : variables) : Prop := forall x, owned x = false -> lookup_in v x = lookup_in v0 x.

Lemma owned_pre : forall p n, In p ["DEFS_"; "CFLAGS_"; "CFLAGS_C_"; "CFLAGS_CC_"; "INCS_"; "LDFLAGS_"] -> owned (p ++ n) = true.
Proof.
  intros p n H. unfold owned.
  destruct H as [<-|[<-|[<-|[<-|[<-|[<-|[]]]]]]].
  - rewrite (prefix_app "DEFS_" n), !orb_true_r. reflexivity.
  - rewrite (prefix_app "CFLAGS_" n), !orb_true_r. reflexivity.
  - change ("CFLAGS_C_" ++ n) with ("CFLAGS_" ++ "C_" ++ n). rewrite (prefix_app "CFLAGS_" ("C_" ++ n)), !orb_true_r. reflexivity.
  - change ("CFLAGS_CC_" ++ n) with ("CFLAGS_" ++ "CC_" ++ n). rewrite (prefix_app "CFLAGS_" ("CC_" ++ n)), !orb_true_r. reflexivity.
  - rewrite (prefix_app "INCS_" n), !orb_true_r. reflexivity.
  - rewrite (prefix_app "LDFLAGS_" n), !orb_true_r. reflexivity.
Qed.

(** ** Reading lines in general *)
Lemma read_lines_app : forall s a b, read_lines s (a ++ b) = read_lines (read_lines s a) b.
Proof. intros s a b. apply fold_left_app. Qed.
Lemma lookup_same : forall v x o, lookup_in ((x, o) :: v) x = o.
Proof. intros v x o. unfold lookup_in. cbn [assoc]. rewrite String.eqb_refl. reflexivity. Qed.
Lemma lookup_other : forall v x y o, y <> x -> lookup_in ((y, o) :: v) x = lookup_in v x.
Proof. intros v x y o N. unfold lookup_in. cbn [assoc]. destruct (String.eqb_spec x y); [congruence|reflexivity]. Qed.

Definition sets (l : assignment) (x : string) : Prop := exists text, l = Assign x text.
Lemma read_keeps : forall ls s x, (forall l, In l ls -> ~ sets l x) -> lookup_in (fst (read_lines s ls)) x = lookup_in (fst s) x.
Proof.
  induction ls as [|l ls IH]; intros [v sp] x H; [reflexivity|]. unfold read_lines in *. cbn [fold_left]. rewrite IH by (intros l' Hl'; apply H; right; exact Hl').
  destruct l as [y text|fs y text]; [|reflexivity]. cbn [read_line fst]. apply lookup_other. intros ->. apply (H (Assign x text)); [left; reflexivity|exists text; reflexivity].
Qed.
Lemma read_stable : forall ls s, (forall l x, In l ls -> sets l x -> owned x = true) -> stable (fst s) (fst (read_lines s ls)).
Proof.
  intros ls s H x Hx. apply read_keeps. intros l Hl S. rewrite (H l x Hl S) in Hx. discriminate.
Qed.
Lemma stable_trans : forall a b c, stable a b -> stable b c -> stable a c.
Proof. intros a b c H1 H2 x Hx. rewrite H2, H1 by exact Hx. reflexivity. Qed.
(** A variable all lines for which mean the same *)
Lemma read_sets : forall v0 ls s x v, (forall l y, In l ls -> sets l y -> owned y = true) -> stable v0 (fst s) ->
  (forall text, In (Assign x text) ls -> forall w, stable v0 w -> read_value (lookup_in w) text = v) ->
  (lookup_in (fst s) x = v \/ exists text, In (Assign x text) ls) -> lookup_in (fst (read_lines s ls)) x = v.
Proof.
  intros v0. induction ls as [|l ls IH]; intros [vs sp] x v Ho Hs Ht Hx.
  { destruct Hx as [Hx|[? []]]. exact Hx. }
  unfold read_lines in *. cbn [fold_left]. apply IH.
  - intros l' y Hl'. apply Ho. right. exact Hl'.
  - destruct l as [y text|fs y text]; [|exact Hs]. cbn [read_line fst] in *. apply (stable_trans _ vs); [exact Hs|]. intros z Hz. apply lookup_other. intros ->.
    rewrite (Ho (Assign z text) z) in Hz; [discriminate|left; reflexivity|exists text; reflexivity].
  - intros text Hin. apply Ht. right. exact Hin.
  - destruct l as [y text|fs y text]; cbn [read_line fst] in *.
    + destruct (string_dec y x) as [->|N].
      * left. rewrite lookup_same. apply (Ht text); [left; reflexivity|exact Hs].
      * rewrite lookup_other by exact N. destruct Hx as [Hx|[text' [Hx|Hx]]]; [left; exact Hx|congruence|right; exists text'; exact Hx].
    + destruct Hx as [Hx|[text' [Hx|Hx]]]; [left; exact Hx|discriminate|right; exists text'; exact Hx].
Qed.

(** ** Target-specific values *)
Lemma specific_app : forall a b f x, specific (a ++ b)%list f x = match specific a f x with Some v => Some v | None => specific b f x end.
Proof. intros a b f x. induction a as [|[[f' x'] v] a IH]; [reflexivity|]. cbn [app specific]. destruct (String.eqb f f' && String.eqb x x'); [reflexivity|exact IH]. Qed.
Lemma specific_in : forall fs f x v, In f fs -> specific (map (fun g => ((g, x), v)) fs) f x = Some v.
Proof.
  induction fs as [|g fs IH]; intros f x v H; [destruct H|]. cbn [map specific]. rewrite String.eqb_refl, andb_true_r. destruct (String.eqb_spec f g) as [->|N]; [reflexivity|].
  apply IH. destruct H as [->|H]; [contradiction|exact H].
Qed.
Lemma specific_not : forall fs f x y v, ~ (In f fs /\ x = y) -> specific (map (fun g => ((g, y), v)) fs) f x = None.
Proof.
  induction fs as [|g fs IH]; intros f x y v H; [reflexivity|]. cbn [map specific]. destruct (String.eqb_spec f g) as [->|N]; [destruct (String.eqb_spec x y) as [->|M]|]; cbn [andb].
  - exfalso. apply H. split; [left; reflexivity|reflexivity].
  - apply IH. intros [_ E]. contradiction.
  - apply IH. intros [Hi E]. apply H. split; [right; exact Hi|exact E].
Qed.
Lemma specific_keeps : forall ls s f x, (forall fs text, In (Assign_for fs x text) ls -> ~ In f fs) -> specific (snd (read_lines s ls)) f x = specific (snd s) f x.
Proof.
  induction ls as [|l ls IH]; intros [v sp] f x H; [reflexivity|]. unfold read_lines in *. cbn [fold_left]. rewrite IH by (intros fs text Hl'; apply (H fs text); right; exact Hl').
  destruct l as [y text|fs y text]; [reflexivity|]. cbn [read_line snd]. rewrite specific_app, specific_not; [reflexivity|]. intros [Hi ->]. apply (H fs text); [left; reflexivity|exact Hi].
Qed.
Lemma specific_set : forall s fs f x text, In f fs -> specific (snd (read_line s (Assign_for fs x text))) f x = Some (read_value (lookup_in (fst s)) text).
Proof. intros [v sp] fs f x text H. cbn [read_line snd fst]. rewrite specific_app, specific_in by exact H. reflexivity. Qed.

(** ** What is set where *)
Lemma In_sorted : forall t (n : string) (c : config), In (n, c) (sorted_configs t) -> assoc n (configs t) = Some c /\ In n (map fst (configs t)).
Proof.
  intros t n c H. unfold sorted_configs in H. apply in_flat_map in H. destruct H as (m & Hm & H). destruct (assoc m (configs t)) as [d|] eqn:E; [|destruct H].
  destruct H as [H|[]]. injection H as <- <-. split; [exact E|]. apply assoc_In in E. apply (in_map fst) in E. exact E.
Qed.
