(** Proofs about compiler and linker flags: the link commands, and the theorems. *)
From Verif Require Import Lib Str StrFacts LibFacts Model_Path Model_Memo Spec_Quote Model_Quote Proof_Quote Model_Writer Proof_Suffix Proof_Parts Proof_Make Model_Flags Spec_Flags Proof_Flags Proof_Flags2 Proof_Flags3 Proof_Flags4.
Local Open Scope string_scope.

(** ** Pieces of the link flags *)
Lemma origin_piece : forall vals, piece vals (quote_if_necessary ("" ++ "-Wl,-rpath=\$$ORIGIN/")) (literal "-Wl,-rpath=$ORIGIN/").
Proof.
  intros vals. change (quote_if_necessary ("" ++ "-Wl,-rpath=\$$ORIGIN/")) with "-Wl,-rpath=\$$ORIGIN/".
  assert (F : firm "-Wl,-rpath=\$$ORIGIN/") by (exists "-Wl,-rpath=\$$ORIGIN", "/"%char; split; [reflexivity|discriminate]).
  exists "-Wl,-rpath=\$$ORIGIN/", "-Wl,-rpath=\$ORIGIN/". split; [|split; [|split]].
  - apply join_piece; [reflexivity|exact F|split; discriminate].
  - apply uncomment_piece; [reflexivity|exact F].
  - intros val cur t _. change ("-Wl,-rpath=\$$ORIGIN/" ++ t) with ("-Wl,-rpath=\" ++ replace1 dollar "$$" "$" ++ "ORIGIN/" ++ t).
    rewrite refs_plain by reflexivity. rewrite refs_dollars, refs_plain by reflexivity. f_equal. rewrite !append_assoc. reflexivity.
  - intros t. reflexivity.
Qed.
Lemma link_piece : forall (vals : (string -> option string) -> Prop) bd, (forall val, vals val -> val "builddir" = Some bd) -> safe bd ->
  piece vals (quote_if_necessary ("" ++ "-Wl,-rpath-link=\$(builddir)/")) (literal ("-Wl,-rpath-link=" ++ bd ++ "/")).
Proof.
  intros vals bd Hv Sb. change (quote_if_necessary ("" ++ "-Wl,-rpath-link=\$(builddir)/")) with "-Wl,-rpath-link=\$(builddir)/".
  assert (F : firm "-Wl,-rpath-link=\$(builddir)/") by (exists "-Wl,-rpath-link=\$(builddir)", "/"%char; split; [reflexivity|discriminate]).
  exists "-Wl,-rpath-link=\$(builddir)/", ("-Wl,-rpath-link=\" ++ bd ++ "/"). split; [|split; [|split]].
  - apply join_piece; [reflexivity|exact F|split; discriminate].
  - apply uncomment_piece; [reflexivity|exact F].
  - intros val cur t V. change ("-Wl,-rpath-link=\$(builddir)/" ++ t) with ("-Wl,-rpath-link=\" ++ "$(" ++ "builddir" ++ ")" ++ ("/" ++ t)).
    rewrite refs_plain by reflexivity. rewrite (refs_ref val [] _ "builddir" bd _ eq_refl (Hv val V)). rewrite refs_plain by reflexivity. f_equal. rewrite !append_assoc. reflexivity.
  - intros t. destruct Sb as [N Sb]. destruct bd as [|ch r]; [contradiction|]. cbn [all_chars] in Sb. apply andb_true_iff in Sb. destruct Sb as [S1 S2].
    assert (M : ch <> "010"%char) by (intros ->; discriminate S1).
    transitivity (sh_read false WordEscape (literal "-Wl,-rpath-link=") (String ch ((r ++ "/") ++ t))); [rewrite !append_assoc; reflexivity|].
    cbn [sh_read]. neqs. rewrite read_safe; [|left; reflexivity|rewrite all_chars_app, S2; reflexivity]. f_equal.
Qed.

(** ** Uniquer, and shared libraries *)
Lemma once_uniquer : forall seen l r, once_each seen l r -> forall result, uniquer_loop string string string_dec (fun x => x) seen result l = (result ++ r)%list.
Proof.
  intros seen l r H. induction H; intros result; cbn [uniquer_loop].
  - rewrite app_nil_r. reflexivity.
  - destruct (in_dec string_dec x seen); [apply IHonce_each|contradiction].
  - destruct (in_dec string_dec x seen); [contradiction|]. rewrite IHonce_each, <- app_assoc. reflexivity.
Qed.
Lemma contains_iff : forall p s, contains p s = true <-> exists a b, s = a ++ p ++ b.
Proof.
  intros p s. split.
  - induction s as [|x s IH]; intros H; cbn [contains] in H; apply orb_true_iff in H; destruct H as [H|H].
    + apply prefix_split in H. destruct H as [r E]. exists "", r. exact E.
    + discriminate.
    + apply prefix_split in H. destruct H as [r E]. exists "", r. exact E.
    + destruct (IH H) as (a & b & ->). exists (String x a), b. reflexivity.
  - intros (a & b & ->). induction a as [|x a IH]; cbn [append].
    + destruct (p ++ b) eqn:E; cbn [contains]; rewrite <- E, prefix_app; reflexivity.
    + cbn [contains]. rewrite IH, orb_true_r. reflexivity.
Qed.
Lemma substring_end : forall n s, n <= String.length s -> exists a, s = a ++ substring n (String.length s - n) s.
Proof.
  induction n as [|n IH]; intros s H.
  - exists "". rewrite Nat.sub_0_r. clear H. induction s as [|c s IH]; [reflexivity|]. cbn [String.length substring append]. cbn [append] in IH. rewrite <- IH. reflexivity.
  - destruct s as [|c s]; cbn [String.length] in *; [lia|]. destruct (IH s) as [a E]; [lia|]. exists (String c a). cbn [Nat.sub substring append]. rewrite <- E. reflexivity.
Qed.
Lemma ends_iff : forall e s, ends_with e s = true <-> exists a, s = a ++ e.
Proof.
  intros e s. split; [|intros [a ->]; apply ends_app].
  intros H. unfold ends_with in H. apply andb_true_iff in H. destruct H as [H1 H2]. apply Nat.leb_le in H2. apply prefix_split in H1. destruct H1 as [r E].
  destruct (substring_end (String.length s - String.length e) s) as [a Ea]; [lia|]. replace (String.length s - (String.length s - String.length e)) with (String.length e) in Ea by lia.
  rewrite E in Ea. exists a. assert (L := f_equal String.length Ea). rewrite !length_app in L.
  assert (L2 := f_equal String.length E). rewrite length_app in L2.
  assert (L3 : String.length (substring (String.length s - String.length e) (String.length e) s) <= String.length e).
  { clear. generalize (String.length s - String.length e). intros n. generalize (String.length e). intros m. revert n m. induction s as [|c s IH]; intros n m; destruct n, m; cbn [substring String.length]; try lia; [specialize (IH 0 m); lia|specialize (IH n 0); lia|specialize (IH n (S m)); lia]. }
  assert (R : r = "") by (destruct r; [reflexivity|cbn [String.length] in L2; lia]). subst r. rewrite append_nil_r in Ea. exact Ea.
Qed.
Lemma shared_iff : forall f, shared f = true <-> names_shared f.
Proof.
  intros f. unfold shared, names_shared. rewrite orb_true_iff, ends_iff, contains_iff. reflexivity.
Qed.
