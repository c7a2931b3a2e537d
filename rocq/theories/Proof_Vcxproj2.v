(** Paths that are not local, extensions, and the hierarchy. *)
From Coq Require Import Permutation.
From Verif Require Import Lib LibFacts Str StrFacts Model_Path Spec_Path Proof_Path Proof_Path2 Model_Vcxproj Spec_Vcxproj Proof_Vcxproj.
From Verif Require Proof_Make Model_Writer Model_Build Proof_Build.
Local Open Scope string_scope.

Definition drivey (s : string) : Prop := exists a r, s = String a (String ":" r).
Lemma drivey_dec : forall s, drivey s \/ forall a r, s <> String a (String ":" r).
Proof. intros [|a [|b r]]; [right; discriminate|right; discriminate|]. destruct (Ascii.eqb_spec b ":") as [->|N]; [left; exists a, r; reflexivity|right; intros x y E; injection E as _ E _; contradiction]. Qed.
Lemma drivey_norm : forall s, drivey s -> drivey (nt_normpath s).
Proof.
  intros s (a & r & ->). unfold nt_normpath. cbn [replace_char]. change (Ascii.eqb ":" "/") with false. cbn iota. cbn [nt_drive]. change (Ascii.eqb ":" ":") with true. cbn iota.
  destruct (rev _) as [|c l].
  - change (String.eqb _ "") with false. cbn iota. cbn [append]. eexists; eexists; reflexivity.
  - cbn [append]. eexists; eexists; reflexivity.
Qed.
Lemma drivey_normalized : forall s, drivey s -> drivey (normalized_source s).
Proof. intros s D. unfold normalized_source. destruct (Nat.eqb _ _); [apply drivey_norm; exact D|exact D]. Qed.
Lemma drivey_chop : forall s, drivey s -> drivey (chop s).
Proof. intros s (a & r & ->). cbn [chop]. destruct r as [|b r]; [change (Ascii.eqb ":" "\") with false; cbn iota|]; eexists; eexists; reflexivity. Qed.
Lemma drivey_to_bs : forall s, drivey s -> drivey (to_bs s).
Proof. intros s (a & r & ->). cbn [replace_char]. change (Ascii.eqb ":" "/") with false. cbn iota. eexists; eexists; reflexivity. Qed.
Lemma drivey_char : forall s, drivey s -> has_char ":" s = true.
Proof. intros s (a & r & ->). cbn [has_char]. destruct (Ascii.eqb a ":"); reflexivity. Qed.

Lemma rooted_norm : forall s, rooted s = true -> drivey s \/ rooted (nt_normpath s) = true.
Proof.
  intros s R. destruct (drivey_dec s) as [D|D]; [left; exact D|]. right. destruct s as [|a s]; [discriminate|]. cbn [rooted] in R. unfold nt_normpath.
  assert (E : exists t, to_bs (String a s) = String "\" t /\ nt_drive (to_bs (String a s)) = ("", to_bs (String a s))).
  { apply is_sep_iff in R. assert (H : to_bs (String a s) = String "\" (to_bs s)) by (destruct R as [-> | ->]; reflexivity). exists (to_bs s). split; [exact H|]. rewrite H. destruct s as [|b s]; [reflexivity|]. cbn [replace_char nt_drive].
    destruct (Ascii.eqb_spec b "/") as [->|]; [reflexivity|]. destruct (Ascii.eqb_spec b ":") as [->|]; [exfalso; exact (D a s eq_refl)|reflexivity]. }
  destruct E as (t & E & F). rewrite F, E. change (rooted (String "\" t)) with true. cbn iota. destruct (rev _); reflexivity.
Qed.
Lemma rooted_normalized : forall s, rooted s = true -> drivey (normalized_source s) \/ rooted (normalized_source s) = true.
Proof. intros s R. unfold normalized_source. destruct (Nat.eqb _ _); [|right; exact R]. destruct (rooted_norm s R) as [D|H]; [left; apply drivey_norm; exact D|right; exact H]. Qed.
Lemma dollar_normalized : forall s, has_char "$" s = true -> has_char "$" (normalized_source s) = true.
Proof.
  intros s H. unfold normalized_source. destruct (Nat.eqb_spec (count_char "$" s) (count_char "$" (nt_normpath s))) as [E|]; [|exact H]. destruct (has_char "$" (nt_normpath s)) eqn:N; [reflexivity|]. apply count_zero in N. rewrite N in E. apply count_zero in E. congruence.
Qed.
Lemma has_chop : forall c s, c <> "\"%char -> has_char c (chop s) = has_char c s.
Proof.
  intros c s N. induction s as [|a s IH]; [reflexivity|]. cbn [chop]. destruct s as [|b s].
  - destruct (Ascii.eqb_spec a "\") as [->|]; [|reflexivity]. cbn [has_char]. destruct (Ascii.eqb_spec "\" c) as [<-|]; [contradiction|reflexivity].
  - cbn [has_char] in *. rewrite IH. reflexivity.
Qed.
(** A path is in one of four classes. *)
Lemma path_classes : forall y, has_char "$" y = true \/ y = "" \/ drivey y \/ rooted y = true \/ movable y.
Proof.
  intros y. destruct (has_char "$" y) eqn:D; [left; reflexivity|]. right. destruct (String.eqb_spec y "") as [->|N]; [left; reflexivity|]. right. destruct (drivey_dec y) as [H|H]; [left; exact H|]. right. destruct (rooted y) eqn:R; [left; reflexivity|]. right. repeat split; assumption.
Qed.
Lemma has_nt_join : forall c a b, has_char c b = true -> has_char c (nt_join a b) = true.
Proof.
  intros c a b H. unfold nt_join. destruct (rooted b || _)%bool; [exact H|]. destruct (_ || _)%bool; rewrite has_char_app; [rewrite H; apply orb_true_r|]. cbn [has_char]. rewrite H. destruct (Ascii.eqb _ c); apply orb_true_r.
Qed.
Lemma entry : forall p y g, way p -> relative g -> normalized_source (fix_path p y) = g -> g = "." \/ movable y /\ fix_path p y = g.
Proof.
  intros p y g C G E. apply relative_iff in G. destruct G as (G1 & G2 & G3 & G4). destruct (path_classes y) as [D|[->|[D|[R|M]]]].
  - exfalso. assert (H : has_char "$" (normalized_source (fix_path p y)) = true); [|rewrite E in H; congruence]. apply dollar_normalized. unfold fix_path. rewrite has_chop by discriminate. apply dollar_normalized. rewrite to_bs_char by discriminate.
    destruct (_ && _)%bool; [apply has_nt_join; exact D|exact D].
  - left. rewrite <- E. unfold fix_path. change (String.eqb "" "") with true. cbn [negb]. rewrite andb_false_r. reflexivity.
  - exfalso. assert (H : drivey (normalized_source (fix_path p y))); [|apply drivey_char in H; rewrite E in H; congruence]. apply drivey_normalized. unfold fix_path. apply drivey_chop, drivey_normalized, drivey_to_bs. destruct (_ && _)%bool; [|exact D].
    unfold nt_join. assert (X : negb (String.eqb (fst (nt_drive y)) "") = true) by (destruct D as (a & r & ->); cbn [nt_drive]; change (Ascii.eqb ":" ":") with true; reflexivity). rewrite X, orb_true_r. exact D.
  - destruct (drivey_dec y) as [D|D].
    { exfalso. assert (H : drivey (normalized_source (fix_path p y))); [|apply drivey_char in H; rewrite E in H; congruence]. apply drivey_normalized. unfold fix_path. apply drivey_chop, drivey_normalized, drivey_to_bs. destruct (_ && _)%bool; [|exact D]. unfold nt_join. rewrite R. exact D. }
    assert (F : fix_path p y = chop (normalized_source (to_bs y))). { unfold fix_path, nt_join. rewrite R. cbn [orb]. destruct (_ && _)%bool; reflexivity. }
    assert (R' : rooted (to_bs y) = true) by (destruct y as [|a y]; [discriminate|]; cbn [rooted] in R; apply is_sep_iff in R; destruct R as [-> | ->]; reflexivity).
    destruct (rooted_normalized _ R') as [H|H].
    { exfalso. apply drivey_chop, drivey_normalized, drivey_char in H. rewrite F in E. rewrite E in H. congruence. }
    assert (Q : chop (normalized_source (to_bs y)) = "" \/ rooted (chop (normalized_source (to_bs y))) = true).
    { destruct (normalized_source (to_bs y)) as [|a [|b t]]; [discriminate| |right; exact H]. cbn [chop]. destruct (Ascii.eqb a "\"); [left; reflexivity|right; exact H]. }
    rewrite F in E. destruct Q as [Q|Q]; [left; rewrite Q in E; rewrite <- E; reflexivity|].
    exfalso. destruct (rooted_normalized _ Q) as [S|S]; [apply drivey_char in S; rewrite E in S; congruence|rewrite E in S; congruence].
  - right. split; [exact M|]. rewrite (fix_movable p y C M) in *. set (l := (pieces p ++ pieces y)%list) in *. destruct (drivey_dec (show (canon l))) as [D|D]; [apply drivey_normalized, drivey_char in D; rewrite E in D; congruence|].
    rewrite <- E. destruct (show_start l (all_pieces_ok p y)) as (N & R). assert (B : bare (show (canon l))) by (split; assumption). unfold normalized_source. rewrite (normpath_bare _ B).
    assert (Z : show (canon (pieces (show (canon l)))) = show (canon l)).
    { f_equal. apply canon_eq; [|intros here; apply (walk_pieces_show here l (all_pieces_ok p y))]. intros x [I|I] ->; [apply pieces_no_sep in I|apply all_pieces_ok in I]; destruct I as [_ I]; discriminate I. }
    rewrite Z. destruct (Nat.eqb _ _); reflexivity.
Qed.

(** What is local after _NormalizedSource was local before, or empty. *)
Lemma norm_back : forall x, movable (normalized_source x) -> bare x /\ has_char "$" x = false /\ normalized_source x = show (canon (pieces x)) /\ same_file x (normalized_source x).
Proof.
  intros x (N & D & R & O). destruct (path_classes x) as [H|[->|[H|[H|M]]]].
  - apply dollar_normalized in H. congruence.
  - split; [split; [reflexivity|discriminate]|]. split; [reflexivity|]. split; [reflexivity|]. intros here. reflexivity.
  - apply drivey_normalized in H. destruct H as (a & r & H). exfalso. exact (O a r H).
  - apply rooted_normalized in H. destruct H as [(a & r & H)|H]; [exfalso; exact (O a r H)|congruence].
  - destruct M as (_ & D' & B). split; [exact B|]. split; [exact D'|]. pose proof (normalized_bare x B D') as E. split; [exact E|]. intros here. rewrite E. rewrite walk_pieces_show by apply pieces_no_sep. reflexivity.
Qed.
Lemma same_canon : forall a b, same_file a b -> canon (pieces a) = canon (pieces b).
Proof. intros a b S. apply canon_eq; [|exact S]. intros x [I|I]; exact (piece_not_bs _ x I). Qed.
(** Local paths to one file are the same after _NormalizedSource. *)
Lemma norm_same : forall a b, bare a -> has_char "$" a = false -> bare b -> has_char "$" b = false -> same_file a b -> normalized_source a = normalized_source b.
Proof. intros a b A DA B DB S. rewrite !normalized_bare by assumption. f_equal. apply same_canon. exact S. Qed.
Lemma same_sym : forall a b, same_file a b -> same_file b a.
Proof. intros a b S here. symmetry. apply S. Qed.
Lemma same_trans : forall a b c, same_file a b -> same_file b c -> same_file a c.
Proof. intros a b c S T here. rewrite S. apply T. Qed.
Lemma fix_relative : forall p s, way p -> relative s -> relative (fix_path p s).
Proof.
  intros p s C R. pose proof (relative_movable s R) as M. rewrite (fix_movable p s C M). apply relative_iff. destruct (show_start _ (all_pieces_ok p s)) as (A & B). split; [exact A|].
  assert (P : has_char "$" p = false /\ has_char ":" p = false) by (destruct (String.eqb_spec p "") as [->|N]; [split; reflexivity|]; destruct (way_chars p C N) as (X & Y & _); auto). destruct P as (P1 & P2). destruct M as (_ & D & _). destruct R as [_ O].
  split; [|split; [|exact B]]; (apply has_show; [discriminate|discriminate|]); intros x I; apply in_app_or in I; destruct I as [I|I]; eapply pieces_char; eassumption.
Qed.
Lemma normalized_fix : forall p s, way p -> relative s -> normalized_source (fix_path p s) = fix_path p s.
Proof.
  intros p s C R. destruct (fix_relative p s C R) as [L _]. apply local_movable in L. destruct L as (N & D & B). rewrite normalized_bare by assumption. rewrite (fix_movable p s C (relative_movable s R)). f_equal.
  apply canon_eq; [|intros here; apply (walk_pieces_show here _ (all_pieces_ok p s))]. intros x [I|I] ->; [apply pieces_no_sep in I|apply all_pieces_ok in I]; destruct I as [_ I]; discriminate I.
Qed.

(** ** extensions *)
Lemma canon_snoc : forall l x, x <> "" -> x <> "." -> x <> ".." -> canon (l ++ [x]) = (canon l ++ [x])%list.
Proof.
  intros l x A B C. unfold canon. rewrite norm_comps_app. cbn [norm_comps]. destruct (String.eqb_spec x ""); [contradiction|]. destruct (String.eqb_spec x dot); [contradiction|]. destruct (String.eqb_spec x dotdot); [contradiction|]. reflexivity.
Qed.
Lemma rsplit_none : forall b, has_char "/" b = false -> has_char "\" b = false -> rsplit_sep b = None.
Proof.
  induction b as [|a b IH]; intros A B; [reflexivity|]. cbn [rsplit_sep has_char] in *. destruct (Ascii.eqb a "/") eqn:E; [discriminate|]. destruct (Ascii.eqb a "\") eqn:F; [discriminate|]. rewrite IH by assumption. unfold is_sep. rewrite E, F. reflexivity.
Qed.
Lemma rsplit_app : forall a c b, is_sep c = true -> has_char "/" b = false -> has_char "\" b = false -> rsplit_sep (a ++ String c b) = Some (a ++ String c "", b).
Proof.
  intros a c b S A B. induction a as [|x a IH]; cbn [append rsplit_sep].
  - rewrite rsplit_none by assumption. rewrite S. reflexivity.
  - rewrite IH. reflexivity.
Qed.
Lemma not_only_dots : forall n a, a <> "."%char -> has_char a n = true -> Model_Writer.only_dots n = false.
Proof. intros n a N. induction n as [|b n IH]; cbn [has_char Model_Writer.only_dots]; [discriminate|]. destruct (Ascii.eqb_spec b a) as [->|]; [intros _; apply Ascii.eqb_neq in N; rewrite N; reflexivity|]. intros H. rewrite (IH H). apply andb_false_r. Qed.
Lemma join_snoc : forall l x, join_bs (l ++ [x]) = match l with [] => x | _ => join_bs l ++ String "\" x end.
Proof.
  induction l as [|a l IH]; intros x; [reflexivity|]. cbn [app]. rewrite !join_cons. destruct l as [|b l]; [reflexivity|]. cbn [app] in *. rewrite IH. rewrite append_assoc. reflexivity.
Qed.
Lemma splitext_show : forall l n x, Model_Writer.only_dots n = false -> has_char "." x = false -> (forall c, is_sep c = true -> has_char c (n ++ "." ++ x) = false) ->
  nt_splitext (join_bs (l ++ [(n ++ "." ++ x)%string])) = (join_bs (l ++ [n]), "." ++ x).
Proof.
  intros l n x D X S. unfold nt_splitext. rewrite !join_snoc. assert (E : rsplit1 "." (n ++ "." ++ x) = Some (n, x)) by (apply rsplit1_Some; split; [reflexivity|exact X]). pose proof (S "/"%char eq_refl) as S1. pose proof (S "\"%char eq_refl) as S2. destruct l as [|a l].
  - rewrite rsplit_none by assumption. rewrite E, D. reflexivity.
  - rewrite rsplit_app by (reflexivity || assumption). rewrite E, D. rewrite append_assoc. reflexivity.
Qed.
(** The last name in a path with an extension. *)
Lemma extension_pieces : forall s e, has_extension s e -> exists l n x, pieces s = (l ++ [(n ++ "." ++ x)%string])%list /\ e = "." ++ x /\ Model_Writer.only_dots n = false /\ has_char "." x = false /\ (forall c, is_sep c = true -> has_char c (n ++ "." ++ x) = false).
Proof.
  intros s e (d & n & x & -> & Hd & Hs & Hx & (a & Na & Ha) & ->).
  assert (S : forall c, is_sep c = true -> has_char c (n ++ "." ++ x) = false).
  { intros c K. assert (I : In c ["/"; "\"]%char) by (apply is_sep_iff in K; cbn; destruct K; auto). destruct (Hs c I) as [U V]. rewrite !has_char_app, U, V. cbn [has_char]. rewrite orb_false_r. apply is_sep_iff in K. destruct K as [-> | ->]; reflexivity. }
  pose proof (pieces_none _ (S "/"%char eq_refl) (S "\"%char eq_refl)) as P. pose proof (not_only_dots n a Na Ha) as D.
  destruct Hd as [->|(d' & [-> | ->])].
  - exists [], n, x. cbn [append]. repeat split; assumption.
  - exists (pieces d'), n, x. rewrite append_assoc. change ("/" ++ n ++ "." ++ x) with (String "/" (n ++ "." ++ x)). rewrite pieces_sep by reflexivity. rewrite P. repeat split; assumption.
  - exists (pieces d'), n, x. rewrite append_assoc. change ("\" ++ n ++ "." ++ x) with (String "\" (n ++ "." ++ x)). rewrite pieces_sep by reflexivity. rewrite P. repeat split; assumption.
Qed.
Lemma dots_name : forall n x, Model_Writer.only_dots n = false -> n ++ "." ++ x <> "" /\ n ++ "." ++ x <> "." /\ n ++ "." ++ x <> "..".
Proof.
  intros n x D. assert (E : n <> "") by (intros ->; discriminate D). destruct n as [|a n]; [contradiction|]. split; [discriminate|]. split.
  - intros H. cbn [append] in H. injection H as -> H. destruct n; discriminate H.
  - intros H. cbn [append] in H. injection H as -> H. destruct n as [|b n]; [discriminate D|]. cbn [append] in H. injection H as -> H. destruct n; discriminate H.
Qed.
Lemma splitext_fix : forall p s e, way p -> movable s -> has_extension s e -> exists stem, nt_splitext (fix_path p s) = (stem, e).
Proof.
  intros p s e C M H. destruct (extension_pieces s e H) as (l & n & x & P & -> & D & X & S). rewrite (fix_movable p s C M), P, app_assoc. destruct (dots_name n x D) as (A & B & Z). rewrite canon_snoc by assumption.
  assert (Q : forall m y, show (m ++ [y]) = join_bs (m ++ [y])) by (intros [|z m] y; reflexivity). rewrite Q. exists (join_bs (canon (pieces p ++ l) ++ [n])). apply splitext_show; assumption.
Qed.
Lemma has_extension_pieces : forall s l n x, pieces s = (l ++ [(n ++ "." ++ x)%string])%list -> Model_Writer.only_dots n = false -> has_char "." x = false -> has_extension s ("." ++ x).
Proof.
  intros s l n x P D X. assert (A : exists a, a <> "."%char /\ has_char a n = true).
  { clear - D. induction n as [|a n IH]; [discriminate|]. cbn [Model_Writer.only_dots] in D. destruct (Ascii.eqb_spec a ".") as [->|N]; [destruct (IH D) as (b & U & V); exists b; split; [exact U|cbn [has_char]; rewrite V; destruct (Ascii.eqb _ b); reflexivity]|exists a; split; [exact N|cbn [has_char]; rewrite Ascii.eqb_refl; reflexivity]]. }
  assert (S : forall c, In c ["/"; "\"]%char -> has_char c n = false /\ has_char c x = false).
  { intros c I. assert (J : In (n ++ "." ++ x) (pieces s)) by (rewrite P; apply in_or_app; right; left; reflexivity). apply pieces_no_sep in J. rewrite !has_char_app in J. destruct J as [J K]. destruct I as [<-|[<-|[]]]; [apply orb_false_iff in J; destruct J as [J J']; apply orb_false_iff in J'; destruct J'; auto|apply orb_false_iff in K; destruct K as [K K']; apply orb_false_iff in K'; destruct K'; auto]. }
  assert (G : forall s l y, pieces s = (l ++ [y])%list -> exists d, s = d ++ y /\ (d = "" \/ exists d', d = d' ++ "/" \/ d = d' ++ "\")).
  { clear. induction s as [|a s IH]; intros l y P.
    - destruct l as [|z l]; [injection P as <-; exists ""; auto|destruct l; discriminate].
    - cbn [pieces] in P. rewrite sep_bool in P. destruct (is_sep a) eqn:S.
      + destruct l as [|z l]; [injection P as _ P; exfalso; exact (pieces_nonempty _ P)|]. injection P as _ P. destruct (IH _ _ P) as (d & -> & H). exists (String a d). split; [reflexivity|]. right. apply is_sep_iff in S. destruct H as [->|(d' & [-> | ->])].
        * exists "". destruct S as [-> | ->]; auto.
        * exists (String a d'). left. reflexivity.
        * exists (String a d'). right. reflexivity.
      + destruct (pieces s) as [|z m] eqn:Q; [exfalso; exact (pieces_nonempty _ Q)|]. destruct l as [|w l].
        * injection P as <- ->. destruct (IH [] z eq_refl) as (d & -> & H). destruct H as [->|(d' & H)]; [exists ""; auto|]. exfalso. assert (K : exists c, is_sep c = true /\ d' ++ String c "" ++ z = d ++ z) by (destruct H as [-> | ->]; [exists "/"%char|exists "\"%char]; split; try reflexivity; rewrite append_assoc; reflexivity).
          destruct K as (c & K1 & K2). rewrite <- K2 in Q. change (String c "" ++ z) with (String c z) in Q. rewrite pieces_sep in Q by exact K1. apply (f_equal (@length string)) in Q. rewrite app_length in Q. pose proof (pieces_nonempty d'). pose proof (pieces_nonempty z). destruct (pieces d'), (pieces z); try contradiction; cbn in Q; lia.
        * injection P as <- P. destruct (IH (z :: l) y) as (d & -> & H); [cbn; rewrite P; reflexivity|]. exists (String a d). split; [reflexivity|]. destruct H as [->|(d' & [-> | ->])].
          -- exfalso. cbn [append] in Q. clear - Q P. assert (K : forall y z m, pieces y = z :: m -> forall l, m = (l ++ [y])%list -> False).
             { clear. intros y z m E l ->. assert (J : In y (pieces y)) by (rewrite E; right; apply in_or_app; right; left; reflexivity). apply pieces_no_sep in J. destruct J as [J K]. rewrite (pieces_none y J K) in E. injection E as _ E. destruct l; discriminate E. }
             exact (K _ _ _ Q _ P).
          -- right. exists (String a d'). left. reflexivity.
          -- right. exists (String a d'). right. reflexivity. }
  destruct (G s l _ P) as (d & -> & H). exists d, n, x. repeat split; try assumption; apply S; assumption.
Qed.
