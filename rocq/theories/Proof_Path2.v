From Verif Require Import Lib LibFacts Str StrFacts Model_Names Model_Path Spec_Path Proof_Path.
Local Open Scope string_scope.

(** ** normpath of an absolute path *)

Lemma norm_comps_abs : forall comps acc, place_ok acc -> (forall c, In c comps -> has_char slash c = false) ->
  norm_comps true acc comps = walk acc comps.
Proof.
  induction comps as [|c comps IH]; intros acc Ha Hc; [reflexivity|]. cbn [norm_comps]. cbn [walk fold_left].
  assert (Hc' : forall c, In c comps -> has_char slash c = false) by (intros x Hx; apply Hc; right; exact Hx).
  fold (walk (step acc c) comps). unfold step, dot, dotdot.
  destruct (String.eqb_spec c "") as [->|H1]; cbn [orb]; [apply IH; assumption|].
  destruct (String.eqb_spec c ".") as [->|H2]; cbn [orb]; [apply IH; assumption|].
  destruct (String.eqb_spec c "..") as [->|H3]; cbn [orb negb].
  - assert (Hh : match acc with a :: _ => String.eqb a ".." | [] => false end = false).
    { destruct acc as [|a acc]; [reflexivity|]. inversion Ha as [|x l Hx Hl]; subst. apply String.eqb_neq. apply Hx. }
    cbn [andb orb]. rewrite Hh. apply IH; [destruct acc; [constructor|inversion Ha; assumption]|exact Hc'].
  - apply IH; [|exact Hc']. constructor; [|exact Ha]. repeat split; try assumption. apply Hc. left. reflexivity.
Qed.

Lemma normpath_absolute : forall q, isabs q = true -> initial_slashes q = "/" -> normpath q = absolute (locate [] q).
Proof.
  intros q Ha Hi. destruct q as [|x q]; [discriminate|]. unfold normpath. rewrite Hi, Ha. unfold locate. rewrite Ha.
  rewrite norm_comps_abs; [|constructor|apply split_char_no_char]. reflexivity.
Qed.

Lemma concat_absolute_slashes : forall r s, place_ok r -> initial_slashes (path_join (absolute r) s) = "/" \/ isabs s = true \/ r = [].
Proof.
  intros r s Hr. destruct r as [|c r]; [right; right; reflexivity|]. unfold path_join. destruct (isabs s); [right; left; reflexivity|]. left.
  assert (Hc : exists d m, absolute (c :: r) = String slash (String d m) /\ Ascii.eqb d slash = false).
  { unfold absolute. assert (Hn := concat_nonempty (rev (c :: r))). assert (Hna := concat_not_abs (rev (c :: r))).
    destruct (String.concat "/" (rev (c :: r))) as [|d m] eqn:E.
    - exfalso. apply Hn; [|cbn; destruct (rev r); discriminate|reflexivity]. intros x Hx. apply in_rev in Hx. unfold place_ok in Hr. rewrite Forall_forall in Hr. apply (Hr x Hx).
    - exists d, m. split; [reflexivity|]. apply Hna. intros x Hx. apply in_rev in Hx. unfold place_ok in Hr. rewrite Forall_forall in Hr. split; apply (Hr x Hx). }
  destruct Hc as [d [m [E Ed]]]. rewrite E. change (String.eqb (String slash (String d m)) "") with false. cbn [orb].
  destruct (ends_slash (String slash (String d m))); cbn [append]; unfold initial_slashes; rewrite Ascii.eqb_refl, Ed; reflexivity.
Qed.

Lemma relative_path_round_trip : forall realpath path relative_to p r,
  place_ok p -> place_ok r -> realpath path = absolute p -> realpath relative_to = absolute r ->
  normpath (path_join (realpath relative_to) (relative_path realpath path relative_to)) = realpath path.
Proof.
  intros realpath path relative_to p r Hp Hr Ep Er.
  destruct (relative_path_spec realpath path relative_to p r Hp Hr Ep Er) as [H1 H2].
  rewrite Er, Ep. rewrite normpath_absolute.
  - rewrite locate_join, locate_absolute by exact Hr. rewrite H1. reflexivity.
  - unfold path_join. rewrite H2. change (String.eqb (absolute r) "") with false. cbn [orb]. destruct (ends_slash (absolute r)); reflexivity.
  - destruct (concat_absolute_slashes r (relative_path realpath path relative_to) Hr) as [H|[H|H]]; [exact H|congruence|].
    subst r. unfold path_join. rewrite H2. change (ends_slash (absolute [])) with true. rewrite orb_true_r.
    change (absolute []) with "/". cbn [append]. destruct (relative_path realpath path relative_to) as [|x s]; [reflexivity|].
    cbn [isabs] in H2. cbn [initial_slashes]. change (Ascii.eqb "/" slash) with true. cbn iota. rewrite H2. reflexivity.
Qed.

(** ** InvertRelativePath *)

Lemma invert_spec : forall cwd path top, place_ok cwd ->
  locate (locate (locate cwd top) path) (invert_relative_path (plain_realpath cwd) path top) =
  (if String.eqb path "" then locate cwd top else locate cwd top).
Proof.
  intros cwd path top H. destruct path as [|x path]; [reflexivity|]. cbn [String.eqb]. unfold invert_relative_path.
  destruct (relative_path_plain cwd top (path_join top (String x path)) H) as [H1 _]. rewrite locate_join in H1. exact H1.
Qed.

Lemma invert_back : forall cwd path top, place_ok cwd ->
  locate (locate (locate cwd top) path) (invert_relative_path (plain_realpath cwd) path top) = locate cwd top.
Proof. intros cwd path top H. rewrite invert_spec by exact H. destruct (String.eqb path ""); reflexivity. Qed.

(** The docstring's claim, for paths that do not go up. *)
Lemma norm_comps_down : forall comps acc, (forall c, In c comps -> c <> "..") ->
  norm_comps false acc comps = walk acc comps.
Proof.
  induction comps as [|c comps IH]; intros acc Hc; [reflexivity|]. cbn [norm_comps]. cbn [walk fold_left].
  fold (walk (step acc c) comps). unfold step, dot, dotdot.
  assert (Hc' : forall c, In c comps -> c <> "..") by (intros x Hx; apply Hc; right; exact Hx).
  destruct (String.eqb_spec c "") as [->|H1]; cbn [orb]; [apply IH; assumption|].
  destruct (String.eqb_spec c ".") as [->|H2]; cbn [orb]; [apply IH; assumption|].
  assert (H3 := Hc c (or_introl eq_refl)). destruct (String.eqb_spec c ".."); [contradiction|].
  cbn [negb orb]. apply IH. exact Hc'.
Qed.

Lemma norm_comps_app : forall b a c acc, norm_comps b acc (a ++ c)%list = norm_comps b (norm_comps b acc a) c.
Proof.
  intros b a; induction a as [|x a IH]; intros c acc; [reflexivity|]. cbn [app norm_comps].
  destruct (String.eqb x "" || String.eqb x dot); [apply IH|].
  match goal with |- context [if ?g then _ else _] => destruct g end; apply IH.
Qed.

Lemma norm_comps_pop : forall n acc, n = length acc -> (forall c, In c acc -> c <> "..") ->
  norm_comps false acc (repeat ".." n) = [].
Proof.
  induction n as [|n IH]; intros acc Hn Hc; destruct acc as [|a acc]; try discriminate; [reflexivity|].
  cbn [repeat norm_comps]. change (String.eqb ".." "" || String.eqb ".." dot) with false. cbn iota.
  change (String.eqb ".." dotdot) with true. cbn [negb orb andb]. assert (Ha := Hc a (or_introl eq_refl)).
  unfold dotdot. destruct (String.eqb_spec a ".."); [contradiction|]. cbn [tl]. apply IH; [inversion Hn; reflexivity|].
  intros x Hx. apply Hc. right. exact Hx.
Qed.

Lemma common_prefix_app : forall a b, common_prefix_length a (a ++ b)%list = length a.
Proof. induction a as [|x a IH]; intros b; [reflexivity|]. cbn. rewrite String.eqb_refl, IH. reflexivity. Qed.

(** The relative path from a directory below back up. *)
Lemma relative_up : forall realpath path relative_to names p, names <> [] ->
  place_ok p -> place_ok (names ++ p)%list -> realpath path = absolute p -> realpath relative_to = absolute (names ++ p)%list ->
  relative_path realpath path relative_to =
  String.concat "/" (repeat ".." (length names) ++ match p with [] => [""] | _ => [] end)%list.
Proof.
  intros realpath path relative_to names p Hne Hp Hr Ep Er. unfold relative_path. rewrite Ep, Er, !split_absolute by assumption.
  destruct names as [|n names]; [congruence|]. clear Hne. cbn [app] in *. set (ns := (n :: names)%list) in *.
  destruct p as [|c p].
  - rewrite app_nil_r in *. assert (Hk : common_prefix_length ["" ; ""] ("" :: rev ns)%list = 1).
    { cbn [common_prefix_length]. rewrite String.eqb_refl. f_equal. destruct (rev ns) as [|d m] eqn:E; [reflexivity|].
      assert (Hin : In d ns) by (apply in_rev; rewrite E; left; reflexivity). unfold place_ok in Hr. rewrite Forall_forall in Hr.
      destruct (Hr d Hin) as [_ [Hd _]]. destruct (String.eqb_spec "" d); [congruence|reflexivity]. }
    change (n :: names)%list with ns. rewrite Hk. cbn [length]. rewrite rev_length. replace (S (length ns) - 1) with (length ns) by lia. cbn [skipn].
    change dotdot with "..".
    assert (E : (repeat ".." (length ns) ++ [""])%list = (".." :: (repeat ".." (length names) ++ [""]))%list) by reflexivity.
    rewrite E. rewrite <- E. rewrite join_list_concat; [reflexivity| | |rewrite E; discriminate].
    + intros x Hx. apply in_app_or in Hx. destruct Hx as [Hx|[<-|[]]]; [apply repeat_spec in Hx; rewrite Hx; reflexivity|reflexivity].
    + intros x r l1 El Hor C. subst x. destruct Hor as [Hr0|Hl].
      * destruct (exists_last Hr0) as [r1 [z Ez]]. rewrite Ez in El. change (l1 ++ "" :: r1 ++ [z])%list with (l1 ++ ("" :: r1) ++ [z])%list in El.
        rewrite app_assoc in El. apply app_inj_tail in El. destruct El as [El _].
        assert (Hin : In "" (repeat ".." (length ns))) by (rewrite El; apply in_or_app; right; left; reflexivity).
        apply repeat_spec in Hin. discriminate.
      * subst l1. discriminate.
  - set (q := (c :: p)%list) in *. change (match q with [] => [""] | _ => rev q end) with (rev q). cbn [app].
    assert (Hrev : rev (n :: names ++ q)%list = (rev q ++ rev ns)%list) by (change (n :: names ++ q)%list with (ns ++ q)%list; apply rev_app_distr).
    rewrite Hrev. change ("" :: rev q ++ rev ns)%list with (("" :: rev q) ++ rev ns)%list. rewrite common_prefix_app.
    rewrite app_length, !rev_length. cbn [length]. rewrite rev_length. replace (S (length q) + length ns - S (length q)) with (length ns) by lia.
    replace (skipn (S (length q)) ("" :: rev q)%list) with (@nil string) by (rewrite skipn_all2; [reflexivity|cbn [length]; rewrite rev_length; lia]).
    rewrite app_nil_r. change dotdot with "..". change (repeat ".." (length ns)) with (".." :: repeat ".." (length names))%list. 
    change (".." :: repeat ".." (length names))%list with (repeat ".." (length ns)).
    transitivity (path_join_list (repeat ".." (length ns))); [reflexivity|]. rewrite join_list_concat; [unfold q; rewrite app_nil_r; reflexivity| | |discriminate].
    + intros x Hx. apply repeat_spec in Hx. rewrite Hx. reflexivity.
    + intros x r l1 El _ C. subst x. assert (Hin : In "" (repeat ".." (length ns))) by (rewrite El; apply in_or_app; right; left; reflexivity).
      apply repeat_spec in Hin. discriminate.
Qed.

Lemma walk_down_app : forall comps p q, (forall c, In c comps -> c <> "..") -> walk (p ++ q)%list comps = (walk p comps ++ q)%list.
Proof.
  induction comps as [|c comps IH]; intros p q Hc; [reflexivity|]. cbn [walk fold_left].
  assert (Hc' : forall c, In c comps -> c <> "..") by (intros x Hx; apply Hc; right; exact Hx).
  fold (walk (step (p ++ q)%list c) comps). fold (walk (step p c) comps). unfold step.
  destruct (String.eqb c "" || String.eqb c "."); [apply IH; exact Hc'|].
  assert (H3 := Hc c (or_introl eq_refl)). destruct (String.eqb_spec c ".."); [contradiction|]. apply (IH (c :: p)%list q Hc').
Qed.

Lemma walk_down_no_up : forall comps p, (forall c, In c comps -> c <> "..") -> (forall c, In c p -> c <> "..") ->
  forall c, In c (walk p comps) -> c <> "..".
Proof.
  induction comps as [|c comps IH]; intros p Hc Hp; [exact Hp|]. cbn [walk fold_left].
  assert (Hc' : forall c, In c comps -> c <> "..") by (intros x Hx; apply Hc; right; exact Hx).
  apply IH; [exact Hc'|]. unfold step. destruct (String.eqb c "" || String.eqb c "."); [exact Hp|].
  assert (H3 := Hc c (or_introl eq_refl)). destruct (String.eqb_spec c ".."); [contradiction|]. intros x [<-|Hx]; [assumption|apply Hp; exact Hx].
Qed.

Lemma invert_docstring : forall cwd path, place_ok cwd -> path <> "" -> isabs path = false ->
  (forall c, In c (split_char slash path) -> c <> "..") ->
  normpath (path_join path (invert_relative_path (plain_realpath cwd) path ".")) = ".".
Proof.
  intros cwd path Hcwd Hne Habs Hup. unfold invert_relative_path. destruct path as [|x path]; [congruence|]. set (q := String x path) in *.
  set (ns := walk [] (split_char slash q)).
  assert (Hloc : locate cwd (path_join "." q) = (ns ++ cwd)%list).
  { rewrite locate_join. change (locate cwd ".") with cwd. unfold locate. rewrite Habs. change cwd with ([] ++ cwd)%list at 1. apply walk_down_app. exact Hup. }
  assert (Hns : forall c, In c ns -> c <> "..") by (apply walk_down_no_up; [exact Hup|intros c []]).
  assert (Hok : place_ok (ns ++ cwd)%list) by (rewrite <- Hloc; apply locate_ok; exact Hcwd).
  assert (Hnorm : norm_comps false [] (split_char slash q) = ns) by (apply norm_comps_down; exact Hup).
  assert (Hnil : ns = [] -> relative_path (plain_realpath cwd) "." (path_join "." q) = "").
  { intros E. unfold relative_path, plain_realpath. rewrite Hloc, E. cbn [app]. change (locate cwd ".") with cwd.
    set (l := split_char slash (absolute cwd)).
    assert (Hcp : common_prefix_length l l = length l) by (rewrite <- (app_nil_r l) at 2; apply common_prefix_app). rewrite Hcp, Nat.sub_diag, skipn_all. reflexivity. }
  destruct (list_eq_dec String.string_dec ns []) as [E|Hnn].
  - rewrite (Hnil E). unfold path_join. cbn [isabs]. 
    assert (Hn2 : normpath q = "." /\ forall r, r = q ++ "/" -> normpath r = ".").
    { assert (Hi : initial_slashes q = "") by (unfold initial_slashes, q in *; cbn [isabs] in Habs; rewrite Habs; reflexivity).
      split.
      - unfold normpath. fold q. unfold q at 1. fold q. rewrite Hi, Habs, Hnorm, E. reflexivity.
      - intros r ->. unfold normpath. unfold q at 1. cbn [append]. change (String x (path ++ "/")) with (q ++ "/").
        replace (isabs (q ++ "/")) with false by (symmetry; exact Habs). 
        replace (initial_slashes (q ++ "/")) with "" by (unfold initial_slashes, q in *; cbn [isabs append] in *; rewrite Habs; reflexivity).
        change (q ++ "/") with (q ++ String slash ""). rewrite split_char_sep, norm_comps_app, Hnorm, E. reflexivity. }
    destruct (String.eqb q "" || ends_slash q); [rewrite append_nil_r; exact (proj1 Hn2)|]. apply (proj2 Hn2). reflexivity.
  - rewrite (relative_up (plain_realpath cwd) "." (path_join "." q) ns cwd Hnn); try assumption; try reflexivity.
    2:{ unfold plain_realpath. rewrite Hloc. reflexivity. }
    set (tail := (match cwd with [] => [""] | _ => [] end)%list). set (ups := (repeat ".." (length ns) ++ tail)%list).
    assert (Hups1 : forall y, In y ups -> has_char slash y = false).
    { intros y Hy. apply in_app_or in Hy. destruct Hy as [Hy|Hy]; [apply repeat_spec in Hy; rewrite Hy; reflexivity|].
      unfold tail in Hy. destruct cwd; [destruct Hy as [<-|[]]; reflexivity|destruct Hy]. }
    assert (Hups2 : ups <> []) by (unfold ups; destruct ns; [congruence|discriminate]).
    assert (Hsplit : split_char slash (String.concat "/" ups) = ups) by (apply split_concat; assumption).
    assert (Hna : isabs (String.concat "/" ups) = false).
    { unfold ups. destruct ns as [|n ns']; [congruence|]. cbn [length repeat app]. rewrite concat_cons. destruct (repeat ".." (length ns') ++ tail)%list; reflexivity. }
    assert (Hcomps : norm_comps false [] (split_char slash (path_join q (String.concat "/" ups))) = []).
    { unfold path_join. rewrite Hna. change (String.eqb q "") with false. cbn [orb].
      assert (Hfin : norm_comps false ns ups = []).
      { unfold ups. rewrite norm_comps_app, norm_comps_pop by (reflexivity || exact Hns). unfold tail. destruct cwd; reflexivity. }
      destruct (ends_slash q) eqn:Es.
      - destruct (ends_slash_split q Es) as [b Eb]. rewrite Eb in *. rewrite append_assoc. change ("/" ++ String.concat "/" ups) with (String slash (String.concat "/" ups)).
        rewrite split_char_sep, norm_comps_app. change (b ++ "/") with (b ++ String slash "") in Hnorm. rewrite split_char_sep, norm_comps_app in Hnorm.
        cbn [split_char norm_comps] in Hnorm. change (String.eqb "" "" || String.eqb "" dot) with true in Hnorm. cbn iota in Hnorm. rewrite Hnorm, Hsplit. exact Hfin.
      - change (q ++ sep ++ String.concat "/" ups) with (q ++ String slash (String.concat "/" ups)). rewrite split_char_sep, norm_comps_app, Hnorm, Hsplit. exact Hfin. }
    assert (Hj : exists m, path_join q (String.concat "/" ups) = String x m).
    { unfold path_join. rewrite Hna. change (String.eqb q "") with false. cbn [orb]. unfold q at 2 3. destruct (ends_slash q); eexists; reflexivity. }
    destruct Hj as [m Hm]. rewrite Hm in *. unfold normpath.
    assert (Hx : isabs (String x m) = false) by exact Habs. rewrite Hx, Hcomps. cbn [rev String.concat].
    unfold initial_slashes. cbn [isabs] in Hx. rewrite Hx. reflexivity.
Qed.

(** ** characters survive *)

Lemma has_char_concat : forall c l, c <> slash -> (forall x, In x l -> has_char c x = false) -> has_char c (String.concat "/" l) = false.
Proof.
  intros c l Hc; induction l as [|a l IH]; intros H; [reflexivity|]. rewrite concat_cons.
  assert (Ha := H a (or_introl eq_refl)). destruct l as [|b l]; [exact Ha|]. rewrite has_char_app, Ha. cbn [orb append has_char].
  destruct (Ascii.eqb_spec "/" c) as [E|_]; [exfalso; apply Hc; symmetry; exact E|]. apply IH. intros x Hx. apply H. right. exact Hx.
Qed.

Lemma split_char_other : forall c d s x, has_char c s = false -> In x (split_char d s) -> has_char c x = false.
Proof.
  intros c d s; induction s as [|a s IH]; cbn; intros x Hs.
  - intros [<-|[]]. reflexivity.
  - destruct (Ascii.eqb a c) eqn:E; [discriminate|]. destruct (Ascii.eqb a d).
    + intros [<-|H]; [reflexivity|apply IH; assumption].
    + destruct (split_char d s) as [|y ys]; [intros [<-|[]]; cbn; rewrite E; reflexivity|].
      intros [<-|H]; [cbn; rewrite E; apply IH; [exact Hs|left; reflexivity]|apply IH; [exact Hs|right; exact H]].
Qed.

Lemma norm_comps_subset : forall b comps acc x, In x (norm_comps b acc comps) -> In x acc \/ In x comps.
Proof.
  intros b comps; induction comps as [|c comps IH]; intros acc x; cbn [norm_comps]; [tauto|].
  destruct (String.eqb c "" || String.eqb c dot); [intros H; apply IH in H; cbn; tauto|].
  match goal with |- context [if ?g then _ else _] => destruct g end; intros H; apply IH in H.
  - cbn in *. tauto.
  - destruct H as [H|H]; [left; destruct acc; [destruct H|right; exact H]|right; right; exact H].
Qed.

Lemma has_char_normpath : forall c p, c <> slash -> c <> "."%char -> has_char c p = false -> has_char c (normpath p) = false.
Proof.
  intros c p H1 H2 Hp. unfold normpath. destruct p as [|x p].
  - cbn [has_char dot sep]. destruct (Ascii.eqb_spec "." c); [congruence|reflexivity].
  - set (q := String x p) in *.
    assert (H : has_char c (initial_slashes q ++ String.concat sep (rev (norm_comps (isabs q) [] (split_char slash q)))) = false).
    { rewrite has_char_app. apply orb_false_iff. split.
      - assert (Hs : has_char c sep = false) by (cbn [has_char sep]; destruct (Ascii.eqb_spec "/" c) as [E|_]; [exfalso; apply H1; symmetry; exact E|reflexivity]).
        unfold initial_slashes, q. destruct (Ascii.eqb x slash); [|reflexivity]. destruct p as [|y r]; [exact Hs|].
        destruct (Ascii.eqb y slash); [|exact Hs]. destruct (isabs r); [exact Hs|]. rewrite has_char_app, Hs. reflexivity.
      - apply has_char_concat; [exact H1|]. intros y Hy. apply in_rev in Hy. apply norm_comps_subset in Hy. destruct Hy as [[]|Hy].
        eapply split_char_other; [exact Hp|exact Hy]. }
    destruct (initial_slashes q ++ String.concat sep (rev (norm_comps (isabs q) [] (split_char slash q)))); [|exact H].
    cbn [has_char dot sep]. destruct (Ascii.eqb_spec "." c); [congruence|reflexivity].
Qed.

Lemma has_char_path_join : forall c a b, c <> slash -> has_char c a = false -> has_char c b = false -> has_char c (path_join a b) = false.
Proof.
  intros c a b Hc Ha Hb. unfold path_join. destruct (isabs b); [exact Hb|]. destruct (String.eqb a "" || ends_slash a); rewrite has_char_app, Ha; [exact Hb|].
  cbn [orb append has_char sep]. destruct (Ascii.eqb_spec "/" c) as [E|_]; [exfalso; apply Hc; symmetry; exact E|exact Hb].
Qed.

Lemma has_char_relative : forall c realpath path r, c <> slash -> c <> "."%char -> has_char c (realpath path) = false ->
  has_char c (relative_path realpath path r) = false.
Proof.
  intros c realpath path r H1 H2 Hp. unfold relative_path.
  set (l := (repeat dotdot (length (split_char slash (realpath r)) - common_prefix_length (split_char slash (realpath path)) (split_char slash (realpath r))) ++
             skipn (common_prefix_length (split_char slash (realpath path)) (split_char slash (realpath r))) (split_char slash (realpath path)))%list).
  assert (Hl : forall x, In x l -> has_char c x = false).
  { intros x Hx. apply in_app_or in Hx. destruct Hx as [Hx|Hx].
    - apply repeat_spec in Hx. rewrite Hx. unfold dotdot. cbn [has_char dot sep]. destruct (Ascii.eqb_spec "." c); [congruence|reflexivity].
    - eapply split_char_other; [exact Hp|]. rewrite <- (firstn_skipn (common_prefix_length (split_char slash (realpath path)) (split_char slash (realpath r))) (split_char slash (realpath path))).
      apply in_or_app. right. exact Hx. }
  destruct l as [|a l]; [reflexivity|]. cbn [path_join_list]. assert (Ha := Hl a (or_introl eq_refl)).
  assert (Hr : forall x, In x l -> has_char c x = false) by (intros x Hx; apply Hl; right; exact Hx). clear Hl. revert a Ha.
  induction l as [|b l IH]; intros a Ha; [exact Ha|]. cbn [fold_left]. apply IH; [intros x Hx; apply Hr; right; exact Hx|].
  apply has_char_path_join; [exact H1|exact Ha|apply Hr; left; reflexivity].
Qed.

Lemma replace_char_none : forall a b s, has_char a s = false -> replace_char a b s = s.
Proof. intros a b s; induction s as [|c s IH]; cbn; [reflexivity|]. destruct (Ascii.eqb c a); [discriminate|]. intros H. rewrite IH by exact H. reflexivity. Qed.

(** ** MakePathRelative *)

Lemma locate_trailing : forall here p, p <> "" -> locate here (p ++ "/") = locate here p.
Proof.
  intros here p H. unfold locate. change (p ++ "/") with (p ++ String slash ""). rewrite split_char_sep, walk_app. cbn [split_char walk fold_left].
  rewrite step_empty. destruct p; [congruence|reflexivity].
Qed.

Lemma normpath_nonempty : forall p, normpath p <> "".
Proof.
  intros p. unfold normpath. destruct p as [|x p]; [discriminate|].
  destruct (initial_slashes (String x p) ++ String.concat sep (rev (norm_comps (isabs (String x p)) [] (split_char slash (String x p))))); discriminate.
Qed.

Lemma ends_slash_concat : forall l, (forall c, In c l -> has_char slash c = false /\ c <> "") -> ends_slash (String.concat "/" l) = false.
Proof.
  induction l as [|a l IH]; intros H; [reflexivity|]. rewrite concat_cons. destruct (H a (or_introl eq_refl)) as [H1 H2].
  destruct l as [|b l]; [apply ends_slash_no_char; assumption|]. rewrite ends_slash_sep; [apply IH; intros c Hc; apply H; right; exact Hc|].
  apply concat_nonempty; [|discriminate]. intros c Hc. apply H. right. exact Hc.
Qed.

Lemma normpath_no_trailing : forall p, isabs p = false -> ends_slash (normpath p) = false.
Proof.
  intros p Ha. unfold normpath. destruct p as [|x p]; [reflexivity|]. set (q := String x p) in *.
  assert (Hi : initial_slashes q = "") by (unfold initial_slashes, q in *; cbn [isabs] in Ha; rewrite Ha; reflexivity). rewrite Hi, Ha. cbn [append].
  assert (Hp := norm_comps_props false (split_char slash q) [] (split_char_no_char slash q) (fun c H => match H with end)).
  assert (He : ends_slash (String.concat "/" (rev (norm_comps false [] (split_char slash q)))) = false).
  { apply ends_slash_concat. intros c Hc. apply in_rev in Hc. destruct (Hp c Hc) as [A [B _]]. split; assumption. }
  change sep with "/". destruct (String.concat "/" (rev (norm_comps false [] (split_char slash q)))); [reflexivity|exact He].
Qed.

Lemma exception_isabs : forall item, exception_match item = false -> isabs item = false.
Proof.
  intros [|a item] H; [reflexivity|]. cbn [exception_match] in H. apply orb_false_iff in H. destruct H as [H _]. cbn [isabs].
  destruct (Ascii.eqb_spec a slash) as [->|]; [discriminate H|reflexivity].
Qed.

Lemma has_char_absolute : forall c p, c <> slash -> (forall x, In x p -> has_char c x = false) -> has_char c (absolute p) = false.
Proof.
  intros c p Hc H. unfold absolute. rewrite has_char_app. apply orb_false_iff. split.
  - cbn [has_char dot sep]. destruct (Ascii.eqb_spec "/" c) as [E|_]; [exfalso; apply Hc; symmetry; exact E|reflexivity].
  - apply has_char_concat; [exact Hc|]. intros x Hx. apply H. apply in_rev. exact Hx.
Qed.

Lemma walk_subset : forall comps p x, In x (walk p comps) -> In x p \/ In x comps.
Proof.
  induction comps as [|c comps IH]; intros p x; cbn [walk fold_left]; [tauto|]. intros H. apply IH in H. cbn [In].
  destruct H as [H|H]; [|tauto]. unfold step in H. destruct (String.eqb c "" || String.eqb c "."); [tauto|].
  destruct (String.eqb c ".."); [left; destruct p; [destruct H|right; exact H]|]. destruct H as [<-|H]; tauto.
Qed.

Lemma has_char_dirname : forall c p, has_char c p = false -> has_char c (dirname p) = false.
Proof.
  intros c p H. unfold dirname, path_split. destruct (rsplit1 slash p) as [[h t]|] eqn:E; [|reflexivity].
  apply rsplit1_Some in E. destruct E as [-> _]. rewrite has_char_app in H. apply orb_false_iff in H. destruct H as [H1 H2].
  assert (Hs : has_char c (h ++ String slash "") = false).
  { rewrite has_char_app, H1. cbn [has_char orb] in *. destruct (Ascii.eqb slash c); [discriminate|reflexivity]. }
  cbn [fst]. destruct (all_slashes (h ++ String slash "")); [exact Hs|].
  assert (Hr : forall s, has_char c s = false -> has_char c (rstrip slash s) = false).
  { induction s as [|a s IH]; [reflexivity|]. cbn. destruct (Ascii.eqb a c) eqn:Ea; [discriminate|]. intros Hx. specialize (IH Hx).
    destruct (rstrip slash s); [destruct (Ascii.eqb a slash); [reflexivity|cbn; rewrite Ea; reflexivity]|]. cbn [has_char] in *. rewrite Ea. exact IH. }
  apply Hr. exact Hs.
Qed.

Lemma bs_slash : backslash <> slash. Proof. intros H. discriminate H. Qed.
Lemma bs_dot : backslash <> "."%char. Proof. intros H. discriminate H. Qed.

Lemma make_path_relative_spec : forall cwd to_file fro_file item, place_ok cwd ->
  (forall x, In x cwd -> has_char backslash x = false) -> has_char backslash fro_file = false -> has_char backslash item = false ->
  exception_match item = false ->
  locate (locate cwd (dirname to_file)) (make_path_relative (plain_realpath cwd) to_file fro_file item) =
  locate (locate cwd (dirname fro_file)) item /\
  ends_slash (make_path_relative (plain_realpath cwd) to_file fro_file item) = ends_slash item.
Proof.
  intros cwd to_file fro_file item Hcwd Hb1 Hb2 Hb3 Hex. unfold make_path_relative. rewrite Hex, orb_false_r.
  destruct (String.eqb_spec to_file fro_file) as [->|Hne]; [split; reflexivity|].
  set (rel := relative_path (plain_realpath cwd) (dirname fro_file) (dirname to_file)).
  destruct (relative_path_plain cwd (dirname fro_file) (dirname to_file) Hcwd) as [H1 H2]. fold rel in H1, H2.
  assert (Habs := exception_isabs item Hex).
  assert (Hrel : has_char backslash rel = false).
  { apply has_char_relative; [exact bs_slash|exact bs_dot|]. unfold plain_realpath. apply has_char_absolute; [exact bs_slash|].
    intros x Hx. unfold locate in Hx. apply walk_subset in Hx. destruct Hx as [Hx|Hx].
    - destruct (isabs (dirname fro_file)); [destruct Hx|apply Hb1; exact Hx].
    - eapply split_char_other; [|exact Hx]. apply has_char_dirname. exact Hb2. }
  rewrite replace_char_none by (apply has_char_normpath; [exact bs_slash|exact bs_dot|apply has_char_path_join; [exact bs_slash|exact Hrel|exact Hb3]]).
  assert (Hloc : locate (locate cwd (dirname to_file)) (normpath (path_join rel item)) = locate (locate cwd (dirname fro_file)) item)
    by (rewrite locate_normpath, locate_join, H1; reflexivity).
  assert (Hja : isabs (path_join rel item) = false).
  { unfold path_join. rewrite Habs. destruct rel as [|y rel]; [exact Habs|]. change (String.eqb (String y rel) "") with false. cbn [orb].
    destruct (ends_slash (String y rel)); exact H2. }
  destruct (ends_slash item) eqn:Es.
  - split; [rewrite locate_trailing by apply normpath_nonempty; exact Hloc|apply ends_slash_app].
  - split; [exact Hloc|apply normpath_no_trailing; exact Hja].
Qed.

(** ** ResolveTarget *)

Lemma resolve_file : forall cwd file pf name ts target toolset, place_ok cwd -> file <> "" -> pf <> "" ->
  parse_qualified_target target = (Some pf, name, ts) ->
  exists f, resolve_target (plain_realpath cwd) file target toolset =
    (f, name, match ts with None | Some EmptyString => toolset | Some s => s end) /\
    locate cwd f = locate (locate cwd (dirname file)) pf /\
    (isabs f = isabs (normpath (path_join (dirname file) pf))).
Proof.
  intros cwd file pf name ts target toolset Hcwd Hf Hpf E. unfold resolve_target. rewrite E.
  destruct pf as [|a pf]; [congruence|]. destruct file as [|b file]; [congruence|].
  set (g := normpath (path_join (dirname (String b file)) (String a pf))).
  assert (Hg : locate cwd g = locate (locate cwd (dirname (String b file))) (String a pf)) by (unfold g; rewrite locate_normpath, locate_join; reflexivity).
  destruct (isabs g) eqn:Ea.
  - exists g. split; [reflexivity|]. split; [exact Hg|exact Ea].
  - exists (relative_path (plain_realpath cwd) g dot). split; [reflexivity|].
    destruct (relative_path_plain cwd g dot Hcwd) as [H1 H2]. change (locate cwd dot) with cwd in H1. rewrite H1. split; [exact Hg|exact H2].
Qed.

(** Two references to the same file resolve to the same spelling, provided
    neither is absolute. *)
Lemma resolve_canonical : forall cwd file1 pf1 n1 t1 file2 pf2 n2 t2 target1 target2 toolset1 toolset2 f1 f2,
  file1 <> "" -> pf1 <> "" -> file2 <> "" -> pf2 <> "" ->
  parse_qualified_target target1 = (Some pf1, n1, t1) -> parse_qualified_target target2 = (Some pf2, n2, t2) ->
  fst (fst (resolve_target (plain_realpath cwd) file1 target1 toolset1)) = f1 ->
  fst (fst (resolve_target (plain_realpath cwd) file2 target2 toolset2)) = f2 ->
  isabs f1 = false -> isabs f2 = false -> place_ok cwd ->
  locate (locate cwd (dirname file1)) pf1 = locate (locate cwd (dirname file2)) pf2 -> f1 = f2.
Proof.
  intros cwd file1 pf1 n1 t1 file2 pf2 n2 t2 target1 target2 toolset1 toolset2 f1 f2 A1 A2 A3 A4 E1 E2 R1 R2 N1 N2 Hcwd Hloc.
  unfold resolve_target in R1, R2. rewrite E1 in R1. rewrite E2 in R2. cbn [fst] in R1, R2.
  destruct pf1 as [|a1 pf1]; [congruence|]. destruct file1 as [|b1 file1]; [congruence|].
  destruct pf2 as [|a2 pf2]; [congruence|]. destruct file2 as [|b2 file2]; [congruence|].
  set (g1 := normpath (path_join (dirname (String b1 file1)) (String a1 pf1))) in *.
  set (g2 := normpath (path_join (dirname (String b2 file2)) (String a2 pf2))) in *.
  destruct (isabs g1) eqn:G1; [congruence|]. destruct (isabs g2) eqn:G2; [congruence|]. subst f1 f2.
  apply relative_path_canonical. unfold plain_realpath. f_equal. unfold g1, g2. rewrite !locate_normpath, !locate_join. exact Hloc.
Qed.

Definition place_okb (p : list string) : bool :=
  forallb (fun c => negb (has_char slash c) && negb (String.eqb c "") && negb (String.eqb c ".") && negb (String.eqb c "..")) p.
Lemma place_okb_ok : forall p, place_okb p = true -> place_ok p.
Proof.
  intros p H. unfold place_ok. apply Forall_forall. intros c Hc. unfold place_okb in H. rewrite forallb_forall in H. specialize (H c Hc).
  rewrite !andb_true_iff, !negb_true_iff, !String.eqb_neq in H. unfold name_ok. tauto.
Qed.

Lemma unrelative_spec : forall cwd path relative_to,
  locate cwd (unrelative_path path relative_to) = locate (locate cwd (dirname relative_to)) path.
Proof. intros cwd path relative_to. unfold unrelative_path. rewrite locate_normpath, locate_join. reflexivity. Qed.

Lemma fix_if_relative_spec : forall cwd path relative_to, place_ok cwd ->
  locate (locate cwd relative_to) (fix_if_relative_path (plain_realpath cwd) path relative_to) = locate cwd path.
Proof.
  intros cwd path relative_to H. unfold fix_if_relative_path. destruct (isabs path) eqn:E; [unfold locate; rewrite E; reflexivity|].
  apply relative_path_plain. exact H.
Qed.

Lemma relative_path_final : forall realpath path relative_to p r,
  place_ok p -> place_ok r -> realpath path = absolute p -> realpath relative_to = absolute r ->
  normpath (path_join (realpath relative_to) (relative_path realpath path relative_to)) = realpath path /\
  isabs (relative_path realpath path relative_to) = false.
Proof.
  intros realpath path relative_to p r Hp Hr Ep Er. split.
  - exact (relative_path_round_trip realpath path relative_to p r Hp Hr Ep Er).
  - exact (proj2 (relative_path_spec realpath path relative_to p r Hp Hr Ep Er)).
Qed.

Lemma exception_iff : forall item, exception_match item = true <-> protected item.
Proof.
  assert (C : forall a, exception_char a = true <-> In a ["-"; "/"; "$"; "<"; ">"; "^"]%char).
  { intros a. unfold exception_char. rewrite existsb_exists. split; [intros (x & H & E); apply Ascii.eqb_eq in E; subst; exact H|intros H; exists a; split; [exact H|apply Ascii.eqb_refl]]. }
  intros [|a rest]; unfold protected; cbn [exception_match].
  - split; [discriminate|]. intros (q & a & r & E & _). destruct q; discriminate.
  - rewrite orb_true_iff, C, andb_true_iff. split.
    + intros [H|[HQ H]]; [exists "", a, rest; cbn [In]; auto|]. destruct rest as [|b rest]; [discriminate|]. apply C in H. exists (String a ""), b, rest. split; [reflexivity|]. split; [|exact H].
      cbn [existsb] in HQ. destruct (Ascii.eqb_spec a """") as [->|]; [cbn; auto|]. destruct (Ascii.eqb_spec a "'") as [->|]; [cbn; auto|discriminate].
    + intros (q & b & r & E & HQ & H). cbn [In] in HQ. destruct HQ as [<-|[<-|[<-|[]]]]; cbn [append] in E; injection E as E1 E2; subst.
      * left. exact H.
      * right. split; [reflexivity|apply C, H].
      * right. split; [reflexivity|apply C, H].
Qed.
Lemma make_path_relative_final : forall cwd to_file fro_file item, place_ok cwd ->
  (protected item -> make_path_relative (plain_realpath cwd) to_file fro_file item = item) /\
  (~ protected item ->
   (forall x, In x cwd -> has_char backslash x = false) -> has_char backslash fro_file = false -> has_char backslash item = false ->
   locate (locate cwd (dirname to_file)) (make_path_relative (plain_realpath cwd) to_file fro_file item) =
   locate (locate cwd (dirname fro_file)) item /\
   ends_slash (make_path_relative (plain_realpath cwd) to_file fro_file item) = ends_slash item).
Proof.
  intros cwd to_file fro_file item Hcwd. rewrite <- exception_iff. rewrite not_true_iff_false. split.
  - intros H. unfold make_path_relative. rewrite H, orb_true_r. reflexivity.
  - intros H1 H2 H3 H4. apply make_path_relative_spec; assumption.
Qed.

Lemma make_path_relative_backslash : exists cwd to_file fro_file item, place_ok cwd /\ ~ protected item /\
  locate (locate cwd (dirname to_file)) (make_path_relative (plain_realpath cwd) to_file fro_file item) <>
  locate (locate cwd (dirname fro_file)) item.
Proof.
  exists ["w"], "a/x.gyp", "b/y.gypi", "p\q". split; [apply place_okb_ok; reflexivity|]. split; [rewrite <- exception_iff; discriminate|]. vm_compute. discriminate.
Qed.

Lemma resolve_absolute_differs : exists cwd file target1 target2 toolset, place_ok cwd /\
  (exists p1 n1 p2 n2, parse_qualified_target target1 = (Some p1, n1, None) /\ parse_qualified_target target2 = (Some p2, n2, None) /\
     n1 = n2 /\ locate (locate cwd (dirname file)) p1 = locate (locate cwd (dirname file)) p2) /\
  resolve_target (plain_realpath cwd) file target1 toolset <> resolve_target (plain_realpath cwd) file target2 toolset.
Proof.
  exists ["w"], "a/x.gyp", "../b.gyp:t", "/w/b.gyp:t", "target". split; [apply place_okb_ok; reflexivity|].
  split; [eexists _, _, _, _; repeat split|]. vm_compute. discriminate.
Qed.

Lemma invert_docstring_up : exists cwd path, place_ok cwd /\ path <> "" /\ isabs path = false /\
  normpath (path_join path (invert_relative_path (plain_realpath cwd) path ".")) <> ".".
Proof.
  exists ["b"; "a"], "../foo". split; [apply place_okb_ok; reflexivity|]. split; [discriminate|]. split; [reflexivity|]. vm_compute. discriminate.
Qed.
