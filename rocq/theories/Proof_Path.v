From Verif Require Import Lib LibFacts Str StrFacts Model_Names Model_Path Spec_Path.
Local Open Scope string_scope.

(** ** split / concat *)

Lemma split_char_nonempty : forall c s, split_char c s <> [].
Proof. intros c s; induction s as [|a s IH]; cbn; [discriminate|]. destruct (Ascii.eqb a c); [discriminate|]. destruct (split_char c s); discriminate. Qed.

Lemma split_char_none : forall c s, has_char c s = false -> split_char c s = [s].
Proof.
  intros c s; induction s as [|a s IH]; cbn; [reflexivity|]. destruct (Ascii.eqb a c); [discriminate|]. intros H. rewrite IH by exact H. reflexivity.
Qed.

Lemma split_char_app : forall c a b, has_char c a = false -> split_char c (a ++ String c b) = (a :: split_char c b)%list.
Proof.
  intros c a b; induction a as [|x a IH]; cbn; [rewrite Ascii.eqb_refl; reflexivity|].
  destruct (Ascii.eqb x c); [discriminate|]. intros H. rewrite IH by exact H. reflexivity.
Qed.

Lemma split_char_app_gen : forall c a b, exists l x, split_char c a = (l ++ [x])%list /\
  split_char c (a ++ b) = (l ++ match split_char c b with y :: ys => (x ++ y)%string :: ys | [] => [x] end)%list.
Proof.
  intros c a b; induction a as [|h a IH]; cbn.
  - exists [], "". split; [reflexivity|]. destruct (split_char c b) eqn:E; [destruct (split_char_nonempty c b E)|]. reflexivity.
  - destruct IH as [l [x [E1 E2]]]. destruct (Ascii.eqb h c).
    + exists ("" :: l)%list, x. rewrite E1, E2. split; reflexivity.
    + rewrite E1, E2. destruct l as [|y l]; cbn.
      * exists [], (String h x). split; [reflexivity|]. destruct (split_char c b); reflexivity.
      * exists (String h y :: l)%list, x. split; reflexivity.
Qed.

Lemma split_char_sep : forall c a b, split_char c (a ++ String c b) = (split_char c a ++ split_char c b)%list.
Proof.
  intros c a b. destruct (split_char_app_gen c a (String c b)) as [l [x [E1 E2]]]. rewrite E2, E1. cbn. rewrite Ascii.eqb_refl.
  rewrite append_nil_r, <- app_assoc. reflexivity.
Qed.

Lemma split_char_no_char : forall c s x, In x (split_char c s) -> has_char c x = false.
Proof.
  intros c s; induction s as [|a s IH]; cbn; intros x.
  - intros [<-|[]]. reflexivity.
  - destruct (Ascii.eqb a c) eqn:E.
    + intros [<-|H]; [reflexivity|apply IH; exact H].
    + destruct (split_char c s) as [|y ys]; [intros [<-|[]]; cbn; rewrite E; reflexivity|].
      intros [<-|H]; [cbn; rewrite E; apply IH; left; reflexivity|apply IH; right; exact H].
Qed.

Lemma concat_cons : forall sp a l, String.concat sp (a :: l) = match l with [] => a | _ => a ++ sp ++ String.concat sp l end.
Proof. intros sp a l. destruct l; reflexivity. Qed.

Lemma split_concat : forall l, l <> [] -> (forall x, In x l -> has_char slash x = false) ->
  split_char slash (String.concat "/" l) = l.
Proof.
  induction l as [|a l IH]; intros Hn Hs; [congruence|]. rewrite concat_cons. destruct l as [|b l].
  - apply split_char_none. apply Hs. left. reflexivity.
  - change (a ++ "/" ++ String.concat "/" (b :: l)) with (a ++ String slash (String.concat "/" (b :: l))).
    rewrite split_char_app by (apply Hs; left; reflexivity). rewrite IH; [reflexivity|discriminate|]. intros x Hx. apply Hs. right. exact Hx.
Qed.

(** ** walking *)

Lemma walk_app : forall p a b, walk p (a ++ b)%list = walk (walk p a) b.
Proof. intros p a b. unfold walk. apply fold_left_app. Qed.

Lemma step_empty : forall p, step p "" = p. Proof. reflexivity. Qed.
Lemma step_dot : forall p, step p "." = p. Proof. reflexivity. Qed.
Lemma step_dotdot : forall p, step p ".." = tl p. Proof. reflexivity. Qed.
Lemma step_name : forall p c, name_ok c -> step p c = (c :: p)%list.
Proof.
  intros p c [_ [H1 [H2 H3]]]. unfold step. destruct (String.eqb_spec c ""); [contradiction|]. destruct (String.eqb_spec c "."); [contradiction|].
  destruct (String.eqb_spec c ".."); [contradiction|]. reflexivity.
Qed.

Lemma walk_names : forall l p, place_ok l -> walk p l = (rev l ++ p)%list.
Proof.
  induction l as [|c l IH]; intros p H; [reflexivity|]. inversion H; subst. cbn [walk fold_left rev]. fold (walk (step p c) l).
  rewrite step_name by assumption. rewrite IH by assumption. rewrite <- app_assoc. reflexivity.
Qed.

Lemma walk_ups : forall n p, walk p (repeat ".." n) = skipn n p.
Proof.
  induction n as [|n IH]; intros p; [reflexivity|]. cbn [repeat walk fold_left]. fold (walk (step p "..") (repeat ".." n)).
  rewrite step_dotdot, IH. destruct p; [destruct n; reflexivity|reflexivity].
Qed.

Lemma place_ok_rev : forall l, place_ok l -> place_ok (rev l).
Proof. intros l H. unfold place_ok in *. rewrite Forall_forall in *. intros x Hx. apply H. apply in_rev. exact Hx. Qed.

Lemma walk_ok : forall comps p, (forall c, In c comps -> has_char slash c = false) -> place_ok p -> place_ok (walk p comps).
Proof.
  induction comps as [|c comps IH]; intros p Hc Hp; [exact Hp|]. cbn [walk fold_left]. apply IH; [intros x Hx; apply Hc; right; exact Hx|].
  unfold step. destruct (String.eqb_spec c ""); [exact Hp|]. destruct (String.eqb_spec c "."); [exact Hp|].
  destruct (String.eqb_spec c ".."); [destruct p; [constructor|inversion Hp; assumption]|]. constructor; [|exact Hp].
  repeat split; try assumption. apply Hc. left. reflexivity.
Qed.

Lemma locate_ok : forall here p, place_ok here -> place_ok (locate here p).
Proof.
  intros here p H. unfold locate. apply walk_ok; [intros c; apply split_char_no_char|]. destruct (isabs p); [constructor|exact H].
Qed.

(** ** join *)

Lemma isabs_app : forall a b, isabs (a ++ b) = match a with "" => isabs b | _ => isabs a end.
Proof. intros [|x a] b; reflexivity. Qed.

Lemma ends_slash_split : forall a, ends_slash a = true -> exists b, a = b ++ "/".
Proof.
  induction a as [|x a IH]; [discriminate|]. destruct a as [|y a].
  - cbn. intros H. apply Ascii.eqb_eq in H. subst. exists "". reflexivity.
  - intros H. destruct (IH H) as [b ->]. exists (String x b). reflexivity.
Qed.

Lemma ends_slash_app : forall a, ends_slash (a ++ "/") = true.
Proof. induction a as [|x a IH]; [reflexivity|]. cbn [append]. cbn [ends_slash]. destruct (a ++ "/") eqn:E; [destruct a; discriminate|exact IH]. Qed.

Lemma locate_join : forall here a b, locate here (path_join a b) = locate (locate here a) b.
Proof.
  intros here a b. unfold path_join. destruct (isabs b) eqn:Eb; [unfold locate; rewrite Eb; reflexivity|].
  destruct (String.eqb_spec a "") as [->|Hne]; cbn [orb]; [unfold locate; cbn; rewrite Eb; reflexivity|].
  destruct (ends_slash a) eqn:Es.
  - destruct (ends_slash_split a Es) as [a' ->]. unfold locate at 1. rewrite append_assoc.
    change ("/" ++ b) with (String slash b). rewrite split_char_sep, walk_app. unfold locate. rewrite Eb.
    change (a' ++ "/") with (a' ++ String slash ""). rewrite split_char_sep, walk_app. cbn [split_char walk fold_left].
    fold (walk (walk (if isabs (a' ++ String slash b) then [] else here) (split_char slash a')) (split_char slash b)).
    rewrite step_empty. replace (isabs (a' ++ String slash b)) with (isabs (a' ++ String slash "")) by (destruct a'; reflexivity). reflexivity.
  - unfold locate at 1. change (a ++ sep ++ b) with (a ++ String slash b). rewrite split_char_sep, walk_app.
    unfold locate. rewrite Eb. destruct a as [|x a]; [congruence|]. reflexivity.
Qed.

Lemma path_join_sep : forall a b, a <> "" -> ends_slash a = false -> has_char slash b = false -> path_join a b = a ++ "/" ++ b.
Proof.
  intros a b H1 H2 H3. unfold path_join. assert (Hb : isabs b = false).
  { destruct b as [|x b]; [reflexivity|]. cbn in *. destruct (Ascii.eqb x slash); congruence. }
  rewrite Hb. destruct (String.eqb_spec a ""); [contradiction|]. rewrite H2. reflexivity.
Qed.

(** ** normpath *)

Lemma norm_comps_walk : forall absolute here comps acc, (absolute = true -> here = []) ->
  (forall c, In c acc -> c <> "" /\ c <> ".") ->
  walk here (rev (norm_comps absolute acc comps)) = walk (walk here (rev acc)) comps.
Proof.
  intros absolute here comps; induction comps as [|c comps IH]; intros acc Ha Hacc; cbn [norm_comps]; [reflexivity|].
  cbn [walk fold_left]. fold (walk (step (walk here (rev acc)) c) comps).
  destruct (String.eqb_spec c "") as [->|H1]; cbn [orb]; [rewrite IH, step_empty by assumption; reflexivity|].
  destruct (String.eqb_spec c dot) as [->|H2]; cbn [orb]; [rewrite IH by assumption; reflexivity|].
  match goal with |- context [if ?b then _ else _] => destruct b eqn:Eb end.
  - rewrite IH; [|exact Ha|intros x [<-|Hx]; [split; assumption|apply Hacc; exact Hx]].
    cbn [rev]. rewrite walk_app. reflexivity.
  - apply orb_false_iff in Eb. destruct Eb as [Eb E3]. apply orb_false_iff in Eb. destruct Eb as [E1 E2].
    apply negb_false_iff, String.eqb_eq in E1. subst c. change (step (walk here (rev acc)) dotdot) with (tl (walk here (rev acc))).
    destruct acc as [|a acc].
    + rewrite andb_true_r in E2. apply negb_false_iff in E2. cbn [tl]. rewrite IH by assumption. cbn [rev walk fold_left]. rewrite (Ha E2). reflexivity.
    + cbn [tl]. rewrite IH; [|exact Ha|intros x Hx; apply Hacc; right; exact Hx]. cbn [rev]. rewrite walk_app. cbn [walk fold_left].
      fold (walk here (rev acc)). destruct (Hacc a (or_introl eq_refl)) as [Hx Hy]. unfold step.
      destruct (String.eqb_spec a ""); [contradiction|]. destruct (String.eqb_spec a "."); [contradiction|].
      unfold dotdot in E3. rewrite E3. reflexivity.
Qed.

Lemma norm_comps_props : forall absolute comps acc,
  (forall c, In c comps -> has_char slash c = false) ->
  (forall c, In c acc -> has_char slash c = false /\ c <> "" /\ c <> ".") ->
  forall c, In c (norm_comps absolute acc comps) -> has_char slash c = false /\ c <> "" /\ c <> ".".
Proof.
  intros absolute comps; induction comps as [|d comps IH]; intros acc Hc Hacc; cbn [norm_comps]; [exact Hacc|].
  assert (Hc' : forall c, In c comps -> has_char slash c = false) by (intros x Hx; apply Hc; right; exact Hx).
  destruct (String.eqb_spec d "") as [->|H1]; cbn [orb]; [apply IH; assumption|].
  destruct (String.eqb_spec d dot) as [->|H2]; cbn [orb]; [apply IH; assumption|].
  match goal with |- context [if ?b then _ else _] => destruct b end; apply IH; try assumption.
  - intros x [<-|Hx]; [|apply Hacc; exact Hx]. split; [apply Hc; left; reflexivity|]. split; assumption.
  - intros x Hx. apply Hacc. destruct acc; [destruct Hx|right; exact Hx].
Qed.

Lemma concat_nonempty : forall l, (forall c, In c l -> c <> "") -> l <> [] -> String.concat "/" l <> "".
Proof.
  intros l H Hn. destruct l as [|a l]; [congruence|]. rewrite concat_cons. assert (Ha := H a (or_introl eq_refl)).
  destruct a; [congruence|]. destruct l; discriminate.
Qed.

Lemma concat_not_abs : forall l, (forall c, In c l -> has_char slash c = false /\ c <> "") -> isabs (String.concat "/" l) = false.
Proof.
  intros l H. destruct l as [|a l]; [reflexivity|]. rewrite concat_cons. destruct (H a (or_introl eq_refl)) as [H1 H2].
  destruct a as [|x a]; [congruence|]. cbn in H1. destruct l; cbn; destruct (Ascii.eqb x slash); congruence.
Qed.

Lemma locate_normpath : forall here p, locate here (normpath p) = locate here p.
Proof.
  intros here p. unfold normpath. destruct p as [|x p]; [reflexivity|]. set (q := String x p).
  assert (Hp := norm_comps_props (isabs q) (split_char slash q) [] (split_char_no_char slash q) (fun c H => match H with end)).
  assert (Hw := norm_comps_walk (isabs q) (if isabs q then [] else here) (split_char slash q) []).
  set (l := norm_comps (isabs q) [] (split_char slash q)) in *.
  assert (Hr : forall c, In c (rev l) -> has_char slash c = false /\ c <> "" /\ c <> ".") by (intros c Hc; apply Hp; apply in_rev; exact Hc).
  assert (Hcat : walk (if isabs q then [] else here) (split_char slash (String.concat sep (rev l))) = locate here q).
  { unfold locate. cbn [rev walk fold_left] in Hw. rewrite <- Hw; [|destruct (isabs q); [reflexivity|discriminate]|intros c []].
    destruct (rev l) as [|c r] eqn:El; [reflexivity|]. rewrite split_concat; [reflexivity|discriminate|]. intros y Hy. apply Hr. exact Hy. }
  destruct (isabs q) eqn:Ea.
  - assert (Hi : exists n, initial_slashes q = String slash n /\ (n = "" \/ n = "/")).
    { unfold initial_slashes, q in *. cbn in Ea. rewrite Ea. destruct p as [|y p]; [exists ""; split; [reflexivity|left; reflexivity]|].
      destruct (Ascii.eqb y slash); [destruct (isabs p)|]; eexists; (split; [reflexivity|]); auto. }
    destruct Hi as [n [-> Hn]]. cbn [append]. unfold locate at 1. cbn [isabs]. rewrite Ascii.eqb_refl.
    cbn [split_char]. rewrite Ascii.eqb_refl. cbn [walk fold_left]. rewrite step_empty. fold (walk [] (split_char slash (n ++ String.concat sep (rev l)))).
    destruct Hn as [->| ->]; [exact Hcat|]. cbn [append split_char]. change (Ascii.eqb "/" slash) with true. cbn iota.
    cbn [walk fold_left]. rewrite step_empty. exact Hcat.
  - assert (Hi : initial_slashes q = "") by (unfold initial_slashes, q in *; cbn in Ea; rewrite Ea; reflexivity).
    rewrite Hi. cbn [append]. destruct (String.concat sep (rev l)) as [|y s] eqn:Ec.
    + cbn [split_char walk fold_left] in Hcat. rewrite step_empty in Hcat. rewrite <- Hcat. reflexivity.
    + rewrite <- Hcat. unfold locate. assert (Hna : isabs (String y s) = false).
      { rewrite <- Ec. apply concat_not_abs. intros c Hc. destruct (Hr c Hc) as [A [B _]]. split; assumption. }
      rewrite Hna. reflexivity.
Qed.

(** ** RelativePath *)

Lemma split_absolute : forall p, place_ok p ->
  split_char slash (absolute p) = ("" :: match p with [] => [""] | _ => rev p end)%list.
Proof.
  intros p H. unfold absolute. change ("/" ++ String.concat "/" (rev p)) with ("" ++ String slash (String.concat "/" (rev p))).
  rewrite split_char_app by reflexivity. f_equal. destruct p as [|c p]; [reflexivity|]. apply split_concat.
  - cbn. destruct (rev p); discriminate.
  - intros x Hx. apply in_rev in Hx. unfold place_ok in H. rewrite Forall_forall in H. apply H. exact Hx.
Qed.

Lemma locate_absolute : forall here p, place_ok p -> locate here (absolute p) = p.
Proof.
  intros here p H. unfold locate. rewrite split_absolute by exact H. change (isabs (absolute p)) with true. cbn iota.
  cbn [walk fold_left]. rewrite step_empty. destruct p as [|c p]; [reflexivity|].
  fold (walk [] (rev (c :: p))). rewrite walk_names by (apply place_ok_rev; exact H). rewrite rev_involutive, app_nil_r. reflexivity.
Qed.

Lemma common_prefix_spec : forall a b, firstn (common_prefix_length a b) a = firstn (common_prefix_length a b) b /\
  common_prefix_length a b <= length a /\ common_prefix_length a b <= length b.
Proof.
  induction a as [|x a IH]; intros b; [cbn; repeat split; lia|]. destruct b as [|y b]; [cbn; repeat split; lia|].
  cbn [common_prefix_length]. destruct (String.eqb_spec x y) as [->|]; [|cbn; repeat split; lia].
  destruct (IH b) as [H1 [H2 H3]]. cbn [firstn length]. rewrite H1. repeat split; lia.
Qed.

(** Joining components gives back their concatenation: all slash-free, all but
    the last non-empty. *)
Lemma ends_slash_no_char : forall s, s <> "" -> has_char slash s = false -> ends_slash s = false.
Proof.
  induction s as [|x s IH]; [congruence|]. intros _ H. cbn in H. destruct (Ascii.eqb x slash) eqn:E; [discriminate|].
  destruct s as [|y s]; [exact E|]. apply IH; [discriminate|exact H].
Qed.

Lemma ends_slash_sep : forall a b, b <> "" -> ends_slash (a ++ "/" ++ b) = ends_slash b.
Proof.
  intros a b Hb. induction a as [|x a IH].
  - destruct b; [congruence|reflexivity].
  - cbn [append] in *. cbn [ends_slash]. destruct (a ++ String "/" b) eqn:E; [destruct a; discriminate|exact IH].
Qed.

Lemma path_join_fold : forall l a, a <> "" -> ends_slash a = false ->
  (forall x, In x l -> has_char slash x = false) -> (forall x r l1, l = (l1 ++ x :: r)%list -> r <> [] -> x <> "") ->
  fold_left path_join l a = String.concat "/" (a :: l).
Proof.
  induction l as [|b l IH]; intros a Ha Hs Hc He; [reflexivity|]. cbn [fold_left].
  assert (Hb := Hc b (or_introl eq_refl)). rewrite path_join_sep by assumption.
  destruct l as [|c l]; [reflexivity|]. assert (Hbn : b <> "") by (apply (He b (c :: l) []); [reflexivity|discriminate]).
  rewrite IH.
  - rewrite !concat_cons. destruct l; rewrite !append_assoc; reflexivity.
  - destruct a; discriminate.
  - rewrite ends_slash_sep by exact Hbn. apply ends_slash_no_char; assumption.
  - intros x Hx. apply Hc. right. exact Hx.
  - intros x r l1 E Hr. apply (He x r (b :: l1)); [rewrite E; reflexivity|exact Hr].
Qed.

Lemma join_list_concat : forall l, (forall x, In x l -> has_char slash x = false) ->
  (forall x r l1, l = (l1 ++ x :: r)%list -> r <> [] \/ l1 = [] -> x <> "") -> l <> [] ->
  path_join_list l = String.concat "/" l.
Proof.
  intros l Hs He Hn. destruct l as [|a l]; [congruence|]. cbn [path_join_list]. apply path_join_fold.
  - apply (He a l []); [reflexivity|right; reflexivity].
  - apply ends_slash_no_char; [apply (He a l []); [reflexivity|right; reflexivity]|apply Hs; left; reflexivity].
  - intros x Hx. apply Hs. right. exact Hx.
  - intros x r l1 E Hr. apply (He x r (a :: l1)); [rewrite E; reflexivity|left; exact Hr].
Qed.

Lemma rel_walk : forall (p r : list string), place_ok p -> place_ok r ->
  let ps := ("" :: match p with [] => [""] | _ => rev p end)%list in
  let rs := ("" :: match r with [] => [""] | _ => rev r end)%list in
  let k := common_prefix_length ps rs in
  walk r (repeat ".." (length rs - k) ++ skipn k ps)%list = p.
Proof.
  intros p r Hp Hr ps rs k. rewrite walk_app, walk_ups. unfold k, ps, rs. cbn [common_prefix_length]. rewrite String.eqb_refl. cbn [length skipn].
  assert (Hne : forall (l : list string) c, place_ok (c :: l) -> exists d m, rev (c :: l) = (d :: m)%list /\ d <> "").
  { intros l c H. destruct (rev (c :: l)) as [|d m] eqn:E.
    - apply (f_equal (@length _)) in E. rewrite rev_length in E. discriminate.
    - exists d, m. split; [reflexivity|]. assert (Hin : In d (c :: l)) by (apply in_rev; rewrite E; left; reflexivity).
      unfold place_ok in H. rewrite Forall_forall in H. apply (H d Hin). }
  destruct r as [|b r].
  - destruct p as [|a p].
    + reflexivity.
    + destruct (Hne p a Hp) as [d [m [E Hd]]]. rewrite E. cbn [common_prefix_length].
      destruct (String.eqb_spec d ""); [contradiction|]. cbn [length skipn]. rewrite <- E. cbn [Nat.sub]. rewrite skipn_nil.
      rewrite walk_names by (apply place_ok_rev; exact Hp). rewrite rev_involutive, app_nil_r. reflexivity.
  - destruct p as [|a p].
    + destruct (Hne r b Hr) as [d [m [E Hd]]]. rewrite E. cbn [common_prefix_length].
      destruct (String.eqb_spec "" d); [congruence|]. cbn [skipn]. rewrite <- E, rev_length. cbn [length].
      replace (S (S (length r)) - 1) with (length (b :: r)) by (cbn; lia). rewrite skipn_all. reflexivity.
    + set (P := (a :: p)%list) in *. set (Q := (b :: r)%list) in *. destruct (common_prefix_spec (rev P) (rev Q)) as [H1 [H2 H3]].
      set (j := common_prefix_length (rev P) (rev Q)) in *. rewrite rev_length in *.
      replace (S (length Q) - S j) with (length Q - j) by lia.
      assert (E : skipn (length Q - j) Q = rev (firstn j (rev P))).
      { rewrite H1. rewrite firstn_rev. rewrite rev_involutive. reflexivity. }
      rewrite E. rewrite walk_names.
      * rewrite <- rev_app_distr, firstn_skipn, rev_involutive. reflexivity.
      * assert (Hok := place_ok_rev _ Hp). unfold place_ok in *. rewrite Forall_forall in *. intros x Hx. apply Hok.
        rewrite <- (firstn_skipn j (rev P)). apply in_or_app. right. exact Hx.
Qed.

(** What the result of RelativePath leads to, for any realpath. *)
Lemma relative_path_spec : forall realpath path relative_to p r,
  place_ok p -> place_ok r -> realpath path = absolute p -> realpath relative_to = absolute r ->
  locate r (relative_path realpath path relative_to) = p /\
  isabs (relative_path realpath path relative_to) = false.
Proof.
  intros realpath path relative_to p r Hp Hr Ep Er. unfold relative_path. rewrite Ep, Er, !split_absolute by assumption.
  assert (Hw := rel_walk p r Hp Hr). cbv zeta in Hw.
  set (ps := ("" :: match p with [] => [""] | _ => rev p end)%list) in *. set (rs := ("" :: match r with [] => [""] | _ => rev r end)%list) in *.
  set (k := common_prefix_length ps rs) in *. change dotdot with "..".
  assert (Hk : 1 <= k) by (unfold k, ps, rs; cbn [common_prefix_length]; rewrite String.eqb_refl; lia).
  assert (Hps : forall x, In x ps -> has_char slash x = false).
  { intros x [<-|Hx]; [reflexivity|]. destruct p as [|a p]; [destruct Hx as [<-|[]]; reflexivity|].
    apply in_rev in Hx. unfold place_ok in Hp. rewrite Forall_forall in Hp. apply Hp. exact Hx. }
  assert (Hskip : (exists m, skipn k ps = m /\ forall x, In x m -> x <> "") \/ (skipn k ps = [""] /\ 1 <= length rs - k)).
  { destruct p as [|a p].
    - (* root *) destruct (common_prefix_spec ps rs) as [_ [Hk1 Hk2]]. fold k in Hk1, Hk2. assert (Hk3 : length ps = 2) by reflexivity. rewrite Hk3 in Hk1. clearbody k.
      assert (Hk' : k = 1 \/ k = 2) by lia. destruct Hk' as [Hk'|Hk'].
      + right. rewrite Hk'. split; [reflexivity|]. unfold rs in *. destruct r as [|b r]; [cbn; lia|]. cbn [length]. rewrite rev_length. cbn [length]. lia.
      + left. exists []. rewrite Hk'. split; [reflexivity|intros x []].
    - left. exists (skipn k ps). split; [reflexivity|]. intros x Hx. destruct k as [|k']; [lia|]. cbn [skipn] in Hx. unfold ps in Hx.
      assert (Hin : In x (rev (a :: p))) by (rewrite <- (firstn_skipn k' (rev (a :: p))); apply in_or_app; right; exact Hx).
      apply in_rev in Hin. unfold place_ok in Hp. rewrite Forall_forall in Hp. apply (Hp x Hin). }
  set (l := (repeat ".." (length rs - k) ++ skipn k ps)%list) in *.
  assert (Hl1 : forall x, In x l -> has_char slash x = false).
  { intros x Hx. apply in_app_or in Hx. destruct Hx as [Hx|Hx]; [apply repeat_spec in Hx; rewrite Hx; reflexivity|].
    apply Hps. rewrite <- (firstn_skipn k ps). apply in_or_app. right. exact Hx. }
  assert (Hl2 : forall x r0 l1, l = (l1 ++ x :: r0)%list -> r0 <> [] \/ l1 = [] -> x <> "").
  { intros x r0 l1 E Hor C. subst x. destruct Hskip as [[m [Em Hm]]|[Em Hlen]].
    - assert (Hin : In "" l) by (rewrite E; apply in_or_app; right; left; reflexivity).
      unfold l in Hin. apply in_app_or in Hin. destruct Hin as [Hin|Hin]; [apply repeat_spec in Hin; discriminate|].
      rewrite Em in Hin. apply (Hm "" Hin). reflexivity.
    - unfold l in E. rewrite Em in E. destruct Hor as [Hr0|Hl].
      + destruct (exists_last Hr0) as [r1 [z ->]]. change (l1 ++ "" :: r1 ++ [z])%list with (l1 ++ ("" :: r1) ++ [z])%list in E.
        rewrite app_assoc in E. apply app_inj_tail in E. destruct E as [E _].
        assert (Hin : In "" (repeat ".." (length rs - k))) by (rewrite E; apply in_or_app; right; left; reflexivity).
        apply repeat_spec in Hin. discriminate.
      + subst l1. destruct (length rs - k) as [|n]; [lia|]. cbn in E. discriminate. }
  destruct l as [|c l'] eqn:El.
  - split; [|reflexivity]. unfold locate. cbn. exact Hw.
  - rewrite <- El in *. rewrite join_list_concat by (assumption || (rewrite El; discriminate)).
    assert (Hna : isabs (String.concat "/" l) = false).
    { assert (Hc := Hl2 c l' [] El (or_intror eq_refl)). rewrite El. rewrite concat_cons.
      assert (Hcs : has_char slash c = false) by (apply Hl1; rewrite El; left; reflexivity).
      destruct c as [|x c]; [congruence|]. cbn in Hcs. destruct l'; cbn; destruct (Ascii.eqb x slash); congruence. }
    split; [|exact Hna]. unfold locate. rewrite Hna. rewrite split_concat by (assumption || (rewrite El; discriminate)). exact Hw.
Qed.

Lemma relative_path_plain : forall cwd path relative_to, place_ok cwd ->
  locate (locate cwd relative_to) (relative_path (plain_realpath cwd) path relative_to) = locate cwd path /\
  isabs (relative_path (plain_realpath cwd) path relative_to) = false.
Proof.
  intros cwd path relative_to H. apply relative_path_spec; try reflexivity; apply locate_ok; exact H.
Qed.

(** The result only depends on the two places. *)
Lemma relative_path_canonical : forall realpath p1 p2 r, realpath p1 = realpath p2 ->
  relative_path realpath p1 r = relative_path realpath p2 r.
Proof. intros realpath p1 p2 r H. unfold relative_path. rewrite H. reflexivity. Qed.
