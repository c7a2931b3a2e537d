(** The ids of files depend on their paths alone (Model_XcodeIds against Spec_XcodeIds). *)
From Coq Require Import NArith Lia.
From Verif Require Import Lib Str StrFacts LibFacts Model_Names Model_Path Model_Writer Model_XcodeGroups Model_XcodeIds Spec_XcodeGroups Spec_XcodeIds.
From Verif Require Import Proof_Path Proof_XcodeGroups Proof_XcodeGroups2 Proof_XcodeGroups3 Proof_XcodeGroups4 Proof_XcodeGroups5 Proof_XcodeIds.
From Verif Require Proof_NinjaObject Proof_NinjaAction2.
Local Open Scope string_scope.
Arguments init : simpl never.

Fixpoint chains (seed : list string) (e : elem) : list (list string) :=
  match e with
  | File _ => [(seed ++ hashables_for_child e)%list]
  | Group _ _ kids => flat_map (chains (seed ++ hashables_for_child e)%list) kids
  end.
Lemma filter_flat_map : forall A B (f : A -> list B) q l, filter q (flat_map f l) = flat_map (fun x => filter q (f x)) l.
Proof. induction l as [|a l IH]; [reflexivity|]. cbn [flat_map]. rewrite filter_app, IH. reflexivity. Qed.
Lemma ids_chains : forall sha1 fed e seed, map snd (filter (fun x => is_file (fst x)) (compute_ids sha1 (fed ++ feeds seed) e)) = map (fun c => id_of (sha1 (fed ++ feeds c))) (chains seed e).
Proof.
  intros sha1 fed. induction e as [p|v p kids IH] using elem_induction; intros seed.
  - cbn [compute_ids filter is_file fst map snd chains]. unfold hashables. rewrite app_nil_r, feeds_app, append_assoc. reflexivity.
  - cbn [compute_ids filter is_file fst chains]. rewrite append_assoc, <- feeds_app. rewrite filter_flat_map, !map_flat_map. apply flat_map_ext_in. intros k K. rewrite Forall_forall in IH. apply (IH k K).
Qed.

(** ** taking over *)
Lemma init_plain : forall c, okc false c -> init None (Some c) = {| name := None; tree := "<group>"; path := Some c |}.
Proof.
  intros c C. destruct (init_cases false c C) as [R|(v & E & _)]; [exact R|]. destruct C as [_ [N|[E' _]]]; [unfold no_variable in N; rewrite E, prefix_dollar in N; discriminate N|discriminate E'].
Qed.
Definition keeps (own : props) (kids : list elem) : Prop :=
  match name own with
  | None => True
  | Some g => has_char slash g = false /\ match path own with Some s => hd_error (split_char slash s) <> Some g | None => forall q sub, In (Group false q sub) kids -> path q <> Some g end
  end.
Lemma take_hashables : forall own c sub, fine own -> tree own = "<group>" -> okc false c -> keeps own [Group false (init None (Some c)) sub] ->
  let q := take own (init None (Some c)) in
  hashables_of "PBXGroup" q = (hashables_of "PBXGroup" own ++ hashables_of "PBXGroup" (init None (Some c)))%list /\ tree q = "<group>" /\ keeps q sub.
Proof.
  intros [n t p] c sub F T C K. cbn [tree] in T. subst t. pose proof (init_plain c C) as IP. rewrite IP in *. unfold take. cbn [tree name path]. change (String.eqb "<group>" "<group>") with true. cbv iota. cbn [name path tree]. destruct C as [[C1 C2] C3].
  unfold fine in F. cbn [path] in F. unfold keeps in K. cbn [name path] in K.
  set (np := match p with Some a => a ++ "/" ++ c | None => c end).
  assert (NP : match p with Some a => Some (path_join a c) | None => Some c end = Some np).
  { unfold np. destruct p as [s|]; [|reflexivity]. destruct F as (F1 & F2 & F3). rewrite join_fine; [reflexivity|exact F1|exact F3|]. destruct c as [|a c]; [reflexivity|cbn in C1 |- *; destruct (Ascii.eqb a slash); [discriminate C1|reflexivity]]. }
  rewrite NP.
  assert (Nm : forall g, n = Some g -> String.eqb g np = false).
  { intros g ->. apply String.eqb_neq. intros E. destruct K as [K1 K2]. unfold np in E. destruct p as [s|].
    - rewrite E, has_char_app in K1. cbn in K1. rewrite orb_true_r in K1. discriminate K1.
    - apply (K2 _ sub (or_introl eq_refl)). cbn [path]. congruence. }
  assert (Sp : split_char slash np = (match p with Some s => split_char slash s | None => [] end ++ [c])%list).
  { unfold np. destruct p as [s|]; [|apply split_char_none; exact C1]. change (s ++ "/" ++ c) with (s ++ String slash c). rewrite split_char_sep, (split_char_none slash c C1). reflexivity. }
  match goal with |- context[{| name := ?a; tree := _; path := Some np |}] => assert (Q : a = n) by (destruct n as [g|]; [|reflexivity]; cbn [Name name path]; rewrite !(Nm g eq_refl); reflexivity) end.
  cbv zeta. rewrite Q. clear Q NP.
  split; [|split; [reflexivity|]].
  - unfold hashables_of, key. cbn [name tree path]. change (String.eqb "<group>" "<group>") with true. cbv iota. change (split_char "/" np) with (split_char slash np). rewrite Sp, flat_map_app. change (split_char "/" c) with (split_char slash c). rewrite (split_char_none slash c C1).
    destruct n, p; cbn [app flat_map]; rewrite ?app_nil_r, <- ?app_assoc; reflexivity.
  - unfold keeps. cbn [name path]. destruct n as [g|]; [|exact I]. destruct K as [K1 K2]. split; [exact K1|]. rewrite Sp. destruct p as [s|].
    + pose proof (split_char_nonempty slash s) as NE. destruct (split_char slash s) as [|x xs]; [contradiction|]. exact K2.
    + cbn. intros E. injection E as E. apply (K2 _ sub (or_introl eq_refl)). cbn [path]. congruence.
Qed.
Lemma take_chains : forall e own seed, match e with Group false _ kids => Forall (good false) kids -> fine own -> tree own = "<group>" -> keeps own kids ->
  chains seed (take_over own e) = flat_map (chains (seed ++ hashables_of "PBXGroup" own)%list) kids | _ => True end.
Proof.
  induction e as [p|v p kids IH] using elem_induction; intros own seed; [exact I|]. destruct v; [exact I|]. intros G F T K.
  assert (Rec : forall k s, In k kids -> match k with Group false q _ => chains s (take_over q k) = chains s k | _ => True end).
  { intros k s Kk. rewrite Forall_forall in IH, G. destruct k as [q|[|] q sub]; [exact I|exact I|]. assert (Gk := G _ Kk). inversion Gk as [|t c sub' C F' D L X E1 [E2 E3]|]; subst. assert (Z := IH _ Kk (init None (Some c)) s). cbn iota in Z.
    rewrite Z; [reflexivity|exact F'| | |].
    - apply (proj1 (good_fine _ _ Gk)).
    - rewrite (init_plain c C). reflexivity.
    - unfold keeps. rewrite (init_plain c C). exact I. }
  assert (Gen : chains seed (Group false own (map (fun k => match k with Group false p _ => take_over p k | _ => k end) kids)) = flat_map (chains (seed ++ hashables_of "PBXGroup" own)%list) kids).
  { cbn [chains]. unfold hashables_for_child. cbn [class_name props_of]. clear IH G K. induction kids as [|k kids IHk]; [reflexivity|]. cbn [map flat_map]. rewrite IHk by (intros x s X; apply Rec; right; exact X). f_equal.
    assert (Z := Rec k (seed ++ hashables_of "PBXGroup" own)%list (or_introl eq_refl)). destruct k as [q|[|] q sub]; [reflexivity|reflexivity|exact Z]. }
  destruct kids as [|k [|k2 kids]]; [exact Gen| |destruct k as [q|[|] q sub]; exact Gen]. destruct k as [q|[|] q sub]; [exact Gen|exact Gen|].
  change (take_over own (Group false p [Group false q sub])) with (take_over (take own q) (Group false q sub)). apply Forall_cons_iff in G, IH. destruct IH as [IH _]. destruct G as [G _].
  inversion G as [|t c sub' C F' D L X E1 [E2 E3]|]; subst. destruct (take_hashables own c sub F T C K) as (H1 & H2 & H3). assert (Z := IH (take own (init None (Some c))) seed). cbn iota in Z. rewrite Z; [|exact F'| |exact H2|exact H3].
  - rewrite H1. cbn [flat_map chains]. unfold hashables_for_child. cbn [class_name props_of]. rewrite app_nil_r, app_assoc. reflexivity.
  - apply take_fine; [exact F|]. apply (proj1 (good_fine _ _ G)).
Qed.

(** ** languages *)
Lemma dots_iff : forall r, only_dots r = false <-> exists a c b, r = a ++ String c b /\ c <> "."%char.
Proof.
  induction r as [|x r IH]; cbn [only_dots].
  - split; [discriminate|]. intros (a & c & b & E & _). destruct a; discriminate E.
  - destruct (Ascii.eqb x ".") eqn:X; cbn [andb].
    + apply Ascii.eqb_eq in X. subst x. rewrite IH. split.
      * intros (a & c & b & -> & N). exists (String "." a), c, b. split; [reflexivity|exact N].
      * intros (a & c & b & E & N). destruct a as [|y a]; [injection E as E1 E2; congruence|]. injection E as E1 E2. exists a, c, b. split; assumption.
    + split; [|reflexivity]. intros _. exists "", x, r. split; [reflexivity|]. apply Ascii.eqb_neq. exact X.
Qed.
Lemma language_iff : forall d r, has_char slash d = false -> (language d = Some r <-> localized d r).
Proof.
  intros d r S. unfold language, localized. split.
  - destruct (splitext d) as [x e] eqn:E. destruct (String.eqb_spec e ".lproj") as [->|]; [|discriminate]. intros H. injection H as ->. unfold splitext in E. rewrite (proj2 (rsplit1_None "/" d) S) in E.
    destruct (rsplit1 "." d) as [[a b]|] eqn:R; [|discriminate E]. destruct (only_dots a) eqn:O; [discriminate E|]. injection E as E1 E2. apply rsplit1_Some in R. destruct R as [-> _]. cbn [append] in E1. subst a b. split; [reflexivity|]. apply dots_iff. exact O.
  - intros [-> O]. apply dots_iff in O. assert (X := Proof_NinjaObject.splitext_is "" r "lproj" (or_introl eq_refl)). change ("" ++ r ++ "." ++ "lproj") with (r ++ ".lproj") in X. rewrite X; [reflexivity| |exact O|reflexivity|reflexivity].
    rewrite has_char_app in S. apply orb_false_iff in S. exact (proj1 S).
Qed.

(** ** what chains say *)
Lemma Forall2_flat_map : forall A B C (R : B -> C -> Prop) (f : A -> list B) (g : A -> list C) l, (forall x, In x l -> Forall2 R (f x) (g x)) -> Forall2 R (flat_map f l) (flat_map g l).
Proof. induction l as [|a l IH]; intros H; [constructor|]. cbn. apply Forall2_app; [apply H; left; reflexivity|]. apply IH. intros x X. apply H. right. exact X. Qed.
Definition says (g : string) (pl : string) (chain : list string) : Prop := exists l, Forall okn l /\ l <> [] /\ pl = String.concat "/" l /\ identified g l chain.
Definition base (g : string) (dirs : list string) : list string := (["PBXGroup.name"; g] ++ flat_map (fun d => ["PBXGroup.path"; d]) dirs)%list.
Lemma place_below : forall dirs s n, Forall okn dirs -> place (String.concat "/" dirs) {| name := n; tree := "<group>"; path := Some s |} = match dirs with [] => s | _ => String.concat "/" dirs ++ "/" ++ s end.
Proof.
  intros dirs s n F. unfold place. cbn [tree path]. change (String.eqb "<group>" "<group>") with true. cbv iota. destruct dirs as [|d dirs]; [reflexivity|]. apply Forall_cons_iff in F. destruct F as [[_ D] _].
  destruct (String.eqb_spec (String.concat "/" (d :: dirs)) "") as [E|]; [|reflexivity]. exfalso. destruct dirs; cbn in E; destruct d; try congruence; discriminate E.
Qed.
Lemma concat_below : forall dirs s, match dirs with [] => s | _ => String.concat "/" dirs ++ "/" ++ s end = String.concat "/" (dirs ++ [s])%list.
Proof. intros [|d dirs] s; [reflexivity|]. rewrite concat_snoc by discriminate. reflexivity. Qed.
Lemma good_says : forall g e, good false e -> forall dirs, Forall okn dirs -> (is_file e = true -> forall ds d r, dirs = (ds ++ [d])%list -> ~ localized d r) ->
  Forall2 (says g) (files (String.concat "/" dirs) e) (chains (base g dirs) e).
Proof.
  intros g. induction e as [p|v p kids IH] using elem_induction; intros G dirs O N.
  - inversion G as [t c C E1 E2| |]; subst. rewrite (init_plain c C). cbn [files chains]. constructor; [|constructor]. rewrite (place_below dirs c None O), concat_below. exists (dirs ++ [c])%list.
    split; [apply Forall_app; split; [exact O|]; constructor; [exact (proj1 C)|constructor]|]. split; [destruct dirs; discriminate|]. split; [reflexivity|].
    unfold hashables_for_child, hashables_of, key, base. cbn [class_name props_of name tree path]. change (String.eqb "<group>" "<group>") with true. cbv iota. change (split_char "/" c) with (split_char slash c). rewrite (split_char_none slash c (proj1 (proj1 C))).
    cbn [flat_map]. rewrite <- app_assoc. apply identified_plain. apply N. reflexivity.
  - inversion G as [|t c sub C F D L X E1 [E2 E3 E4]|t n sub C F NE D E1 [E2 E3 E4]]; subst; cbn [files chains].
    + assert (Od : Forall okn (dirs ++ [c])) by (apply Forall_app; split; [exact O|]; constructor; [exact (proj1 C)|constructor]).
      assert (B : (base g dirs ++ hashables_for_child (Group false (init None (Some c)) kids))%list = base g (dirs ++ [c])).
      { unfold hashables_for_child. cbn [class_name props_of]. rewrite (init_plain c C). unfold hashables_of, key, base. cbn [name tree path]. change (String.eqb "<group>" "<group>") with true. cbv iota. change (split_char "/" c) with (split_char slash c). rewrite (split_char_none slash c (proj1 (proj1 C))).
        rewrite flat_map_app. cbn [flat_map app]. rewrite ?app_nil_r, <- ?app_assoc. reflexivity. }
      rewrite B. rewrite (init_plain c C), (place_below dirs c None O), concat_below. apply Forall2_flat_map. intros k K. rewrite Forall_forall in IH, F. apply (IH k K (F k K) (dirs ++ [c])%list Od). intros Fk ds d r E Lz. apply app_inj_tail in E. destruct E as [_ <-].
      apply (language_iff c r (proj1 (proj1 C))) in Lz. destruct k as [q|]; [|discriminate Fk]. apply (L ltac:(congruence) q K).
    + unfold place. cbn [tree path]. change (String.eqb "<group>" "<group>") with true. cbv iota. apply Forall2_flat_map. intros k K. rewrite Forall_forall in F. destruct (F k K) as (d & r & Lz & Od & Nv & ->). cbn [files chains]. constructor; [|constructor].
      rewrite (place_below dirs (d ++ "/" ++ n) (Some r) O), concat_below. exists (dirs ++ [d; n])%list. split; [apply Forall_app; split; [exact O|]; constructor; [exact Od|constructor; [exact C|constructor]]|]. split; [destruct dirs; discriminate|].
      split; [rewrite <- (concat_below dirs (d ++ "/" ++ n)); destruct dirs as [|y dirs]; [reflexivity|]; replace ((y :: dirs) ++ [d; n])%list with (((y :: dirs) ++ [d]) ++ [n])%list by (rewrite <- app_assoc; reflexivity); rewrite !concat_snoc by discriminate; rewrite append_assoc; reflexivity|].
      unfold hashables_for_child, hashables_of, key, base. cbn [class_name props_of name tree path]. change (String.eqb "<group>" "<group>") with true. cbv iota. change (split_char "/" (d ++ "/" ++ n)) with (split_char slash (d ++ String slash n)). rewrite split_char_sep, (split_char_none slash d (proj1 Od)), (split_char_none slash n (proj1 C)).
      cbn [flat_map app]. rewrite <- !app_assoc. cbn [app]. apply identified_localized. apply (language_iff d r (proj1 Od)). exact Lz.
Qed.

(** ** the files of a project *)
Lemma plain_goods : forall g n paths kids kids', Forall (plain g) paths -> goods false kids -> NoDup (listed kids) ->
  (forall s, In s (listed kids) -> hd_error (split_char slash s) <> Some g) -> add_all n paths kids = Added kids' -> goods false kids' /\ (forall s, In s (listed kids') -> hd_error (split_char slash s) <> Some g).
Proof.
  intros g n. induction paths as [|p paths IH]; intros kids kids' F G D H A.
  - injection A as <-. auto.
  - apply Forall_cons_iff in F. destruct F as [(O & V & Hd) F]. cbn [add_all] in A. destruct (add n p kids) as [k| |] eqn:E; try discriminate A.
    destruct (ordinary_normal p O) as (l & El & N & C). destruct (normal_okn l N) as [K NE]. assert (Sl : split_char slash (normpath p) = l) by (rewrite El; apply normal_split; assumption).
    change (split_char "/" (normpath p)) with (split_char slash (normpath p)) in V, Hd. rewrite Sl in V, Hd.
    assert (Cf : comps false l). { destruct l as [|c cs]; [congruence|]. apply Forall_cons_iff in V. destruct V as [V1 V2]. apply Forall_cons_iff in K. destruct K as [K1 K2]. split; [split; [exact K1|left; exact V1]|]. apply Forall_forall. intros x X. rewrite Forall_forall in V2, K2. split; [exact (K2 x X)|left; exact (V2 x X)]. }
    rewrite (add_norm n p kids l (proj1 (proj2 O)) El N) in E. assert (R := proj1 (add_main l n false kids k N Cf G E)). destruct (result_lists false _ _ _ R D) as [D' M'].
    assert (H' : forall s, In s (listed k) -> hd_error (split_char slash s) <> Some g) by (intros s S; apply M' in S; destruct S as [->|S]; [rewrite (normal_split l K NE); exact Hd|exact (H s S)]).
    exact (IH k kids' F (proj1 R) D' H' A).
Qed.
Lemma no_group_g : forall g kids, goods false kids -> (forall s, In s (listed kids) -> hd_error (split_char slash s) <> Some g) -> forall q sub, In (Group false q sub) kids -> path q <> Some g.
Proof.
  intros g kids [G _] H q sub J P. rewrite Forall_forall in G. assert (Gk := G _ J). inversion Gk as [|t c' sub' C' F' D2 L X E1 [E2 E3]|]; subst.
  assert (E : c' = g) by (rewrite (init_plain c' C') in P; cbn [path] in P; congruence).
  subst c'. destruct X as (t & X). assert (Z : In (g ++ "/" ++ t) (listed kids)) by (unfold listed; apply in_flat_map; exists (Group false (init None (Some g)) sub); split; [exact J|]; rewrite (files_group false g sub C' F'); apply in_map_iff; exists t; split; [reflexivity|exact X]).
  apply (H _ Z). change (g ++ "/" ++ t) with (g ++ String slash t). rewrite split_char_sep, (split_char_none slash g (proj1 (proj1 C'))). reflexivity.
Qed.
Theorem project_says : forall g n paths kids, Forall (plain g) paths -> has_char "/" g = false -> add_all n paths [] = Added kids ->
  Forall2 (says g) (files "" (take_over (source g) (Group false (source g) kids))) (chains [] (take_over (source g) (Group false (source g) kids))).
Proof.
  intros g n paths kids F S A. destruct (plain_goods g n paths [] kids F (goods_nil false)) as [G H]; [constructor|intros s []|exact A|].
  assert (Fs : fine (source g)) by exact I. assert (K : keeps (source g) kids) by (split; [exact S|exact (no_group_g g kids G H)]).
  assert (T := take_chains (Group false (source g) kids) (source g) []). cbn iota in T. rewrite (T (proj1 G) Fs eq_refl K). clear T.
  assert (T := take_over_files (Group false (source g) kids) (source g) ""). cbn iota in T. rewrite T; [|split; [exact I|apply fold_Forall; apply Forall_forall; intros x X; destruct G as [G _]; rewrite Forall_forall in G; exact (good_fine _ _ (G x X))]|exact Fs].
  apply Forall2_flat_map. intros k Kk. destruct G as [G _]. rewrite Forall_forall in G. assert (Z := good_says g k (G k Kk) [] (Forall_nil _)). apply Z. intros _ ds d r E. destruct ds; discriminate E.
Qed.
