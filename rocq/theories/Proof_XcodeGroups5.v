From Verif Require Import Lib Str StrFacts LibFacts Model_Names Model_Path Model_Writer Model_XcodeGroups Spec_XcodeGroups.
From Verif Require Import Proof_Path Proof_XcodeGroups Proof_XcodeGroups2 Proof_XcodeGroups3 Proof_XcodeGroups4.
From Coq Require Import Lia Permutation.
Local Open Scope string_scope.
Arguments init : simpl never.

(** ** Any ordinary path *)
Lemma ordinary_normal : forall p, ordinary p -> exists l, normpath p = String.concat "/" l /\ normal l /\ comps true l.
Proof.
  intros p (A & _ & O). destruct (normpath_rel p A) as (l & E & N). exists l. split; [exact E|]. split; [exact N|]. destruct (normal_okn l N) as [K NE]. rewrite E in O.
  assert (S := normal_split' l K NE). rewrite S in O. destruct l as [|c cs]; [congruence|]. apply Forall_cons_iff in K. destruct K as [K1 K2]. destruct O as [O1 O2]. split.
  - split; [exact K1|]. destruct O1 as [O1|O1]; [left; exact O1|right; split; [reflexivity|exact O1]].
  - apply Forall_forall. intros x X. rewrite Forall_forall in K2, O2. split; [exact (K2 x X)|left; exact (O2 x X)].
Qed.
Lemma add_norm : forall n p kids l, ends_slash p = false -> normpath p = String.concat "/" l -> normal l -> add n p kids = add n (String.concat "/" l) kids.
Proof.
  intros [|n] p kids l E P N; [reflexivity|]. destruct (normal_okn l N) as [K NE]. cbn [add]. rewrite E, (concat_ends l K NE), P, (normal_fix l N). reflexivity.
Qed.
Lemma add_ordinary : forall n p kids kids', ordinary p -> goods true kids -> add n p kids = Added kids' -> result true (normpath p) kids kids'.
Proof.
  intros n p kids kids' O G H. destruct (ordinary_normal p O) as (l & E & N & C). rewrite (add_norm n p kids l (proj1 (proj2 O)) E N) in H. rewrite E. apply (add_main l n true kids kids' N C G H).
Qed.
Definition lists (paths : list string) (kids : list elem) : Prop := NoDup (listed kids) /\ forall s, In s (listed kids) <-> In s (map normpath paths).
Lemma result_lists : forall top s kids kids', result top s kids kids' -> NoDup (listed kids) -> NoDup (listed kids') /\ forall t, In t (listed kids') <-> t = s \/ In t (listed kids).
Proof.
  intros top s kids kids' [_ [[-> I]|[NI P]]] D.
  - split; [exact D|]. intros t. split; [intros T; right; exact T|]. intros [->|T]; assumption.
  - split; [apply (Permutation_NoDup (Permutation_sym P)); constructor; assumption|]. intros t. split.
    + intros T. apply (Permutation_in _ P) in T. destruct T as [<-|T]; [left; reflexivity|right; exact T].
    + intros T. apply (Permutation_in _ (Permutation_sym P)). destruct T as [->|T]; [left; reflexivity|right; exact T].
Qed.
Lemma add_all_from : forall n paths kids kids', Forall ordinary paths -> goods true kids -> NoDup (listed kids) -> add_all n paths kids = Added kids' ->
  goods true kids' /\ NoDup (listed kids') /\ forall s, In s (listed kids') <-> In s (listed kids) \/ In s (map normpath paths).
Proof.
  induction paths as [|p paths IH]; intros kids kids' F G D H.
  - injection H as <-. split; [exact G|]. split; [exact D|]. intros s. cbn. tauto.
  - apply Forall_cons_iff in F. destruct F as [O F]. cbn in H. destruct (add n p kids) as [k| |] eqn:A; try discriminate H. assert (R := add_ordinary n p kids k O G A). destruct (result_lists true _ _ _ R D) as [D' M].
    destruct (IH k kids' F (proj1 R) D' H) as (G2 & D2 & M2). split; [exact G2|]. split; [exact D2|]. intros s. rewrite M2, M. cbn [map In]. split; [intros [[->|X]|X]|intros [X|[X|X]]]; auto.
Qed.
Theorem files_listed : forall n paths kids, Forall ordinary paths -> add_all n paths [] = Added kids -> NoDup (listed kids) /\ forall s, In s (listed kids) <-> In s (map normpath paths).
Proof.
  intros n paths kids F H. destruct (add_all_from n paths [] kids F (goods_nil true) (NoDup_nil _) H) as (_ & D & M). split; [exact D|]. intros s. rewrite M. cbn. tauto.
Qed.
Theorem added_again : forall n m paths kids p kids', Forall ordinary paths -> add_all n paths [] = Added kids -> In p paths -> add m p kids = Added kids' -> kids' = kids.
Proof.
  intros n m paths kids p kids' F H I A. destruct (add_all_from n paths [] kids F (goods_nil true) (NoDup_nil _) H) as (G & D & M). assert (O : ordinary p) by (rewrite Forall_forall in F; exact (F p I)).
  destruct (add_ordinary m p kids kids' O G A) as [_ [[E _]|[X _]]]; [exact E|]. exfalso. apply X. apply M. right. apply in_map. exact I.
Qed.
Definition depth_of (p : string) : nat := length (split_char "/" (normpath p)).
Lemma accepted_from : forall n all paths kids, Forall ordinary all -> (forall a b, In a all -> In b all -> ~ inside (normpath a) (normpath b)) -> (forall p, In p all -> depth_of p <= n) ->
  (forall p, In p paths -> In p all) -> goods true kids -> NoDup (listed kids) -> (forall s, In s (listed kids) -> In s (map normpath all)) -> exists kids', add_all n paths kids = Added kids'.
Proof.
  intros n all paths. induction paths as [|p paths IH]; intros kids F C L S G D M; [exists kids; reflexivity|]. assert (I : In p all) by (apply S; left; reflexivity). assert (O : ordinary p) by (rewrite Forall_forall in F; exact (F p I)).
  destruct (ordinary_normal p O) as (l & E & N & Cm). destruct (add_succeeds l n true kids N Cm G) as (k & A).
  - rewrite <- E. intros t T. apply M in T. apply in_map_iff in T. destruct T as (q & <- & Q). split; apply C; assumption.
  - specialize (L p I). unfold depth_of in L. rewrite E in L. destruct (normal_okn l N) as [K NE]. rewrite (normal_split' l K NE) in L. exact L.
  - rewrite <- (add_norm n p kids l (proj1 (proj2 O)) E N) in A. cbn [add_all]. rewrite A. assert (R := add_ordinary n p kids k O G A). destruct (result_lists true _ _ _ R D) as [D' M'].
    apply IH; try assumption; [intros q Q; apply S; right; exact Q|exact (proj1 R)|]. intros s T. apply M' in T. destruct T as [->|T]; [apply in_map; exact I|exact (M s T)].
Qed.
Theorem accepted : forall n paths, Forall ordinary paths -> (forall a b, In a paths -> In b paths -> ~ inside (normpath a) (normpath b)) -> (forall p, In p paths -> depth_of p <= n) -> exists kids, add_all n paths [] = Added kids.
Proof. intros n paths F C L. apply (accepted_from n paths paths []); auto using goods_nil, NoDup_nil; try (apply NoDup_nil); intros s []. Qed.

(** ** Taking over *)
Definition fine (p : props) : Prop := match path p with Some s => s <> "" /\ isabs s = false /\ ends_slash s = false | None => True end.
Fixpoint fine_elem (e : elem) : Prop := fine (props_of e) /\ match e with File _ => True | Group _ _ kids => fold_right (fun k P => fine_elem k /\ P) True kids end.
Lemma fold_Forall : forall (P : elem -> Prop) l, fold_right (fun k Q => P k /\ Q) True l <-> Forall P l.
Proof. induction l as [|a l IH]; cbn; [split; [constructor|tauto]|]. rewrite IH. split; [intros [A B]; constructor; assumption|intros H; apply Forall_cons_iff in H; exact H]. Qed.
Lemma join_fine : forall a b, a <> "" -> ends_slash a = false -> isabs b = false -> path_join a b = a ++ "/" ++ b.
Proof. intros a b A E B. unfold path_join. rewrite B. destruct (String.eqb_spec a ""); [contradiction|]. rewrite E. reflexivity. Qed.
Lemma take_fine : forall a b, fine a -> fine b -> fine (take a b).
Proof.
  intros a b A B. unfold fine, take in *. cbn [path]. destruct (String.eqb (tree b) "<group>"); [|exact B]. cbn [path]. destruct (path a) as [s|], (path b) as [t|]; try assumption. destruct A as (A1 & A2 & A3), B as (B1 & B2 & B3).
  rewrite (join_fine s t A1 A3 B2). split; [destruct s; discriminate|]. split; [rewrite isabs_app; destruct s; [congruence|exact A2]|]. rewrite ends_slash_sep by exact B1. exact B3.
Qed.
Lemma take_place : forall above a b, fine a -> fine b -> place above (take a b) = place (place above a) b.
Proof.
  intros above a b A B. unfold fine in *. unfold place at 1. unfold take. cbn [tree path]. destruct (String.eqb (tree b) "<group>") eqn:T; cbn [tree path]; [|unfold place; rewrite T; reflexivity].
  unfold place. rewrite T. destruct (path b) as [t|]; [|destruct (path a); reflexivity]. destruct (String.eqb (tree a) "<group>"); destruct (path a) as [s|].
  - destruct A as (A1 & A2 & A3), B as (B1 & B2 & B3). rewrite (join_fine s t A1 A3 B2). destruct (String.eqb above "") eqn:E; [destruct (String.eqb_spec s ""); [contradiction|reflexivity]|]. destruct (String.eqb_spec (above ++ "/" ++ s) ""); [destruct above; discriminate|]. rewrite !append_assoc. reflexivity.
  - reflexivity.
  - destruct A as (A1 & A2 & A3), B as (B1 & B2 & B3). rewrite (join_fine s t A1 A3 B2). cbn [String.eqb append]. change (Ascii.eqb "$" "$") with true. cbn. rewrite !append_assoc. cbn. reflexivity.
  - cbn. rewrite !append_assoc. reflexivity.
Qed.
Lemma take_over_files : forall e own above, fine_elem e -> fine own -> match e with Group _ _ kids => files above (take_over own e) = flat_map (files (place above own)) kids | File _ => True end.
Proof.
  induction e as [p|v p kids IH] using elem_induction; intros own above F O; [exact I|]. assert (F2 := proj2 F). cbn in F2. apply fold_Forall in F2.
  assert (Rec : forall k, In k kids -> match k with Group false q _ => files (place above own) (take_over q k) = files (place above own) k | _ => True end).
  { intros k K. rewrite Forall_forall in IH, F2. destruct k as [q|[|] q sub]; [exact I|exact I|]. assert (Z := IH _ K q (place above own) (F2 _ K) (proj1 (F2 _ K))). cbn iota in Z. exact Z. }
  assert (Gen : files above (Group v own (map (fun k => match k with Group false p _ => take_over p k | _ => k end) kids)) = flat_map (files (place above own)) kids).
  { cbn [files]. clear IH F F2. induction kids as [|k kids IHk]; [reflexivity|]. cbn [map flat_map]. rewrite IHk by (intros x X; apply Rec; right; exact X). f_equal. assert (Z := Rec k (or_introl eq_refl)). destruct k as [q|[|] q sub]; [reflexivity|reflexivity|exact Z]. }
  destruct kids as [|k [|k2 kids]]; [exact Gen| |destruct k as [q|[|] q sub]; exact Gen]. destruct k as [q|[|] q sub]; [exact Gen|exact Gen|].
  change (take_over own (Group v p [Group false q sub])) with (take_over (take own q) (Group false q sub)). apply Forall_cons_iff in F2. destruct F2 as [F2 _]. apply Forall_cons_iff in IH. destruct IH as [IH _].
  assert (Z := IH (take own q) above F2 (take_fine own q O (proj1 F2))). cbn iota in Z. rewrite Z. cbn [flat_map files]. rewrite app_nil_r, (take_place above own q O (proj1 F2)). reflexivity.
Qed.
Lemma good_fine : forall e top, good top e -> fine_elem e.
Proof.
  induction e as [p|v p kids IH] using elem_induction; intros top G.
  - inversion G as [t c C E1 E2| |]; subst. split; [|exact I]. cbn [props_of]. destruct (init_cases top c C) as [->|(w & _ & _ & ->)]; [|exact I]. unfold fine. cbn [path]. destruct C as [[C1 C2] _]. split; [exact C2|]. split; [destruct c as [|a c]; [reflexivity|cbn in *; destruct (Ascii.eqb a slash); [discriminate C1|reflexivity]]|apply ends_slash_no_char; assumption].
  - inversion G as [|t c sub C F D L X E1 E2|t n sub C F NE D E1 E2]; subst; (split; [|cbn iota; apply fold_Forall; rewrite Forall_forall in *]).
    + cbn [props_of]. destruct (init_cases top c C) as [->|(w & _ & _ & ->)]; [|exact I]. unfold fine. cbn [path]. destruct C as [[C1 C2] _]. split; [exact C2|]. split; [destruct c as [|a c]; [reflexivity|cbn in *; destruct (Ascii.eqb a slash); [discriminate C1|reflexivity]]|apply ends_slash_no_char; assumption].
    + intros k K. exact (IH k K false (F k K)).
    + exact I.
    + intros k K. destruct (F k K) as (d & r & _ & Dn & _ & ->). split; [|exact I]. cbn [props_of fine path]. split; [destruct d; discriminate|]. split; [destruct Dn as [D1 D2]; destruct d as [|a d]; [congruence|cbn in *; destruct (Ascii.eqb a slash); [discriminate D1|reflexivity]]|]. rewrite ends_slash_sep by exact (proj2 C). apply ends_slash_no_char; apply C.
Qed.
Theorem taken_over : forall n paths kids group_name, Forall ordinary paths -> add_all n paths [] = Added kids ->
  let source := {| name := Some group_name; tree := "<group>"; path := None |} in files "" (take_over source (Group false source kids)) = listed kids.
Proof.
  intros n paths kids g F H source. destruct (add_all_from n paths [] kids F (goods_nil true) (NoDup_nil _) H) as ((G & _) & _). apply (take_over_files (Group false source kids) source ""); [|exact I].
  split; [exact I|]. apply fold_Forall. revert G. apply Forall_impl. intros e. apply good_fine.
Qed.
Lemma take_over_group : forall own p kids, exists q sub, take_over own (Group false p kids) = Group false q sub.
Proof.
  intros own p kids. remember (Group false p kids) as e eqn:E. revert own p kids E. induction e as [q|v q l IH] using elem_induction; intros own p kids E; [discriminate E|]. injection E as -> -> ->.
  destruct kids as [|k [|k2 kids]]; [eexists; eexists; reflexivity| |destruct k as [x|[|] x sub]; eexists; eexists; reflexivity]. destruct k as [x|[|] x sub]; [eexists; eexists; reflexivity|eexists; eexists; reflexivity|].
  change (take_over own (Group false p [Group false x sub])) with (take_over (take own x) (Group false x sub)). apply Forall_cons_iff in IH. destruct IH as [IH _]. exact (IH (take own x) x sub eq_refl).
Qed.
Theorem all_collapsed : forall e own, match e with Group false _ _ => collapsed (take_over own e) | _ => True end.
Proof.
  induction e as [p|v p kids IH] using elem_induction; intros own; [exact I|]. destruct v; [exact I|].
  assert (Gen : (forall q sub, kids <> [Group false q sub]) -> collapsed (Group false own (map (fun k => match k with Group false p _ => take_over p k | _ => k end) kids))).
  { intros N. split.
    - intros q sub E. destruct kids as [|k [|k2 kids]]; [discriminate E| |discriminate E]. cbn in E. destruct k as [x|[|] x s]; [discriminate E|discriminate E|]. exact (N x s eq_refl).
    - clear N. induction kids as [|k kids IHk]; [exact I|]. apply Forall_cons_iff in IH. destruct IH as [IH1 IH2]. split; [|exact (IHk IH2)]. destruct k as [x|[|] x s]; [exact I|exact I|exact (IH1 x)]. }
  destruct kids as [|k [|k2 kids]]; [apply Gen; discriminate| |destruct k as [q|[|] q sub]; apply Gen; discriminate]. destruct k as [q|[|] q sub]; [apply Gen; discriminate|apply Gen; discriminate|].
  change (take_over own (Group false p [Group false q sub])) with (take_over (take own q) (Group false q sub)). apply Forall_cons_iff in IH. destruct IH as [IH _]. exact (IH (take own q)).
Qed.
