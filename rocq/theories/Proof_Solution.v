(** Solutions: the targets in them. *)
From Verif Require Import Lib LibFacts Str StrFacts Model_Path Model_Value Model_Names Model_Solution Spec_Solution.
From Verif Require Model_Vcxproj Model_Writer.
Local Open Scope string_scope.

(** ** dependencies *)
Lemma union_In : forall b a x, In x (union a b) <-> In x a \/ In x b.
Proof.
  induction b as [|y b IH]; intros a x; cbn [union fold_left]; [cbn; tauto|]. change (fold_left (fun l x => oset_add x l) b (oset_add y a)) with (union (oset_add y a) b). rewrite IH, oset_add_In. cbn [In]. intuition congruence.
Qed.
Lemma oset_add_length : forall x l, length (oset_add x l) <= S (length l).
Proof. intros x l. unfold oset_add. destruct (mem x l); [lia|]. rewrite app_length. cbn. lia. Qed.
Lemma union_length : forall b a, length (union a b) <= length a + length b.
Proof.
  induction b as [|y b IH]; intros a; cbn [union fold_left]; [cbn; lia|]. change (fold_left (fun l x => oset_add x l) b (oset_add y a)) with (union (oset_add y a) b). specialize (IH (oset_add y a)). pose proof (oset_add_length y a). cbn [length]. lia.
Qed.
Definition remaining (dicts : list (string * spec)) (seen : list string) : nat := fold_right (fun qs n => (if mem (fst qs) seen then 0 else weight (snd qs)) + n) 0 dicts.
Lemma remaining_start : forall dicts, remaining dicts [] = fold_right (fun qs n => weight (snd qs) + n) 0 dicts.
Proof. induction dicts as [|[q s] d IH]; [reflexivity|]. cbn [remaining fold_right fst snd mem existsb]. rewrite <- IH. reflexivity. Qed.
Lemma mem_app : forall x a b, mem x (a ++ b)%list = mem x a || mem x b.
Proof. intros x a b. unfold mem. apply existsb_app. Qed.
Lemma remaining_le : forall dicts seen r, remaining dicts (seen ++ [r])%list <= remaining dicts seen.
Proof.
  induction dicts as [|[q s] d IH]; intros seen r; [cbn; lia|]. cbn [remaining fold_right fst snd]. specialize (IH seen r). unfold remaining in IH. rewrite mem_app. destruct (mem q seen); cbn [orb]; [lia|]. destruct (mem q [r]); lia.
Qed.
Lemma remaining_step : forall dicts seen r s, assoc r dicts = Some s -> mem r seen = false -> remaining dicts (seen ++ [r])%list + weight s <= remaining dicts seen.
Proof.
  induction dicts as [|[q s'] d IH]; intros seen r s A M; [discriminate|]. cbn [remaining fold_right fst snd]. cbn [assoc] in A. rewrite mem_app. destruct (String.eqb r q) eqn:E.
  - injection A as ->. apply String.eqb_eq in E. subst q. rewrite M. cbn [orb mem existsb]. rewrite String.eqb_refl. cbn [orb]. pose proof (remaining_le d seen r) as L. unfold remaining in L. lia.
  - specialize (IH seen r s A M). unfold remaining in IH. destruct (mem q seen); cbn [orb]; [lia|]. destruct (mem q [r]); lia.
Qed.
Definition next (dicts : list (string * spec)) (q d : string) : Prop := exists s, assoc q dicts = Some s /\ (In d (dependencies s) \/ In d (dependencies_original s)).
Lemma deep_spec : forall walk dicts targets roots, (forall l, Permutation (walk l) l) -> (forall q, In q targets -> assoc q dicts <> None) -> (forall q d, In q targets -> next dicts q d -> In d targets) ->
  forall fuel pending seen, length pending + remaining dicts seen < fuel -> (forall q, In q pending -> In q targets) -> NoDup seen ->
  (forall q, In q pending \/ In q seen -> exists r, In r roots /\ reaches dicts r q) -> (forall q, In q roots -> In q pending \/ In q seen) -> (forall q d, In q seen -> next dicts q d -> In d pending \/ In d seen) ->
  exists out, deep walk dicts fuel pending seen = Some out /\ NoDup out /\ forall q, In q out <-> exists r, In r roots /\ reaches dicts r q.
Proof.
  intros walk dicts targets roots W K CL. induction fuel as [|fuel IH]; intros pending seen F P N R1 R2 R3; [lia|]. cbn [deep]. pose proof (W pending) as PW. destruct (walk pending) as [|r rest] eqn:E.
  - exists seen. split; [reflexivity|]. split; [exact N|]. apply Permutation_nil in PW. subst pending. intros q. split; [intros I; apply R1; auto|]. intros (r & I & R). destruct (R2 r I) as [[]|I2]. clear I. induction R as [q|q s d t A D R IHR]; [exact I2|]. apply IHR. destruct (R3 q d I2) as [[]|H]; [exists s; auto|exact H].
  - assert (I0 : In r pending) by (apply (Permutation_in _ PW); left; reflexivity). assert (PI : forall q, In q pending <-> q = r \/ In q rest) by (intros q; split; intros I; [apply (Permutation_in _ (Permutation_sym PW)) in I; destruct I as [->|I]; auto|apply (Permutation_in _ PW); destruct I as [->|I]; [left; reflexivity|right; exact I]]).
    assert (PL : length pending = S (length rest)) by (rewrite <- (Permutation_length PW); reflexivity). destruct (mem r seen) eqn:M.
    + apply IH; [lia|intros q I; apply P, PI; auto|exact N|intros q [I|I]; apply R1; [left; apply PI|]; auto| |].
      * intros q I. destruct (R2 q I) as [J|J]; [apply PI in J; destruct J as [->|J]; [right; apply mem_In; exact M|auto]|auto].
      * intros q d I D. destruct (R3 q d I D) as [J|J]; [apply PI in J; destruct J as [->|J]; [right; apply mem_In; exact M|auto]|auto].
    + destruct (assoc r dicts) as [s|] eqn:A; [|destruct (K r (P r I0) A)]. pose proof (remaining_step dicts seen r s A M) as RS. pose proof (union_length (dependencies s) rest) as L1. pose proof (union_length (dependencies_original s) (union rest (dependencies s))) as L2. unfold weight in RS.
      assert (UI : forall q, In q (union (union rest (dependencies s)) (dependencies_original s)) <-> In q rest \/ next dicts r q). { intros q. rewrite !union_In. unfold next. split; [intros [[I|I]|I]; [auto|right; exists s; auto|right; exists s; auto]|intros [I|(s' & A' & I)]; [auto|]]. assert (s' = s) by congruence. subst s'. tauto. }
      apply IH.
      * lia.
      * intros q I. apply UI in I. destruct I as [I|I]; [apply P, PI; auto|exact (CL r q (P r I0) I)].
      * apply NoDup_app_intro; [exact N|apply NoDup_cons; [intros []|apply NoDup_nil]|]. intros x I [<-|[]]. apply mem_In in I. congruence.
      * intros q [I|I].
        -- apply UI in I. destruct I as [I|(s' & A' & I)]; [apply R1; left; apply PI; auto|]. destruct (R1 r (or_introl I0)) as (r0 & J & R). exists r0. split; [exact J|]. clear - R A' I. induction R as [q0|q0 s0 d t A0 D R IHR]; [apply (through dicts q0 s' q q A' I); apply itself|]. apply (through dicts q0 s0 d q A0 D). apply IHR. exact A'.
        -- apply in_app_iff in I. destruct I as [I|[<-|[]]]; apply R1; auto.
      * intros q I. destruct (R2 q I) as [J|J]; [apply PI in J; destruct J as [->|J]; [right; apply in_or_app; right; left; reflexivity|left; apply UI; auto]|right; apply in_or_app; auto].
      * intros q d I D. apply in_app_iff in I. destruct I as [I|[<-|[]]]; [|left; apply UI; auto]. destruct (R3 q d I D) as [J|J]; [apply PI in J; destruct J as [->|J]; [right; apply in_or_app; right; left; reflexivity|left; apply UI; auto]|right; apply in_or_app; auto].
Qed.
Lemma NoDup_filter' : forall A (f : A -> bool) l, NoDup l -> NoDup (filter f l).
Proof. intros A f l. induction 1 as [|x l N1 N2 IH]; [apply NoDup_nil|]. cbn [filter]. destruct (f x); [apply NoDup_cons; [|exact IH]|exact IH]. intros I. apply filter_In in I. destruct I. contradiction. Qed.
Lemma deep_result : forall walk dicts targets roots, (forall l, Permutation (walk l) l) -> (forall q, In q targets -> assoc q dicts <> None) -> (forall q d, In q targets -> next dicts q d -> In d targets) -> (forall q, In q roots -> In q targets) ->
  exists deps, deep_dependencies walk dicts roots = Some deps /\ NoDup deps /\ forall q, In q deps <-> ~ In q roots /\ exists r, In r roots /\ reaches dicts r q.
Proof.
  intros walk dicts targets roots W K CL RT. destruct (deep_spec walk dicts targets roots W K CL (deep_fuel dicts roots) (union [] roots) []) as (out & E & N & S).
  - unfold deep_fuel. rewrite remaining_start. pose proof (union_length roots []). cbn [length] in *. lia.
  - intros q I. apply union_In in I. destruct I as [[]|I]. exact (RT q I).
  - apply NoDup_nil.
  - intros q [I|[]]. apply union_In in I. destruct I as [[]|I]. exists q. split; [exact I|apply itself].
  - intros q I. left. apply union_In. auto.
  - intros q d [].
  - unfold deep_dependencies. rewrite E. eexists. split; [reflexivity|]. pose proof (W (filter (fun q => negb (mem q roots)) out)) as P. split.
    + apply (Permutation_NoDup (Permutation_sym P)). apply NoDup_filter'. exact N.
    + intros q. rewrite <- S. split; intros I.
      * apply (Permutation_in _ P) in I. apply filter_In in I. destruct I as (I1 & I2). apply negb_true_iff in I2. split; [|exact I1]. apply mem_false. exact I2.
      * apply (Permutation_in _ (Permutation_sym P)). apply filter_In. destruct I as (I1 & I2). split; [exact I2|]. apply negb_true_iff. apply mem_false. exact I1.
Qed.

(** ** trees *)
Fixpoint flat (n : node) : list (list string * project) :=
  match n with Leaf p => [([], p)] | Dir l => flat_map (fun kn => map (fun x => (fst kn :: fst x, snd x)) (flat (snd kn))) l end.
Definition under (k : string) (x : list string * project) : list string * project := (k :: fst x, snd x).
Lemma flat_dir : forall l, flat (Dir l) = flat_map (fun kn => map (under (fst kn)) (flat (snd kn))) l.
Proof. reflexivity. Qed.
Fixpoint node_rect' (P : node -> Prop) (L : forall p, P (Leaf p)) (D : forall l, Forall (fun kn => P (snd kn)) l -> P (Dir l)) (n : node) : P n :=
  match n with
  | Leaf p => L p
  | Dir l => D l ((fix go (l : list (string * node)) : Forall (fun kn => P (snd kn)) l := match l with [] => Forall_nil _ | kn :: l' => Forall_cons kn (node_rect' P L D (snd kn)) (go l') end) l)
  end.
Lemma set_key_split : forall B (l : list (string * B)) k x y, assoc k l = Some x -> exists l1 l2, l = (l1 ++ (k, x) :: l2)%list /\ set_key k y l = (l1 ++ (k, y) :: l2)%list.
Proof.
  intros B l k x y. induction l as [|[k' v] l IH]; cbn [assoc set_key]; [discriminate|]. destruct (String.eqb k k') eqn:E; intros A.
  - injection A as ->. apply String.eqb_eq in E. subst k'. exists [], l. auto.
  - destruct (IH A) as (l1 & l2 & E1 & E2). exists ((k', v) :: l1), l2. cbn [app]. rewrite E1 at 1. rewrite E2. auto.
Qed.
Lemma set_key_end : forall B (l : list (string * B)) k y, assoc k l = None -> set_key k y l = (l ++ [(k, y)])%list.
Proof.
  intros B l k y. induction l as [|[k' v] l IH]; cbn [assoc set_key]; [reflexivity|]. destruct (String.eqb k k'); [discriminate|]. intros A. rewrite (IH A). reflexivity.
Qed.
(** Neither path leads through the other. *)
Definition prefix_of (a b : list string) : Prop := exists more, b = (a ++ more)%list.
Definition clear_of (path : list string) (l : list (list string * project)) : Prop := forall x, In x l -> ~ prefix_of (fst x) path /\ ~ prefix_of path (fst x).
Lemma flat_app : forall a b, flat (Dir (a ++ b)%list) = (flat (Dir a) ++ flat (Dir b))%list.
Proof. intros a b. rewrite !flat_dir. apply flat_map_app. Qed.
Lemma flat_cons : forall k n l, flat (Dir ((k, n) :: l)) = (map (under k) (flat n) ++ flat (Dir l))%list.
Proof. reflexivity. Qed.
Lemma insert_flat : forall fs key p l, clear_of (fs ++ [key])%list (flat (Dir l)) -> exists l', insert_at fs key p l = Some l' /\ Permutation (flat (Dir l')) (((fs ++ [key])%list, p) :: flat (Dir l)).
Proof.
  induction fs as [|f fs IH]; intros key p l C; cbn [insert_at app].
  - eexists. split; [reflexivity|]. destruct (assoc key l) as [x|] eqn:A.
    + destruct (set_key_split _ l key x (Leaf p) A) as (l1 & l2 & E1 & E2). rewrite E2. subst l. rewrite !flat_app, !flat_cons in *. assert (X : flat x = []). { destruct (flat x) as [|y ys] eqn:F; [reflexivity|]. exfalso. destruct (C (under key y)) as (_ & C2); [apply in_or_app; right; apply in_or_app; left; left; reflexivity|]. apply C2. exists (fst y). reflexivity. }
      rewrite X. cbn [flat map app under fst snd]. symmetry. apply Permutation_middle.
    + rewrite (set_key_end _ l key (Leaf p) A), flat_app. cbn [flat flat_map map app under fst snd]. symmetry. apply Permutation_cons_append.
  - destruct (assoc f l) as [[q|d]|] eqn:A.
    + exfalso. apply assoc_In in A. destruct (C ([f], q)) as (C1 & _); [rewrite flat_dir; apply in_flat_map; exists (f, Leaf q); split; [exact A|left; reflexivity]|]. apply C1. exists (fs ++ [key])%list. reflexivity.
    + destruct (IH key p d) as (d' & E & P).
      * intros x I. destruct (C (under f x)) as (C1 & C2). { rewrite flat_dir. apply in_flat_map. exists (f, Dir d). split; [exact (assoc_In _ _ _ _ A)|]. apply in_map. exact I. } split; intros (more & M); [apply C1|apply C2]; exists more; cbn [under fst app]; rewrite M; reflexivity.
      * rewrite E. eexists. split; [reflexivity|]. destruct (set_key_split _ l f (Dir d) (Dir d') A) as (l1 & l2 & E1 & E2). rewrite E2. subst l. rewrite !flat_app, !flat_cons. apply (Permutation_map (under f)) in P. cbn [map under fst snd] in P. rewrite P. cbn [app]. symmetry. apply Permutation_middle.
    + destruct (IH key p []) as (d' & E & P); [intros x []|]. rewrite E. eexists. split; [reflexivity|]. rewrite (set_key_end _ l f (Dir d') A), flat_app, flat_cons. cbn [flat flat_map]. rewrite app_nil_r. change (flat (Dir [])) with (@nil (list string * project)) in P. apply (Permutation_map (under f)) in P. cbn [map under fst snd] in P. rewrite P. symmetry. apply Permutation_cons_append.
Qed.
(** ** what is done with a tree keeps its projects *)
Definition leaves (n : node) : list project := map snd (flat n).
Lemma leaves_dir : forall l, leaves (Dir l) = flat_map (fun kn => leaves (snd kn)) l.
Proof. intros l. unfold leaves. rewrite flat_dir. induction l as [|[k n] l IH]; [reflexivity|]. cbn [flat_map fst snd]. rewrite map_app, IH. f_equal. rewrite map_map. apply map_ext. reflexivity. Qed.
Lemma strip_one : forall k d, strip_top (Dir [(k, Dir d)]) = strip_top (Dir d).
Proof. reflexivity. Qed.
Lemma strip_dir : forall n, (exists l, n = Dir l) -> exists l, strip_top n = Dir l.
Proof.
  induction n as [p|l F] using node_rect'; intros (l0 & E); [discriminate|]. destruct l as [|[k [q|d]] [|? ?]]; try (eexists; reflexivity). rewrite strip_one. inversion F as [|? ? F1 _]; subst. cbn [snd] in F1. apply F1. eexists. reflexivity.
Qed.
Lemma strip_leaves : forall n, leaves (strip_top n) = leaves n.
Proof.
  induction n as [p|l F] using node_rect'; [reflexivity|]. destruct l as [|[k [q|d]] [|? ?]]; try reflexivity. rewrite strip_one. inversion F as [|? ? F1 _]; subst. cbn [snd] in F1. rewrite F1. rewrite (leaves_dir [(k, Dir d)]). cbn [flat_map snd]. rewrite app_nil_r. reflexivity.
Qed.
Lemma collapse_leaves : forall n parent, leaves (collapse parent n) = leaves n.
Proof.
  induction n as [p|l F] using node_rect'; intros parent; [reflexivity|]. assert (M : leaves (Dir (map (fun kn => (fst kn, collapse (fst kn) (snd kn))) l)) = leaves (Dir l)).
  { rewrite !leaves_dir. induction F as [|[k n] l F1 _ IH]; [reflexivity|]. cbn [map flat_map fst snd]. rewrite IH. f_equal. apply F1. }
  cbn [collapse]. destruct l as [|[k x] [|? ?]]; [exact M| |exact M]. destruct (String.eqb k _); [|exact M]. rewrite leaves_dir. cbn [flat_map snd]. symmetry. apply app_nil_r.
Qed.
Definition lasts (n : node) : Prop := forall x, In x (flat n) -> fst x <> [".vcproj"].
Lemma strip_lasts : forall n, (forall x, In x (flat n) -> last (fst x) "" <> ".vcproj") -> forall x, In x (flat (strip_top n)) -> last (fst x) "" <> ".vcproj".
Proof.
  induction n as [p|l F] using node_rect'; intros H x I; [exact (H x I)|]. destruct l as [|[k [q|d]] [|? ?]]; try exact (H x I). rewrite strip_one in I. inversion F as [|? ? F1 _]; subst. cbn [snd] in F1. apply F1; [|exact I]. intros y J. specialize (H (under k y)). rewrite flat_cons in H. specialize (H (in_or_app _ _ _ (or_introl (in_map _ _ _ J)))). cbn [under fst] in H. destruct (fst y) as [|a b] eqn:E; [|exact H]. cbn. discriminate.
Qed.
Lemma collapse_dir : forall l, (forall x, In x (flat (Dir l)) -> last (fst x) "" <> ".vcproj") -> exists l', collapse "" (Dir l) = Dir l'.
Proof.
  intros l H. cbn [collapse]. destruct l as [|[k [q|d]] [|? ?]]; try (eexists; reflexivity).
  - destruct (String.eqb k _) eqn:E; [|eexists; reflexivity]. exfalso. apply String.eqb_eq in E. cbn [append] in E. subst k. apply (H ([".vcproj"], q)); [left; reflexivity|reflexivity].
  - destruct (String.eqb k _); eexists; reflexivity.
Qed.

(** ** entries *)
Fixpoint entry_rect' (P : entry -> Prop) (A : forall p, P (Project p)) (F : forall a b l, Forall P l -> P (Folder a b l)) (e : entry) : P e :=
  match e with
  | Project p => A p
  | Folder a b l => F a b l ((fix go (l : list entry) : Forall P l := match l with [] => Forall_nil _ | x :: l' => Forall_cons x (entry_rect' P A F x) (go l') end) l)
  end.
Definition held (l : list entry) : list project := flat_map project_of (flat_map all_entries l).
Lemma held_app : forall a b, held (a ++ b)%list = (held a ++ held b)%list.
Proof. intros a b. unfold held. rewrite !flat_map_app. reflexivity. Qed.
Lemma held_cons : forall e l, held (e :: l) = (flat_map project_of (all_entries e) ++ held l)%list.
Proof. intros e l. change (e :: l) with (app [e] l). rewrite held_app. unfold held at 1. cbn [flat_map]. rewrite app_nil_r. reflexivity. Qed.
Lemma held_perm : forall a b, Permutation a b -> Permutation (held a) (held b).
Proof. intros a b P. unfold held. apply Permutation_flat_map. apply Permutation_flat_map. exact P. Qed.
Lemma insert_entry_perm : forall e l, Permutation (insert_entry e l) (e :: l).
Proof. intros e l. induction l as [|x l IH]; [reflexivity|]. cbn [insert_entry]. destruct (String.leb _ _); [reflexivity|]. rewrite IH. apply perm_swap. Qed.
Lemma sort_entries_perm : forall l, Permutation (sort_entries l) l.
Proof. induction l as [|x l IH]; [reflexivity|]. cbn [sort_entries fold_right]. rewrite insert_entry_perm. apply perm_skip. exact IH. Qed.
Lemma to_entries_held : forall n flat_s base folder, Permutation (held (to_entries flat_s base folder n)) (leaves n).
Proof.
  induction n as [p|l F] using node_rect'; intros fl base folder; [reflexivity|]. cbn [to_entries]. set (here := Model_Vcxproj.nt_join base folder). assert (M : Permutation (held (flat_map (fun kn => to_entries fl here (fst kn) (snd kn)) l)) (leaves (Dir l))).
  { rewrite leaves_dir. clear -F. induction F as [|[k n] l F1 _ IH]; [reflexivity|]. cbn [flat_map fst snd]. rewrite held_app. apply Permutation_app; [apply F1|exact IH]. }
  destruct fl; [exact M|]. rewrite held_cons. cbn [held flat_map]. rewrite app_nil_r. cbn [all_entries flat_map project_of app]. change (Permutation (held (sort_entries (flat_map (fun kn => to_entries false here (fst kn) (snd kn)) l))) (leaves (Dir l))). rewrite (held_perm _ _ (sort_entries_perm _)). exact M.
Qed.
Lemma folders_held : forall fl l, Permutation (held (dicts_to_folders fl l)) (leaves (Dir l)).
Proof.
  intros fl l. unfold dicts_to_folders. rewrite leaves_dir. induction l as [|[k n] l IH]; [reflexivity|]. cbn [flat_map fst snd]. rewrite held_app. apply Permutation_app; [apply to_entries_held|exact IH].
Qed.
