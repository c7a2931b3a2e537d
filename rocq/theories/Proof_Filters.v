(** Proofs about the folders in which Visual Studio shows files. *)
From Coq Require Import Permutation.
From Verif Require Import Lib LibFacts Str StrFacts Model_Path Proof_Path Model_Vcxproj Spec_Vcxproj Proof_Vcxproj Proof_Vcxproj2 Proof_Vcxproj3 Proof_Vcxproj5 Model_Filters Spec_Filters.
Local Open Scope string_scope.

(** ** trees *)
Section Tree_ind.
  Variable P : tree -> Prop.
  Hypothesis HF : forall f, P (File f).
  Hypothesis HD : forall n c, Forall P c -> P (Filter n c).
  Fixpoint tree_ind2 (t : tree) : P t :=
    match t with
    | File f => HF f
    | Filter n c => HD n c ((fix go (l : list tree) : Forall P l := match l with [] => Forall_nil P | x :: l' => Forall_cons x (tree_ind2 x) (go l') end) c)
    end.
End Tree_ind.
Definition under (n : string) (x : list string * string) : list string * string := (n :: fst x, snd x).
Fixpoint places (t : tree) : list (list string * string) := match t with File f => [([], f)] | Filter n c => map (under n) (flat_map places c) end.
Fixpoint dirs_of (t : tree) : list (list string) := match t with File _ => [] | Filter n c => [n] :: map (cons n) (flat_map dirs_of c) end.
Fixpoint full (t : tree) : bool := match t with File _ => true | Filter _ c => match c with [] => false | _ => true end && forallb full c end.

Lemma full_place : forall t, full t = true -> exists x, In x (places t).
Proof.
  induction t as [f|n c IH] using tree_ind2; intros F; [exists ([], f); left; reflexivity|]. cbn [full] in F. destruct c as [|t c]; [discriminate|]. cbn [forallb andb] in F. apply andb_true_iff in F. destruct F as (F & _).
  inversion IH as [|? ? I1 I2]; subst. destruct (I1 F) as (x & X). exists (under n x). cbn [places]. apply in_map. cbn [flat_map]. apply in_or_app. left. exact X.
Qed.
Lemma dirs_iff : forall t, full t = true -> forall d, In d (dirs_of t) <-> exists x d', In x (places t) /\ fst x = (d ++ d')%list /\ d <> [].
Proof.
  induction t as [f|n c IH] using tree_ind2; intros F d.
  - split; [intros []|]. intros (x & d' & [<-|[]] & E & N). cbn in E. destruct d; [destruct (N eq_refl)|discriminate].
  - assert (FC : forall t, In t c -> full t = true) by (cbn [full] in F; apply andb_true_iff in F; destruct F as (_ & F); intros t I; rewrite forallb_forall in F; apply F; exact I).
    assert (NE : c <> []) by (intros ->; discriminate F). cbn [dirs_of places]. split.
    + intros [<-|I].
      * destruct c as [|t c]; [destruct (NE eq_refl)|]. destruct (full_place t (FC t (or_introl eq_refl))) as (x & X). exists (under n x), (fst x). split; [apply in_map; cbn [flat_map]; apply in_or_app; left; exact X|]. split; [reflexivity|discriminate].
      * apply in_map_iff in I. destruct I as (d0 & <- & I). apply (proj1 (in_flat_map _ _ _)) in I. destruct I as (t & T & I). rewrite Forall_forall in IH. apply (IH t T (FC t T)) in I. destruct I as (x & d' & X & E & N).
        exists (under n x), d'. split; [apply in_map; apply in_flat_map; exists t; auto|]. split; [cbn; rewrite E; reflexivity|discriminate].
    + intros (x & d' & I & E & N). apply in_map_iff in I. destruct I as (x0 & <- & I). cbn [under fst] in E. destruct d as [|m d]; [destruct (N eq_refl)|]. cbn in E. injection E as <- E.
      destruct d as [|k d]; [left; reflexivity|right]. apply in_map. apply (proj1 (in_flat_map _ _ _)) in I. destruct I as (t & T & I). apply in_flat_map. exists t. split; [exact T|]. rewrite Forall_forall in IH. apply (IH t T (FC t T)). exists x0, d'. split; [exact I|]. split; [exact E|discriminate].
Qed.

(** ** what is appended *)
Lemma from_root_nil : forall d, shown_as d = "" <-> from_root d = [].
Proof.
  intros d. unfold shown_as. split; [|intros ->; reflexivity]. induction d as [|x d IH]; [reflexivity|]. cbn [from_root]. destruct x as [|a x]; [exact IH|]. intros E. destruct d; discriminate E.
Qed.
Lemma from_root_snoc : forall d n, from_root (d ++ [n]) = match from_root d with [] => from_root [n] | l => (l ++ [n])%list end.
Proof. induction d as [|x d IH]; intros n; [reflexivity|]. cbn [app from_root]. destruct x; [apply IH|reflexivity]. Qed.
Lemma concat_snoc : forall l n, l <> [] -> String.concat "\" (l ++ [n]) = String.concat "\" l ++ String "\" n.
Proof.
  intros l n N. change (String.concat "\" (l ++ [n])) with (join_bs (l ++ [n])). rewrite join_snoc. destruct l; [destruct (N eq_refl)|reflexivity].
Qed.
Lemma shown_snoc : forall d n, shown_as (d ++ [n]) = if String.eqb (shown_as d) "" then n else shown_as d ++ String "\" n.
Proof.
  intros d n. destruct (String.eqb_spec (shown_as d) "") as [E|E].
  - apply from_root_nil in E. unfold shown_as. rewrite from_root_snoc, E. destruct n; reflexivity.
  - unfold shown_as at 1. rewrite from_root_snoc. destruct (from_root d) as [|x l] eqn:R; [exfalso; apply E; apply from_root_nil; exact R|]. rewrite concat_snoc by discriminate. unfold shown_as. rewrite R. reflexivity.
Qed.
Section Appended.
  Variable guid : string -> string.
  Variable p : project.
  Definition as_folder (d : list string) : folder := {| folder_path := shown_as d; identifier := guid (last d "") |}.
  Definition as_entry (x : list string * string) : entry := {| tag := snd (source_type p (snd x)); file := snd x; folder_of := shown_as (fst x) |}.
  Lemma last_cons : forall n (d : list string), d <> [] -> last (n :: d) "" = last d "".
  Proof. intros n [|x d] N; [destruct (N eq_refl)|reflexivity]. Qed.
  Lemma dirs_some : forall t d, In d (dirs_of t) -> d <> [].
  Proof. intros [f|n c] d; [intros []|]. intros [<-|I]; [discriminate|]. apply in_map_iff in I. destruct I as (? & <- & _). discriminate. Qed.
  Lemma appended : forall t pp, append_filters guid p (shown_as pp) t =
    (map (fun d => {| folder_path := shown_as (pp ++ d); identifier := guid (last d "") |}) (dirs_of t),
     map (fun x => as_entry (pp ++ fst x, snd x)%list) (places t)).
  Proof.
    induction t as [f|n c IH] using tree_ind2; intros pp; [cbn; unfold as_entry; cbn [fst snd]; rewrite app_nil_r; reflexivity|].
    cbn [append_filters dirs_of places map last]. rewrite <- shown_snoc. f_equal.
    - f_equal. rewrite map_map. induction IH as [|t c H F IHc]; [reflexivity|]. cbn [map flat_map]. rewrite map_app, IHc. f_equal. rewrite H. cbn [fst].
      apply map_ext_in. intros d D. rewrite <- app_assoc. cbn [app]. rewrite (last_cons n d (dirs_some t d D)). reflexivity.
    - rewrite map_map. induction IH as [|t c H F IHc]; [reflexivity|]. cbn [map flat_map]. rewrite map_app, IHc. f_equal. rewrite H. cbn [snd].
      apply map_ext. intros x. cbn [under fst snd]. rewrite <- app_assoc. reflexivity.
  Qed.
  Lemma all_appended : forall l, flat_map fst (map (append_filters guid p "") l) = map as_folder (flat_map dirs_of l) /\ flat_map snd (map (append_filters guid p "") l) = map as_entry (flat_map places l).
  Proof.
    intros l. change "" with (shown_as []). induction l as [|t l (IH1 & IH2)]; [split; reflexivity|]. cbn [map flat_map]. rewrite appended, !map_app, IH1, IH2. cbn [fst snd]. split; f_equal.
  Qed.
End Appended.

(** ** the hierarchy *)
Definition push (common : list string) (x : list string * string) : list string * string := (common ++ fst x, snd x)%list.
Lemma prune_places : forall fuel l t, prune fuel l = inl t -> forallb full l = true -> one_folder t = false /\ forallb full t = true /\
  exists common, flat_map places l = map (push common) (flat_map places t).
Proof.
  induction fuel as [|fuel IH]; intros l t; cbn [prune]; destruct (one_folder l) eqn:O; try discriminate;
    try (intros H F; injection H as <-; split; [exact O|]; split; [exact F|]; exists []; rewrite <- (map_id (flat_map places l)) at 1; apply map_ext; intros [d f]; reflexivity).
  destruct (forallb _ l) eqn:S; [|discriminate]. intros H F.
  set (inside := flat_map (fun t => match t with Filter _ c => c | File _ => [] end) l) in *.
  assert (FI : forallb full inside = true).
  { unfold inside. clear -F. induction l as [|x l IH]; [reflexivity|]. cbn [forallb flat_map] in *. apply andb_true_iff in F. destruct F as (F1 & F2). rewrite forallb_app, (IH F2), andb_true_r. destruct x as [f|n c]; [reflexivity|]. cbn [full] in F1. apply andb_true_iff in F1. apply F1. }
  destruct (IH _ _ H FI) as (O' & F' & common & E). split; [exact O'|]. split; [exact F'|].
  destruct l as [|[f|n c] l]; try discriminate O. exists (n :: common).
  assert (A : flat_map places (Filter n c :: l) = map (under n) (flat_map places inside)).
  { assert (N : forall t, In t (Filter n c :: l) -> exists c', t = Filter n c').
    { intros t0 I. destruct (one_folder_all _ t0 O I) as (n' & c' & HD & c'' & ->). cbn in HD. injection HD as <- <-. eauto. }
    unfold inside. clear -N. generalize (Filter n c :: l), N. clear. intros l N. induction l as [|t l IH]; [reflexivity|]. cbn [flat_map]. rewrite flat_map_app, map_app, IH by (intros t0 I; apply N; right; exact I).
    destruct (N t (or_introl eq_refl)) as (c' & ->). reflexivity. }
  rewrite A, E, map_map. apply map_ext. intros [d f]. reflexivity.
Qed.
Definition place (e : list string) (c : list string) : list string * string :=
  let f := normalized_source (join_bs c) in (removelast c ++ (if mem f e then ["_excluded_files"] else []), f)%list.
Lemma below_places : forall e comps pre, comps <> [] ->
  flat_map places (convert_below e true pre comps) = [let f := normalized_source (join_bs (pre ++ comps)) in (removelast comps ++ (if mem f e then ["_excluded_files"] else []), f)%list].
Proof.
  intros e. induction comps as [|x comps IH]; intros pre N; [destruct (N eq_refl)|]. cbn [convert_below]. destruct comps as [|y comps].
  - cbv zeta. destruct (mem _ e); reflexivity.
  - cbn [flat_map places]. rewrite app_nil_r. fold (flat_map places (convert_below e true (pre ++ [x]) (y :: comps))). rewrite IH by discriminate. cbv zeta. cbn [map]. unfold under. cbn [fst snd]. rewrite <- app_assoc. reflexivity.
Qed.
Lemma excluded_places : forall m, flat_map places [Filter "_excluded_files" (map File m)] = map (fun f => (["_excluded_files"], f)) m.
Proof. intros m. cbn [flat_map places]. rewrite app_nil_r. induction m as [|f m IH]; [reflexivity|]. cbn [map flat_map places app] in *. rewrite IH. reflexivity. Qed.
Lemma convert_places : forall e l, (forall c, In c l -> c <> []) -> Permutation (flat_map places (convert e true l)) (map (place e) l).
Proof.
  intros e l N. unfold convert. rewrite flat_map_app.
  assert (T : flat_map places (match flat_map (top_excluded e) l with [] => [] | _ => [Filter "_excluded_files" (map File (flat_map (top_excluded e) l))] end) = map (fun f => (["_excluded_files"], f)) (flat_map (top_excluded e) l)).
  { destruct (flat_map (top_excluded e) l) as [|x m]; [reflexivity|apply excluded_places]. }
  rewrite T. clear T. induction l as [|c l IH]; [reflexivity|]. cbn [flat_map map]. rewrite flat_map_app, map_app.
  specialize (IH (fun d I => N d (or_intror I))). specialize (N c (or_introl eq_refl)).
  assert (C : (flat_map places (convert_top e true c) ++ map (fun f => (["_excluded_files"], f)) (top_excluded e c))%list = [place e c]).
  { destruct c as [|x c]; [destruct (N eq_refl)|]. destruct c as [|y c].
    - unfold convert_top, top_excluded, place. change (join_bs [x]) with x. cbv zeta. destruct (mem (normalized_source x) e); reflexivity.
    - unfold convert_top, top_excluded. rewrite below_places by discriminate. reflexivity. }
  change (place e c :: map (place e) l) with ([place e c] ++ map (place e) l)%list. rewrite <- C, <- IH, <- !app_assoc. apply Permutation_app_head. rewrite !app_assoc. apply Permutation_app_tail. apply Permutation_app_comm.
Qed.
Lemma chainy_full : forall t, chainy t -> full t = true.
Proof. induction 1 as [f|n c C IH]; [reflexivity|]. cbn [full forallb]. rewrite IH. reflexivity. Qed.
Lemma convert_full : forall e l, forallb full (convert e true l) = true.
Proof.
  intros e l. apply forallb_forall. intros t I. unfold convert in I. apply in_app_or in I. destruct I as [I|I].
  - apply (proj1 (in_flat_map _ _ _)) in I. destruct I as (c & _ & I). apply chainy_full. destruct c as [|x [|y c]]; [destruct I| |].
    + unfold convert_top in I. destruct (mem _ e); [destruct I|]. destruct I as [<-|[]]. constructor.
    + apply (below_chainy e (x :: y :: c) []). exact I.
  - destruct (flat_map (top_excluded e) l) as [|x m]; [destruct I|]. destruct I as [<-|[]]. cbn [full map forallb andb]. apply forallb_forall. intros t I. apply in_map_iff in I. destruct I as (f & <- & _). reflexivity.
Qed.
Lemma no_common : forall t, one_folder t = false -> forallb full t = true -> forall n, flat_map places t <> [] -> ~ (forall x, In x (flat_map places t) -> exists d, fst x = n :: d).
Proof.
  intros t O F n NE A. rewrite forallb_forall in F.
  assert (N : forall u, In u t -> exists c, u = Filter n c).
  { intros u U. destruct (full_place u (F u U)) as (x & X). destruct (A x) as (d & D); [apply in_flat_map; exists u; auto|]. destruct u as [f|m c].
    - destruct X as [<-|[]]. discriminate D.
    - cbn [places] in X. apply in_map_iff in X. destruct X as (x0 & <- & _). cbn in D. injection D as -> _. eauto. }
  destruct t as [|u t]; [destruct (NE eq_refl)|]. destruct (N u (or_introl eq_refl)) as (c & ->). cbn [one_folder] in O.
  assert (Z : forallb (fun t => match folder_name t with Some m => String.eqb m n | None => false end) t = true); [|congruence].
  apply forallb_forall. intros v V. destruct (N v (or_intror V)) as (c' & ->). cbn. apply String.eqb_refl.
Qed.

(** ** all of it *)
Lemma tree_of : forall p, hierarchy_tree p (adjust_rules p (prepare p)) =
  match prune (deepest (convert (fully p) (list_excluded p) (map (split_char "\") (map (fix_path (prefix p)) (s2 p))))) (convert (fully p) (list_excluded p) (map (split_char "\") (map (fix_path (prefix p)) (s2 p)))) with
  | inl t => inl (t, map (fix_path (prefix p)) (e2 p)) | inr err => inr err end.
Proof.
  intros p. unfold hierarchy_tree. destruct (adjust_rules p (prepare p)) as [s e] eqn:A. assert (E2 : update e (update [] (sources_excluded p)) = e2 p) by (unfold e2; rewrite A; reflexivity). assert (S2 : update s (e2 p) = s2 p) by (unfold s2; rewrite A; reflexivity).
  rewrite E2, S2. fold (fully p). reflexivity.
Qed.
Lemma fully_iff : forall p f, rules p = [] -> (mem f (fully p) = true <-> set_aside p f).
Proof.
  intros p f R. rewrite mem_In. unfold fully, set_aside. rewrite filter_In, negb_true_iff.
  assert (X : forall l, mem f l = false <-> ~ In f l) by (intros l; rewrite <- mem_In; destruct (mem f l); split; congruence). rewrite X. clear X.
  assert (F : Forall (fun r => rule_as_sources r = false) (rules p)) by (rewrite R; constructor). split.
  - intros (I & J). apply in_map_iff in I. destruct I as (y & <- & I). split; [exists y; split; [reflexivity|apply e2_In; assumption]|].
    intros (c & h & C & H & NE & E). apply J. apply in_flat_map. exists c. split; [exact C|]. apply in_map_iff. exists h. split; [symmetry; exact E|]. apply filter_In. split; [exact H|]. apply negb_true_iff, String.eqb_neq. exact NE.
  - intros ((y & -> & I) & J). split; [apply in_map; apply e2_all; assumption|]. intros K. apply J. apply (proj1 (in_flat_map _ _ _)) in K. destruct K as (c & C & K). apply in_map_iff in K. destruct K as (h & E & K). apply filter_In in K. destruct K as (K1 & K2).
    exists c, h. apply negb_true_iff, String.eqb_neq in K2. auto.
Qed.
Lemma removelast_snoc : forall (l : list string), l <> [] -> l = (removelast l ++ [last l ""])%list.
Proof. intros l N. apply app_removelast_last. exact N. Qed.
Lemma folders : forall guid p out, rules p = [] -> list_excluded p = true -> generate_filters guid p = inl out ->
  exists common ys shown, NoDup ys /\ (forall y, In y ys <-> belongs p y) /\
    Forall2 (fun y x => lies p y (common ++ fst x) (snd x)) ys shown /\
    (forall n, shown <> [] -> ~ (forall x, In x shown -> exists d, fst x = n :: d)) /\
    match out with
    | None => forall x, In x shown -> fst x = []
    | Some (fs, es) =>
      map file es = map snd shown /\ map folder_of es = map (fun x => shown_as (fst x)) shown /\
      (exists x, In x shown /\ fst x <> []) /\
      (forall n i, In {| folder_path := n; identifier := i |} fs <-> exists x d d', In x shown /\ fst x = (d ++ d')%list /\ d <> [] /\ n = shown_as d /\ i = guid (last d ""))
    end.
Proof.
  intros guid p out R L G. unfold generate_filters in G. rewrite tree_of, L in G. set (cs := map (split_char "\") (map (fix_path (prefix p)) (s2 p))) in *.
  destruct (prune _ _) as [t|] eqn:P; [|discriminate]. injection G as <-. destruct (prune_places _ _ _ P (convert_full _ _)) as (O & F & common & E).
  assert (PM := convert_places (fully p) cs). rewrite E in PM. unfold cs in PM. rewrite !map_map in PM.
  assert (NE : forall c, In c (map (fun x => split_char "\" (fix_path (prefix p) x)) (s2 p)) -> c <> []) by (intros c I; apply in_map_iff in I; destruct I as (y & <- & _); apply split_char_nonempty).
  specialize (PM NE). apply Permutation_map_inv in PM. destruct PM as (ys & EQ & PY). destruct (s2_sets p) as (ND & SI); [rewrite R; constructor|].
  exists common, ys, (flat_map places t). split; [exact (Permutation_NoDup PY ND)|]. split.
  { intros y. unfold belongs. split.
    - intros I. apply (Permutation_in _ (Permutation_sym PY)) in I. apply SI in I. exact I.
    - intros I. apply (Permutation_in _ PY). apply SI. exact I. }
  split.
  { clear -EQ R. revert EQ. generalize (flat_map places t). intros sh. revert ys. induction sh as [|x sh IH]; intros ys EQ; (destruct ys as [|y ys]; [|]); try discriminate; constructor.
    - cbn [map] in EQ. injection EQ as H1 H2 _. unfold lies. rewrite join_split in H1, H2. split; [exact H2|]. exists (removelast (split_char "\" (fix_path (prefix p) y))), (last (split_char "\" (fix_path (prefix p) y)) "").
      split; [apply removelast_snoc, split_char_nonempty|]. rewrite H1, H2. destruct (mem _ (fully p)) eqn:M.
      + left. split; [apply fully_iff; assumption|reflexivity].
      + right. split; [|apply app_nil_r]. intros S. apply fully_iff in S; [congruence|exact R].
    - apply IH. cbn [map] in EQ. injection EQ as _ _ EQ. exact EQ. }
  split; [exact (no_common t O F)|]. unfold filters_file. destruct (all_appended guid p t) as (A1 & A2). rewrite A1, A2.
  assert (D : forall d, In d (flat_map dirs_of t) <-> exists x d', In x (flat_map places t) /\ fst x = (d ++ d')%list /\ d <> []).
  { intros d. rewrite forallb_forall in F. split.
    - intros I. apply (proj1 (in_flat_map _ _ _)) in I. destruct I as (u & U & I). apply (dirs_iff u (F u U)) in I. destruct I as (x & d' & X & Q). exists x, d'. split; [apply in_flat_map; exists u; auto|exact Q].
    - intros (x & d' & I & Q). apply (proj1 (in_flat_map _ _ _)) in I. destruct I as (u & U & I). apply in_flat_map. exists u. split; [exact U|]. apply (dirs_iff u (F u U)). exists x, d'. auto. }
  destruct (map (as_folder guid) (flat_map dirs_of t)) as [|f0 fs] eqn:M.
  - apply map_eq_nil in M. intros x I. destruct (fst x) as [|n d] eqn:X; [reflexivity|]. exfalso. assert (K : In (n :: d) (flat_map dirs_of t)) by (apply D; exists x, []; rewrite app_nil_r; repeat split; [exact I|exact X|discriminate]). rewrite M in K. destruct K.
  - rewrite <- M. split; [rewrite map_map; apply map_ext; reflexivity|]. split; [rewrite map_map; apply map_ext; reflexivity|]. split.
    + destruct (flat_map dirs_of t) as [|d l] eqn:FD; [discriminate M|]. destruct (proj1 (D d) (or_introl eq_refl)) as (x & d' & I & Q & N). exists x. split; [exact I|]. rewrite Q. destruct d; [destruct (N eq_refl)|discriminate].
    + intros n i. rewrite in_map_iff. split.
      * intros (d & Q & I). apply D in I. destruct I as (x & d' & I & X & N). unfold as_folder in Q. injection Q as <- <-. exists x, d, d'. auto.
      * intros (x & d & d' & I & X & N & -> & ->). exists d. split; [reflexivity|]. apply D. eauto.
Qed.
(** The items of the project are in the file. *)
Lemma leaves_places : forall t, leaves t = map snd (places t).
Proof.
  induction t as [f|n c IH] using tree_ind2; [reflexivity|]. cbn [leaves places]. rewrite map_map. cbn [under snd]. induction IH as [|t c H F IHc]; [reflexivity|]. cbn [flat_map]. rewrite map_app, H, IHc. f_equal.
Qed.
Lemma all_leaves : forall l, flat_map leaves l = map snd (flat_map places l).
Proof. induction l as [|t l IH]; [reflexivity|]. cbn [flat_map]. rewrite map_app, leaves_places, IH. reflexivity. Qed.
Lemma items_shown : forall guid cm p items customs fs es, generate cm p = inl (items, customs) -> generate_filters guid p = inl (Some (fs, es)) ->
  forall i, In i items -> exists e, In e es /\ file e = include i /\ tag e = element i.
Proof.
  intros guid cm p items customs fs es G H i I. unfold generate_filters in H. unfold generate in G.
  assert (HT : hierarchy p (adjust_rules p (prepare p)) = match hierarchy_tree p (adjust_rules p (prepare p)) with inl (t, e) => inl (flat_map leaves t, e) | inr err => inr err end).
  { unfold hierarchy, hierarchy_tree. destruct (adjust_rules p (prepare p)) as [s e]. destruct (prune _ _); reflexivity. }
  rewrite HT in G. clear HT. destruct (hierarchy_tree p (adjust_rules p (prepare p))) as [[t e]|]; [|discriminate]. unfold filters_file in H. destruct (all_appended guid p t) as (A1 & A2). rewrite A1, A2 in H.
  destruct (map (as_folder guid) (flat_map dirs_of t)) as [|f0 fs0]; [discriminate|]. injection H as _ <-.
  destruct (items_of p _ _) as [gi|] eqn:IO; [|discriminate]. injection G as <- _. apply (Permutation_in _ (groups_perm gi)) in I. apply in_map_iff in I. destruct I as ([g x] & <- & I). cbn [snd].
  apply items_Forall2 in IO. assert (K : exists f, In f (flat_map leaves t) /\ item_of p (filter (fun s => negb (mem s (map (fix_path (prefix p)) (map fst (attached p))))) e) f = inl (g, x)).
  { revert IO I. generalize (flat_map leaves t). intros lv IO I.
    set (ks := fun s => negb (mem s (map attached_to (map (custom_of cm p) (attached p))))) in IO.
    assert (IN : forall f, In f (filter ks lv) -> In f lv) by (intros f Q; apply filter_In in Q; apply Q). revert IN.
    induction IO as [|f y l l' Q IO IH]; intros IN; [destruct I|]. destruct I as [->|I]; [exists f; split; [apply IN; left; reflexivity|exact Q]|]. apply IH; [exact I|]. intros f' J. apply IN. right. exact J. }
  destruct K as (f & FI & IT). rewrite all_leaves in FI. apply in_map_iff in FI. destruct FI as (y & YF & FI). exists (as_entry p y). split; [apply in_map; exact FI|]. unfold as_entry. cbn [file tag]. rewrite YF.
  unfold item_of in IT. destruct (source_type p f) as [g' el]. destruct (Nat.eqb _ _); [injection IT as _ <-; split; reflexivity|]. destruct (excluded_in _ _ _); [injection IT as _ <-; split; reflexivity|discriminate].
Qed.
