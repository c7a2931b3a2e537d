From Verif Require Import Lib LibFacts Str StrFacts Model_Graph Model_Names Model_Path Model_TargetDeps Spec_Names Spec_TargetDeps.
From Verif Require Import Proof_Graph Proof_Names Proof_TargetDeps Proof_TargetDeps2.
From Coq Require Import Lia.
Local Open Scope string_scope.

Lemma filter_twice : forall A (p q : A -> bool) l, filter p (filter q l) = filter (fun x => q x && p x) l.
Proof. intros A p q. induction l as [|a l IH]; [reflexivity|]. cbn [filter]. destruct (q a); cbn [filter andb]; [destruct (p a); rewrite IH; reflexivity|exact IH]. Qed.
Lemma filter_all : forall A (p : A -> bool) l, (forall x, In x l -> p x = true) -> filter p l = l.
Proof. intros A p. induction l as [|a l IH]; intros H; [reflexivity|]. cbn [filter]. rewrite (H a (or_introl eq_refl)). f_equal. apply IH. intros x X. apply H. right. exact X. Qed.
Lemma filter_app' : forall A (p : A -> bool) a b, filter p (a ++ b) = (filter p a ++ filter p b)%list.
Proof. intros A p a b. induction a as [|x a IH]; [reflexivity|]. cbn [app filter]. rewrite IH. destruct (p x); reflexivity. Qed.
Lemma expand_map_bad : forall data target ds e, expand_map data target ds = inr e -> exists d, In d ds /\ is_wildcard d = true /\ (build_file d = build_file target \/ ~ In (build_file d) (map fst data)).
Proof.
  intros data target. induction ds as [|d ds IH]; intros e H; cbn [expand_map] in H; [discriminate H|]. destruct (is_wildcard d) eqn:W; cbn [negb] in H.
  - destruct (String.eqb_spec (build_file d) (build_file target)) as [E|E]; [exists d; split; [left; reflexivity|split; [exact W|left; exact E]]|]. destruct (assoc (build_file d) data) as [tis|] eqn:A.
    + destruct (expand_map data target ds) as [r|e']; [discriminate H|]. destruct (IH _ eq_refl) as (x & X & Y). exists x. split; [right; exact X|exact Y].
    + exists d. split; [left; reflexivity|]. split; [exact W|]. right. intros I. destruct (assoc_Some_key _ _ _ I) as [b B]. congruence.
  - destruct (expand_map data target ds) as [r|e']; [discriminate H|]. destruct (IH _ eq_refl) as (x & X & Y). exists x. split; [right; exact X|exact Y].
Qed.
Lemma texts_in : forall w l, In w (texts l) <-> In (Word w) l.
Proof. intros w l. unfold texts. rewrite in_flat_map. split; [intros ([s|] & I & X); [destruct X as [->|[]]; exact I|destruct X]|intros I; exists (Word w); split; [exact I|left; reflexivity]]. Qed.

Section Main.
Variable realpath : string -> string. Variable multiple : bool. Variable data : build_data.
Hypothesis data_plain : forall f tis ti, In (f, tis) data -> In ti tis -> plain_info ti.
Variable targets : list (string * target item).
Local Notation links := (map (fun '(t, d) => (t, link_only d)) targets).
Lemma links_names : map fst links = map fst targets.
Proof. rewrite map_map. apply map_ext. intros [t d]. reflexivity. Qed.
Lemma links_assoc : forall x, assoc x links = match assoc x targets with Some e => Some (link_only e) | None => None end.
Proof. intros x. induction targets as [|[t d] ts IH]; [reflexivity|]. cbn [map assoc]. destruct (String.eqb x t); [reflexivity|exact IH]. Qed.

Variable t : string. Variable d : target item.
Hypothesis own_plain : plain_toolset (toolset d).
Hypothesis t_plain : is_wildcard t = false.
Hypothesis t_there : In t (map fst targets).
Local Notation q := (qualify realpath multiple (build_file t) (toolset d)).
Local Notation m := (meant realpath multiple (build_file t) (toolset d)).
Local Notation ks := (fun x => negb (prune_self d && String.eqb x t)).
Lemma expansion_file : forall w x, In x (expansion data (q w)) -> is_wildcard (q w) = true -> build_file x = build_file (q w).
Proof.
  intros w x X W. unfold expansion in X. rewrite W in X. destruct (assoc (build_file (q w)) data) as [tis|] eqn:A; [|destruct X]. apply assoc_In in A. unfold wildcard_matches in X. destruct (parse_qualified_target (q w)) as [[f n] s]. apply in_map_iff in X. destruct X as (ti & <- & T). apply filter_In in T. destruct T as [T _].
  destruct (data_plain _ _ _ A T) as (P1 & P2 & _). apply build_file_qualified; assumption.
Qed.
Lemma self_expand : forall T, (forall x, In x (filter ks (map q T)) -> is_wildcard x = true -> build_file x <> build_file t /\ In (build_file x) (map fst data)) ->
  flat_map (expansion data) (filter ks (map q T)) = filter ks (flat_map (fun w => targets_meant data (m w)) T).
Proof.
  induction T as [|w T IH]; intros H; [reflexivity|]. cbn [map filter flat_map] in *. rewrite filter_app', <- (expansion_is realpath multiple data data_plain (build_file t) (toolset d) w own_plain). destruct (prune_self d && String.eqb (q w) t) eqn:E; cbn [negb] in *.
  - rewrite (IH H). apply andb_true_iff in E. destruct E as [E1 E2]. apply String.eqb_eq in E2. unfold expansion at 1. rewrite E2, t_plain. cbn [filter]. rewrite E1, String.eqb_refl. reflexivity.
  - cbn [flat_map]. rewrite (IH (fun x X => H x (or_intror X))). f_equal. symmetry. apply filter_all. intros x X. destruct (prune_self d) eqn:PS; [|reflexivity]. cbn [andb] in *. destruct (String.eqb_spec x t) as [->|D]; [|reflexivity]. exfalso.
    destruct (is_wildcard (q w)) eqn:W.
    + apply (H (q w) (or_introl eq_refl) W). symmetry. exact (expansion_file w t X W).
    + unfold expansion in X. rewrite W in X. destruct X as [X|[]]. rewrite X, String.eqb_refl in E. discriminate E.
Qed.
Lemma self_expand_in : forall T x, In x (flat_map (expansion data) (filter ks (map q T))) -> In x (flat_map (fun w => targets_meant data (m w)) T).
Proof.
  intros T x X. apply in_flat_map in X. destruct X as (y & Y & X). apply filter_In in Y. destruct Y as [Y _]. apply in_map_iff in Y. destruct Y as (w & <- & W). apply in_flat_map. exists w. split; [exact W|]. rewrite <- (expansion_is realpath multiple data data_plain _ _ _ own_plain). exact X.
Qed.
Lemma section_any : forall k op, section k -> In op [""; "!"; "/"] -> any_key (k ++ op).
Proof. intros k op K O. exists k, op. auto. Qed.
Lemma app_empty : forall k, k ++ "" = k.
Proof. exact append_nil_r. Qed.
Lemma not_section : forall k op, section k -> op = "!" \/ op = "/" -> ~ section (k ++ op).
Proof. intros k op [->| ->] [->| ->] [X|X]; discriminate X. Qed.
Lemma processed : match process realpath multiple data links t d with
  | inl d' => ~ refused realpath multiple data targets t d /\
      forall key, section key -> lists d' key = match lists d key with None => None | Some _ => Some (firsts (filter (kept realpath multiple targets t d key) (stands_for realpath multiple data t d key))) end
  | inr _ => refused realpath multiple data targets t d
  end.
Proof.
  unfold process. assert (Q := qualified realpath multiple t d). destruct (qualify_dependencies realpath multiple t d) as [a|e]; cbn [andthen].
  2: { destruct Q as [(k & l & (key & op & K & O & ->) & L & X)|(k & l & w & (key & op & K & O & ->) & L & W & N)]; [exact (no_text _ _ _ _ _ _ key op l K O L X)|]. apply (not_dependency _ _ _ _ _ _ key op l w K O L W).
       intros l' w' L' W' E. apply (N l' L'). apply (proj2 (qualify_same realpath multiple (build_file t) (toolset d) w' w own_plain)) in E. rewrite <- E. apply in_map. apply texts_in. exact W'. }
  destruct Q as (PA & QA & QD). assert (KA : forall k, section k -> match lists d k with None => lists a k = None | Some l => ~ In Other l /\ lists a k = Some (map q (texts l)) end) by (intros k K; apply QA; rewrite <- (app_empty k); apply section_any; [exact K|left; reflexivity]).
  assert (PSa : prune_self a = prune_self d) by (rewrite PA; reflexivity). assert (KDa : kind a = kind d) by (rewrite PA; reflexivity).
  unfold remove_self at 1. destruct (with_sections (fun l => inl (remove_self_loop t (prune_self a) l l l)) a) as [b|e] eqn:B; cbn [andthen].
  2: { destruct (with_bad _ _ _ B) as (k & l & _ & _ & X). discriminate X. }
  destruct (with_ok _ _ _ B) as (PB & BS & BO). assert (KDb : kind b = kind d) by (rewrite PB; exact KDa).
  assert (KB : forall k, section k -> match lists d k with None => lists b k = None | Some l => ~ In Other l /\ lists b k = Some (filter ks (map q (texts l))) end).
  { intros k K. specialize (KA k K). specialize (BS k K). destruct (lists d k) as [l|]; [|rewrite KA in BS; exact BS]. destruct KA as [N KA]. rewrite KA in BS. destruct BS as (x & X & ->). split; [exact N|]. injection X as <-. rewrite self_is, PSa. reflexivity. }
  unfold expand at 1. destruct (with_sections (fun l => match expand_wildcards data t l with inl r => inl r | inr e => inr (Wild e) end) b) as [c|e] eqn:C; cbn [andthen].
  2: { destruct (with_bad _ _ _ C) as (k & l & K & L & X). destruct (expand_wildcards data t l) as [r|e'] eqn:E; [discriminate X|]. rewrite expand_wildcards_map in E. destruct (expand_map_bad _ _ _ _ E) as (x & I & W & F). specialize (KB k K). destruct (lists d k) as [l0|] eqn:L0; [|congruence]. destruct KB as [N KB]. rewrite L in KB. injection KB as ->.
       apply filter_In in I. destruct I as [I _]. apply in_map_iff in I. destruct I as (w & <- & I). destruct (m w) as [[f n] s] eqn:M. assert (P := qualify_parse realpath multiple _ _ _ _ _ _ own_plain M). rewrite (build_file_parse _ _ _ _ P) in F.
       apply (wild _ _ _ _ _ _ k l0 w f n s K L0); [apply texts_in; exact I|exact M| |exact F]. apply (is_wildcard_parse _ _ _ _ P) in W. destruct W as [W|W]; [left; exact W|right; congruence]. }
  destruct (with_ok _ _ _ C) as (PC & CS & CO). assert (KDc : kind c = kind d) by (rewrite PC; exact KDb).
  assert (KC : forall k, section k -> match lists d k with None => lists c k = None | Some l => ~ In Other l /\ (forall x, In x (filter ks (map q (texts l))) -> is_wildcard x = true -> build_file x <> build_file t /\ In (build_file x) (map fst data)) /\ lists c k = Some (filter ks (stands_for realpath multiple data t d k)) end).
  { intros k K. specialize (KB k K). specialize (CS k K). destruct (lists d k) as [l|] eqn:L; [|rewrite KB in CS; exact CS]. destruct KB as [N KB]. rewrite KB in CS. destruct CS as (x & X & ->). split; [exact N|]. destruct (expand_wildcards data t (filter ks (map q (texts l)))) as [r|e] eqn:E; [|discriminate X]. injection X as <-. rewrite expand_wildcards_map in E.
    destruct (expand_map_spec data t (filter ks (map q (texts l)))) as [E1 E2]. assert (E3 := E2 _ E). split; [exact E3|]. rewrite (E1 E3) in E. injection E as <-. rewrite (self_expand _ E3). unfold stands_for. rewrite L. reflexivity. }
  unfold remove_links at 1. rewrite KDc. fold (is_none d).
  destruct (with_sections (fun l => if is_none d then remove_links_loop links l l else inl l) c) as [g|e] eqn:G; cbn [andthen].
  2: { destruct (with_bad _ _ _ G) as (k & l & K & L & X). destruct (is_none d) eqn:N; [|discriminate X]. destruct (links_bad _ _ _ _ X) as (x & I & M). rewrite links_names in M. specialize (KC k K). destruct (lists d k) as [l0|] eqn:L0; [|congruence]. destruct KC as (_ & _ & KC). rewrite L in KC. injection KC as ->. apply filter_In in I.
       exact (missing _ _ _ _ _ _ k x K N (proj1 I) M). }
  destruct (with_ok _ _ _ G) as (PG & GS & GO).
  assert (KG : forall k, section k -> match lists d k with None => lists g k = None | Some l => (is_none d = true -> forall x, In x (stands_for realpath multiple data t d k) -> In x (map fst targets)) /\
     lists g k = Some (filter (fun x => negb (is_none d && match assoc x targets with Some e => link_only e | None => false end)) (filter ks (stands_for realpath multiple data t d k))) end).
  { intros k K. specialize (KC k K). specialize (GS k K). destruct (lists d k) as [l|] eqn:L; [|rewrite KC in GS; exact GS]. destruct KC as (N & _ & KC). rewrite KC in GS. destruct GS as (x & X & ->). destruct (is_none d).
    - destruct (links_loop _ _ _ _ X) as [I ->]. rewrite links_names in I. split.
      + intros _ y Y. destruct (prune_self d && String.eqb y t) eqn:E; [apply andb_true_iff in E; destruct E as [_ E]; apply String.eqb_eq in E; subst y; exact t_there|]. apply I. apply filter_In. split; [exact Y|]. rewrite E. reflexivity.
      + f_equal. apply filter_ext_in. intros y Y. apply mem_In in Y. rewrite Y, links_assoc. cbn [andb]. destruct (assoc y targets); reflexivity.
    - injection X as <-. split; [discriminate|]. f_equal. symmetry. apply filter_all. reflexivity. }
  assert (OG : forall k op, section k -> op = "!" \/ op = "/" -> lists g (k ++ op) = match lists d (k ++ op) with None => None | Some l => Some (map q (texts l)) end).
  { intros k op K O. rewrite GO, CO, BO by (apply not_section; assumption). specialize (QA (k ++ op) (section_any k op K ltac:(cbn; destruct O as [->| ->]; auto))). destruct (lists d (k ++ op)) as [l|]; [exact (proj2 QA)|exact QA]. }
  assert (OO : forall k op l, section k -> op = "!" \/ op = "/" -> lists d (k ++ op) = Some l -> ~ In Other l).
  { intros k op l K O L. specialize (QA (k ++ op) (section_any k op K ltac:(cbn; destruct O as [->| ->]; auto))). rewrite L in QA. exact (proj1 QA). }
  unfold filter_lists at 1. destruct (filter_sections dependency_sections (lists g)) as [ls|e] eqn:F; cbn [andthen].
  2: { destruct (filter_sections_bad _ _ _ sections_nodup sections_apart F) as (k & l & x & l' & K & L & L'). apply section_keys in K. rewrite (OG k "/" K (or_intror eq_refl)) in L'. specialize (KG k K). destruct (lists d k) as [l0|] eqn:L0; [|congruence]. destruct (lists d (k ++ "/")) as [l1|] eqn:L1; [|discriminate L'].
       apply (regex _ _ _ _ _ _ k l0 l1 K L0 L1). intros ->. discriminate L'. }
  destruct (filter_sections_ok _ _ _ sections_nodup sections_apart F) as [FS FO]. unfold remove_duplicates. destruct (with_sections (fun l => inl (unify l)) (put g ls)) as [h|e] eqn:H.
  2: { destruct (with_bad _ _ _ H) as (k & l & _ & _ & X). discriminate X. }
  destruct (with_ok _ _ _ H) as (PH & HS & _). cbn [lists put] in HS. split.
  - intros R. destruct R as [key op l K O L X|key op l w K O L W N|key l w f n s K L W M S Z|key x K N I M|key l l' K L L' NE].
    + specialize (QA (key ++ op) (section_any key op K O)). rewrite L in QA. exact (proj1 QA X).
    + destruct (QD (key ++ op) l w (section_any key op K O) L W) as (l' & L' & I). apply in_map_iff in I. destruct I as (w' & E & I). apply texts_in in I. apply (N l' w' L' I). apply (qualify_same realpath multiple (build_file t) (toolset d) w' w own_plain). exact E.
    + specialize (KC key K). rewrite L in KC. destruct KC as (_ & KC & _). assert (P := qualify_parse realpath multiple _ _ _ _ _ _ own_plain M). assert (Wd : is_wildcard (q w) = true) by (apply (is_wildcard_parse _ _ _ _ P); destruct S as [->| ->]; [left; reflexivity|right; reflexivity]).
      destruct (KC (q w)) as [Y1 Y2]; [|exact Wd|rewrite (build_file_parse _ _ _ _ P) in Y1, Y2; tauto]. apply filter_In. split; [apply in_map; apply texts_in; exact W|]. destruct (String.eqb_spec (q w) t) as [E|E]; [rewrite E in Wd; congruence|]. rewrite andb_false_r. reflexivity.
    + specialize (KG key K). destruct (lists d key) as [l|] eqn:L; [|unfold stands_for in I; rewrite L in I; destruct I]. apply M. exact (proj1 KG N x I).
    + specialize (FS key (proj1 (section_keys key) K)). specialize (KG key K). rewrite L in KG. destruct KG as [_ KG]. rewrite KG in FS. destruct FS as [FS _]. rewrite (OG key "/" K (or_intror eq_refl)), L' in FS. destruct FS as [FS|FS]; [discriminate FS|]. injection FS as FS.
      assert (NO := OO key "/" l' K (or_intror eq_refl) L'). destruct l' as [|[w|] l'']; [congruence|discriminate FS|apply NO; left; reflexivity].
  - intros key K. specialize (HS key K). specialize (FS key (proj1 (section_keys key) K)). specialize (KG key K). destruct (lists d key) as [l|] eqn:L.
    + assert (EX : match lists g (key ++ "!") with Some x => x | None => [] end = excluded realpath multiple t d key).
      { rewrite (OG key "!" K (or_introl eq_refl)). unfold excluded. destruct (lists d (key ++ "!")) as [l1|]; [|reflexivity]. apply map_ext. intros w. destruct (m w) as [[f n] s] eqn:M. exact (qualify_spell realpath multiple _ _ _ _ _ _ own_plain M). }
      destruct KG as [_ KG]. rewrite KG in FS. destruct FS as [_ FS]. rewrite FS in HS. destruct HS as (x & X & ->). injection X as <-. rewrite firsts_unify. do 2 f_equal. rewrite !filter_twice. apply filter_ext. intros x. unfold kept.
      rewrite <- EX. rewrite ?andb_assoc. reflexivity.
    + rewrite KG in FS. rewrite FS in HS. exact HS.
Qed.
End Main.
