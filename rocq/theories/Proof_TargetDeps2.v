From Verif Require Import Lib LibFacts Str StrFacts Model_Graph Model_Names Model_Path Model_TargetDeps Spec_Names Spec_TargetDeps.
From Verif Require Import Proof_Graph Proof_Names Proof_TargetDeps.
From Coq Require Import Lia.
Local Open Scope string_scope.

Section Main.
Variable realpath : string -> string. Variable multiple : bool. Variable data : build_data.
Local Notation qualify := (qualify realpath multiple).
Local Notation meant := (meant realpath multiple).

(** ** Names *)
Lemma rsplit_after : forall c s a b, rsplit1 c s = Some (a, b) -> has_char c b = false.
Proof. intros c s a b H. apply rsplit1_Some in H. tauto. Qed.
Lemma parse_parts : forall q f n s, parse_qualified_target q = (f, n, s) -> no_colon n /\ match s with Some x => no_colon x /\ no_hash x | None => True end.
Proof.
  intros q f n s H. unfold parse_qualified_target in H.
  assert (X : exists b r, (match rsplit1 colon q with Some (b, t) => (Some b, t) | None => (None, q) end) = (b, r) /\ no_colon r).
  { destruct (rsplit1 colon q) as [[b r]|] eqn:E; [exists (Some b), r; split; [reflexivity|exact (rsplit_after _ _ _ _ E)]|]. exists None, q. split; [reflexivity|]. apply rsplit1_None in E. exact E. }
  destruct X as (b & r & E & R). rewrite E in H. destruct (rsplit1 hash r) as [[t u]|] eqn:S; injection H as <- <- <-.
  - assert (U := rsplit_after _ _ _ _ S). apply rsplit1_Some in S. destruct S as [-> _]. unfold no_colon in *. rewrite has_char_app in R. cbn [has_char] in R. apply orb_false_iff in R. destruct R as [R1 R2]. split; [exact R1|]. split; [exact R2|exact U].
  - split; [exact R|exact I].
Qed.
Lemma meant_parts : forall file own w f n s, plain_toolset own -> meant file own w = (f, n, s) -> no_colon n /\ plain_toolset s.
Proof.
  intros file own w f n s P H. unfold Spec_TargetDeps.meant, resolve_target in H. destruct (parse_qualified_target w) as [[pf n'] ps] eqn:E. destruct (parse_parts _ _ _ _ E) as [N S]. cbv zeta in H. injection H as _ <- <-. split; [exact N|].
  destruct multiple; [|exact P]. destruct ps as [[|a x]|]; [exact P| |exact P]. split; [discriminate|exact S].
Qed.
Lemma spell_is : forall f n s, s <> "" -> qualified_target f n s = spell f n s.
Proof. intros f n s H. unfold qualified_target, spell. destruct s as [|a s]; [congruence|]. rewrite append_assoc. reflexivity. Qed.
Lemma qualify_spell : forall file own w f n s, plain_toolset own -> meant file own w = (f, n, s) -> qualify file own w = spell f n s.
Proof.
  intros file own w f n s P H. destruct (meant_parts _ _ _ _ _ _ P H) as [_ [S _]]. rewrite <- (spell_is f n s S). unfold Model_TargetDeps.qualify. unfold Spec_TargetDeps.meant in H. destruct (resolve_target realpath file w own) as [[f' n'] s']. injection H as -> -> <-. reflexivity.
Qed.
Lemma spell_parse : forall f n s, no_colon n -> plain_toolset s -> parse_qualified_target (spell f n s) = (Some f, n, Some s).
Proof. intros f n s N (S & C & H). rewrite <- (spell_is f n s S). rewrite parse_qualify; [destruct s; [congruence|reflexivity]|exact N|exact C|exact H|congruence]. Qed.
Lemma qualify_parse : forall file own w f n s, plain_toolset own -> meant file own w = (f, n, s) -> parse_qualified_target (qualify file own w) = (Some f, n, Some s).
Proof. intros file own w f n s P H. rewrite (qualify_spell _ _ _ _ _ _ P H). destruct (meant_parts _ _ _ _ _ _ P H) as [N S]. apply spell_parse; assumption. Qed.
Lemma qualify_same : forall file own w w', plain_toolset own -> qualify file own w = qualify file own w' <-> meant file own w = meant file own w'.
Proof.
  intros file own w w' P. destruct (meant file own w) as [[f n] s] eqn:E, (meant file own w') as [[f' n'] s'] eqn:E'. assert (Q := qualify_parse _ _ _ _ _ _ P E). assert (Q' := qualify_parse _ _ _ _ _ _ P E').
  rewrite (qualify_spell _ _ _ _ _ _ P E), (qualify_spell _ _ _ _ _ _ P E') in *. split; [|intros H; injection H as -> -> ->; reflexivity]. intros H. rewrite H in Q. rewrite Q in Q'. injection Q' as -> -> ->. reflexivity.
Qed.
Hypothesis data_plain : forall f tis ti, In (f, tis) data -> In ti tis -> plain_info ti.
Lemma expansion_is : forall file own w, plain_toolset own -> expansion data (qualify file own w) = targets_meant data (meant file own w).
Proof.
  intros file own w P. destruct (meant file own w) as [[f n] s] eqn:E. assert (Q := qualify_parse _ _ _ _ _ _ P E). unfold expansion, targets_meant. unfold is_wildcard. rewrite Q. change star with "*".
  destruct (String.eqb n "*" || String.eqb s "*") eqn:W; [|rewrite (qualify_spell _ _ _ _ _ _ P E); reflexivity]. rewrite (build_file_parse _ _ _ _ Q). destruct (assoc f data) as [tis|] eqn:A; [|reflexivity].
  unfold wildcard_matches. rewrite Q. change star with "*". apply assoc_In in A. assert (F : forall ti, In ti tis -> ti_toolset ti <> "") by (intros ti T; apply (data_plain f tis ti A T)). clear A.
  induction tis as [|ti tis IH]; [reflexivity|]. cbn [filter]. assert (IH' := IH (fun x X => F x (or_intror X))). destruct (negb (ti_suppress ti) && (String.eqb n "*" || String.eqb n (ti_name ti)) && (String.eqb s "*" || String.eqb s (ti_toolset ti))); [|exact IH'].
  cbn [map]. rewrite IH', spell_is by (apply F; left; reflexivity). reflexivity.
Qed.

(** ** Qualifying *)
Lemma qualify_first : forall t own deps l, match qualify_list realpath multiple t "dependencies" own deps l with
  | inl r => ~ In Other l /\ r = map (qualify (build_file t) own) (texts l) | inr _ => In Other l end.
Proof.
  intros t own deps. induction l as [|[w|] l IH]; cbn [qualify_list]; [split; [intros []|reflexivity]| |left; reflexivity]. change (String.eqb "dependencies" "dependencies") with true. cbv iota zeta.
  destruct (qualify_list realpath multiple t "dependencies" own deps l) as [r|e]; [|right; exact IH]. destruct IH as [N ->]. split; [intros [X|X]; [discriminate X|exact (N X)]|reflexivity].
Qed.
Lemma qualify_more : forall t key own deps l, key <> "dependencies" -> match qualify_list realpath multiple t key own deps l with
  | inl r => ~ In Other l /\ r = map (qualify (build_file t) own) (texts l) /\ forall w, In (Word w) l -> exists ds, deps = Some ds /\ In (qualify (build_file t) own w) ds
  | inr _ => In Other l \/ exists w, In (Word w) l /\ forall ds, deps = Some ds -> ~ In (qualify (build_file t) own w) ds end.
Proof.
  intros t key own deps l K. induction l as [|[w|] l IH]; cbn [qualify_list]; [split; [intros []|split; [reflexivity|intros w []]]| |left; left; reflexivity]. apply String.eqb_neq in K. rewrite K. cbv zeta.
  destruct deps as [ds|]; [|right; exists w; split; [left; reflexivity|intros ds D; discriminate D]]. destruct (mem (qualify (build_file t) own w) ds) eqn:M.
  - destruct (qualify_list realpath multiple t key own (Some ds) l) as [r|e].
    + destruct IH as (N & -> & A). split; [intros [X|X]; [discriminate X|exact (N X)]|]. split; [reflexivity|]. intros w' [X|X]; [injection X as <-; exists ds; split; [reflexivity|apply mem_In; exact M]|exact (A w' X)].
    + destruct IH as [X|(w' & X & Y)]; [left; right; exact X|right; exists w'; split; [right; exact X|exact Y]].
  - right. exists w. split; [left; reflexivity|]. intros ds' D I. injection D as <-. apply mem_In in I. congruence.
Qed.
Lemma sections_ok : forall t own written keys done r, NoDup keys -> ~ In "dependencies" keys -> qualify_sections realpath multiple t own written keys done = inl r ->
  (forall k, In k keys -> match written k with None => r k = done k | Some l => exists x, qualify_list realpath multiple t k own (done "dependencies") l = inl x /\ r k = Some x end) /\ (forall k, ~ In k keys -> r k = done k).
Proof.
  intros t own written. induction keys as [|k keys IH]; intros done r D N H; cbn [qualify_sections] in H; [injection H as <-; split; [intros k []|reflexivity]|]. inversion D as [|? ? D1 D2]; subst. assert (N' : ~ In "dependencies" keys) by (intros X; apply N; right; exact X).
  destruct (written k) as [l|] eqn:W.
  - destruct (qualify_list realpath multiple t k own (done "dependencies") l) as [x|e] eqn:Q; [|discriminate H]. destruct (IH _ _ D2 N' H) as [A B]. assert (Z : set k x done "dependencies" = done "dependencies") by (apply set_other; intros <-; apply N; left; reflexivity). rewrite Z in A. split.
    + intros k' [<-|K]; [rewrite W; exists x; split; [exact Q|rewrite (B k D1); apply set_same]|]. specialize (A k' K). rewrite set_other in A by (intros ->; contradiction). exact A.
    + intros k' K. rewrite B by (intros X; apply K; right; exact X). apply set_other. intros ->. apply K. left. reflexivity.
  - destruct (IH _ _ D2 N' H) as [A B]. split; [intros k' [<-|K]; [rewrite W; exact (B k D1)|exact (A k' K)]|]. intros k' K. apply B. intros X. apply K. right. exact X.
Qed.
Lemma sections_bad : forall t own written keys done e, NoDup keys -> ~ In "dependencies" keys -> qualify_sections realpath multiple t own written keys done = inr e ->
  exists k l, In k keys /\ written k = Some l /\ qualify_list realpath multiple t k own (done "dependencies") l = inr e.
Proof.
  intros t own written. induction keys as [|k keys IH]; intros done e D N H; cbn [qualify_sections] in H; [discriminate H|]. inversion D as [|? ? D1 D2]; subst. assert (N' : ~ In "dependencies" keys) by (intros X; apply N; right; exact X).
  destruct (written k) as [l|] eqn:W.
  - destruct (qualify_list realpath multiple t k own (done "dependencies") l) as [x|e'] eqn:Q; [|injection H as ->; exists k, l; split; [left; reflexivity|split; assumption]]. destruct (IH _ _ D2 N' H) as (k' & l' & K & W' & Q').
    rewrite set_other in Q' by (intros <-; apply N; left; reflexivity). exists k', l'. split; [right; exact K|split; assumption].
  - destruct (IH _ _ D2 N' H) as (k' & l' & K & W' & Q'). exists k', l'. split; [right; exact K|split; assumption].
Qed.
Definition later : list string := ["dependencies!"; "dependencies/"; "export_dependent_settings"; "export_dependent_settings!"; "export_dependent_settings/"].
Lemma later_nodup : NoDup later /\ ~ In "dependencies" later.
Proof. split; [repeat constructor; cbn; intuition discriminate|cbn; intuition discriminate]. Qed.
Definition any_key (k : string) : Prop := exists key op, section key /\ In op [""; "!"; "/"] /\ k = key ++ op.
Lemma any_key_iff : forall k, any_key k <-> k = "dependencies" \/ In k later.
Proof.
  intros k. split.
  - intros (key & op & [->| ->] & O & ->); destruct O as [<-|[<-|[<-|[]]]]; cbn; tauto.
  - intros [->|K].
    + exists "dependencies", "". split; [left; reflexivity|]. split; [left; reflexivity|reflexivity].
    + destruct K as [<-|[<-|[<-|[<-|[<-|[]]]]]].
      * exists "dependencies", "!". cbn. unfold section. tauto.
      * exists "dependencies", "/". cbn. unfold section. tauto.
      * exists "export_dependent_settings", "". cbn. unfold section. tauto.
      * exists "export_dependent_settings", "!". cbn. unfold section. tauto.
      * exists "export_dependent_settings", "/". cbn. unfold section. tauto.
Qed.
Lemma qualified : forall t d, match qualify_dependencies realpath multiple t d with
  | inl a => a = put d (lists a) /\
      (forall k, any_key k -> match lists d k with None => lists a k = None | Some l => ~ In Other l /\ lists a k = Some (map (qualify (build_file t) (toolset d)) (texts l)) end) /\
      (forall k l w, any_key k -> lists d k = Some l -> In (Word w) l -> exists l', lists d "dependencies" = Some l' /\ In (qualify (build_file t) (toolset d) w) (map (qualify (build_file t) (toolset d)) (texts l')))
  | inr _ => (exists k l, any_key k /\ lists d k = Some l /\ In Other l) \/
      (exists k l w, any_key k /\ lists d k = Some l /\ In (Word w) l /\ forall l', lists d "dependencies" = Some l' -> ~ In (qualify (build_file t) (toolset d) w) (map (qualify (build_file t) (toolset d)) (texts l')))
  end.
Proof.
  intros t d. unfold qualify_dependencies. change all_sections with ("dependencies" :: later). cbn [qualify_sections]. destruct later_nodup as [LN LD].
  destruct (lists d "dependencies") as [l0|] eqn:L0.
  - assert (F := qualify_first t (toolset d) None l0). destruct (qualify_list realpath multiple t "dependencies" (toolset d) None l0) as [r0|e0].
    2: { left. exists "dependencies", l0. split; [apply any_key_iff; left; reflexivity|split; assumption]. }
    destruct F as [F1 F2]. destruct (qualify_sections realpath multiple t (toolset d) (lists d) later (set "dependencies" r0 (fun _ => None))) as [ls|e] eqn:Q.
    + destruct (sections_ok _ _ _ _ _ _ LN LD Q) as [A B]. rewrite set_same in A. cbn [lists put]. split; [reflexivity|].
      assert (M : forall k, In k later -> match lists d k with None => ls k = None | Some l => (~ In Other l /\ ls k = Some (map (qualify (build_file t) (toolset d)) (texts l))) /\ forall w, In (Word w) l -> In (qualify (build_file t) (toolset d) w) r0 end).
      { intros k K. specialize (A k K). destruct (lists d k) as [l|]; [|rewrite A; apply set_other; intros ->; contradiction]. destruct A as (x & A1 & A2). assert (ND : k <> "dependencies") by (intros ->; contradiction).
        assert (G := qualify_more t k (toolset d) (Some r0) l ND). rewrite A1 in G. destruct G as (G1 & -> & G2). split; [split; [exact G1|exact A2]|]. intros w W. destruct (G2 w W) as (ds & E & I). injection E as <-. exact I. }
      split.
      * intros k K. apply any_key_iff in K. destruct K as [->|K]; [rewrite L0; split; [exact F1|rewrite (B _ LD), set_same, F2; reflexivity]|]. specialize (M k K). destruct (lists d k); [exact (proj1 M)|exact M].
      * intros k l w K E W. exists l0. split; [reflexivity|]. rewrite <- F2. apply any_key_iff in K. destruct K as [->|K]; [|specialize (M k K); rewrite E in M; exact (proj2 M w W)]. rewrite F2. rewrite E in L0. injection L0 as <-. apply in_map. unfold texts. apply in_flat_map. exists (Word w). split; [exact W|left; reflexivity].
    + destruct (sections_bad _ _ _ _ _ _ LN LD Q) as (k & l & K & E & G). rewrite set_same in G. assert (ND : k <> "dependencies") by (intros ->; contradiction). assert (Z := qualify_more t k (toolset d) (Some r0) l ND). rewrite G in Z.
      assert (AK : any_key k) by (apply any_key_iff; right; exact K). destruct Z as [Z|(w & W & Z)]; [left; exists k, l; auto|]. right. exists k, l, w. split; [exact AK|]. split; [exact E|]. split; [exact W|]. intros l' L'. injection L' as <-. rewrite <- F2. apply Z. reflexivity.
  - destruct (qualify_sections realpath multiple t (toolset d) (lists d) later (fun _ => None)) as [ls|e] eqn:Q.
    + destruct (sections_ok _ _ _ _ _ _ LN LD Q) as [A B]. cbn [lists put]. split; [reflexivity|].
      assert (M : forall k, In k later -> match lists d k with None => ls k = None | Some l => (~ In Other l /\ ls k = Some (map (qualify (build_file t) (toolset d)) (texts l))) /\ forall w, ~ In (Word w) l end).
      { intros k K. specialize (A k K). destruct (lists d k) as [l|]; [|exact A]. destruct A as (x & A1 & A2). assert (ND : k <> "dependencies") by (intros ->; contradiction).
        assert (G := qualify_more t k (toolset d) None l ND). rewrite A1 in G. destruct G as (G1 & -> & G2). split; [split; [exact G1|exact A2]|]. intros w W. destruct (G2 w W) as (ds & E & I). discriminate E. }
      split.
      * intros k K. apply any_key_iff in K. destruct K as [->|K]; [rewrite L0; exact (B _ LD)|]. specialize (M k K). destruct (lists d k); [exact (proj1 M)|exact M].
      * intros k l w K E W. exfalso. apply any_key_iff in K. destruct K as [->|K]; [congruence|]. specialize (M k K). rewrite E in M. exact (proj2 M w W).
    + destruct (sections_bad _ _ _ _ _ _ LN LD Q) as (k & l & K & E & G). assert (ND : k <> "dependencies") by (intros ->; contradiction). assert (Z := qualify_more t k (toolset d) None l ND). rewrite G in Z.
      assert (AK : any_key k) by (apply any_key_iff; right; exact K). destruct Z as [Z|(w & W & Z)]; [left; exists k, l; auto|]. right. exists k, l, w. split; [exact AK|]. split; [exact E|]. split; [exact W|]. intros l' L'. discriminate L'.
Qed.
End Main.
