(** A generated Makefile is a good list of rules. *)
From Coq Require Import Relations.
From Verif Require Import Lib Str LibFacts StrFacts Model_Names Model_Path Model_Make Model_Writer Model_Remake Spec_Make Spec_Writer Spec_Remake Proof_Make Proof_Writer Proof_Writer2 Proof_Remake Proof_Remake2.
Local Open Scope string_scope.

Lemma filter_split : forall (p : string -> bool) l a x b, filter p l = (a ++ x :: b)%list -> exists A B, l = (A ++ x :: B)%list /\ filter p A = a /\ filter p B = b.
Proof.
  intros p. induction l as [|y l IH]; intros a x b E; [destruct a; discriminate|]. cbn [filter] in E. destruct (p y) eqn:P.
  - destruct a as [|z a]; cbn [app] in E; injection E as -> E.
    + exists [], l. auto.
    + destruct (IH a x b E) as (A & B & -> & FA & FB). exists (z :: A), B. split; [reflexivity|]. split; [cbn [filter]; rewrite P, FA; reflexivity|exact FB].
  - destruct (IH a x b E) as (A & B & -> & FA & FB). exists (y :: A), B. split; [reflexivity|]. split; [cbn [filter]; rewrite P; exact FA|exact FB].
Qed.
Section Good.
Variable sha1 : string -> string.
Variable needed : string -> bool.
Variables (ts : list target) (rs : list written).
Hypothesis (ND : NoDup (map qualified ts)) (G : makefile sha1 needed ts = Some rs).
Hypothesis (NE : forall t, In t ts -> install_path t <> "").
Hypothesis (SI : Forall simple ts) (DI : NoDup (all_deps ts)).
Lemma covered : covers rs (all_deps ts).
Proof. exact (covers_generate sha1 needed ts _ rs SI G). Qed.
Lemma commanded_in : forall t x, In t ts -> noticed t x -> In x (all_deps ts).
Proof. intros t x I N. apply (commanded_iff ts x SI). exists t. auto. Qed.
Lemma simple_in : forall t, In t ts -> simple t.
Proof. apply Forall_forall. exact SI. Qed.
Lemma commanded_made : forall x, In x (all_deps ts) -> made rs x.
Proof.
  intros x I. destruct covered as [C F]. destruct (one_line _ _ _ C F DI I) as (r & c & R & H & _). exists r. split; [apply filter_In in R; apply R|rewrite H; left; reflexivity].
Qed.
Lemma compile_line : forall t x, In t ts -> compiles t x -> exists c, lines_of rs x = [Do_tracked c].
Proof.
  intros t x I C. pose proof C as (s & IS & CS & E). assert (IX : In x (all_deps ts)) by (apply (commanded_in t x I); subst x; exact (noticed_object t s IS CS)).
  destruct (part_of sha1 needed ts rs ND G t I) as (de & li & IN & _).
  assert (L : In (Do_tracked (compiler s)) (lines_of rs x)).
  { apply (lines_in rs {| heads := [object_of t s]; needs := [input t s]; orders := []; forced := true; recipe := [Do_tracked (compiler s)] |}); [|left; symmetry; exact E|left; reflexivity].
    apply IN. apply (in_sources sha1 t de li _ x C). unfold write_sources. do 2 (apply in_or_app; right). apply in_flat_map. exists s. split; [unfold compiled; apply filter_In; split; assumption|left; reflexivity]. }
  destruct (lines_one rs _ x covered DI IX) as [c [Q|Q]]; [rewrite Q in L; destruct L as [L|[]]; discriminate|]. exists c. exact Q.
Qed.
Lemma do_feeds : forall r x y, In r rs -> heads r = [x] -> In y (needs r) -> In y (needs_of rs x).
Proof. intros r x y R H Y. apply needs_feeds. exists r. split; [exact R|split; [rewrite H; left; reflexivity|exact Y]]. Qed.
Lemma listed_needs : forall t x y, In t ts -> listed ts t x y -> In y (needs_of rs x).
Proof.
  intros t x y I L. destruct (part_of sha1 needed ts rs ND G t I) as (de & li & IN & H). pose proof (simple_in t I) as (_ & T & _).
  assert (LINK : forall z, links t -> In z (objects t ++ linked t ++ li) -> In z (needs_of rs (binary t))).
  { intros z K J. assert (R : exists c, In {| heads := [binary t]; needs := (objects t ++ linked t ++ li)%list; orders := []; forced := true; recipe := [Do c] |} (write_binary sha1 t de (objects t ++ linked t ++ li))).
    { unfold write_binary, links in *. destruct (type t); try (eexists; left; reflexivity); congruence. }
    destruct R as [c R]. exact (do_feeds _ _ _ (IN _ (in_binary sha1 t de li _ _ R)) eq_refl J). }
  destruct L as [a o i A E J|c f A J|y K C|d K D TD|N].
  - apply (do_feeds {| heads := [output t o]; needs := map (input t) (action_inputs a); orders := []; forced := true; recipe := [Do (action_variable t (action_name a))] |}); [|reflexivity|apply in_map; exact J].
    apply IN. unfold write_all. apply in_or_app. left. apply in_flat_map. exists a. split; [exact A|]. unfold write_action. rewrite E. left. reflexivity.
  - apply (do_feeds {| heads := [copy_output t c f]; needs := [input t f]; orders := []; forced := true; recipe := [Do "copy"] |}); [|reflexivity|left; reflexivity].
    apply IN. unfold write_all. do 2 (apply in_or_app; right). apply in_or_app. left. apply in_flat_map. exists c. split; [exact A|]. unfold write_copy. apply in_flat_map. exists f. split; [exact J|]. left. reflexivity.
  - apply LINK; [exact K|]. apply in_or_app. left. apply compiles_iff. exact C.
  - apply LINK; [exact K|]. apply in_or_app. right. apply in_or_app. right. exact (proj2 (proj1 (proj2 H) d D (or_intror TD))).
  - apply (do_feeds {| heads := [install_path t]; needs := [binary t]; orders := []; forced := true; recipe := [Do "copy"] |}); [|reflexivity|left; reflexivity].
    apply IN. apply in_final. unfold write_final. assert (Q : installable t = true) by (destruct (installable t) eqn:Q; [reflexivity|unfold install_path in N; rewrite Q in N; contradiction]). rewrite Q. do 3 (apply in_or_app; right). apply in_or_app. right. apply in_or_app. left. destruct (String.eqb_spec (install_path t) (binary t)); [contradiction|left; reflexivity].
Qed.
Lemma noticed_fed : forall t x, In t ts -> sourced ts t -> noticed t x -> needs_of rs x <> [].
Proof.
  intros t x I (SA & SN & SL) N. assert (NIL : forall y, In y (needs_of rs x) -> needs_of rs x <> []) by (intros y Y E; rewrite E in Y; destruct Y). destruct N as [a o A E|c f A J|s A C|T|T N].
  - destruct (action_inputs a) as [|i l] eqn:Q; [destruct (SA a A Q)|]. apply (NIL (input t i)). apply (listed_needs t _ _ I). apply (listed_action ts t a o i A E). rewrite Q. left. reflexivity.
  - apply (NIL (input t f)). apply (listed_needs t _ _ I). exact (listed_copy ts t c f A J).
  - apply (NIL (input t s)). destruct (part_of sha1 needed ts rs ND G t I) as (de & li & IN & _).
    apply (do_feeds {| heads := [object_of t s]; needs := [input t s]; orders := []; forced := true; recipe := [Do_tracked (compiler s)] |}); [|reflexivity|left; reflexivity].
    apply IN. apply (in_sources sha1 t de li _ (object_of t s)); [exists s; auto|]. unfold write_sources. do 2 (apply in_or_app; right). apply in_flat_map. exists s. split; [unfold compiled; apply filter_In; split; assumption|left; reflexivity].
  - assert (CASE : type t = None_ \/ type t <> None_) by (destruct (type t); auto; right; discriminate). destruct CASE as [K|K].
    + destruct (SN K) as [d D]. apply (NIL (install_path d)). destruct (part_of sha1 needed ts rs ND G t I) as (de & li & IN & H).
      apply (do_feeds {| heads := [binary t]; needs := de; orders := []; forced := true; recipe := [Do "touch"] |}); [|reflexivity|exact (proj1 H d D (NE d (proj1 (proj2 D))))].
      apply IN. apply in_binary. unfold write_binary. rewrite K. left. reflexivity.
    + destruct (SL K) as [[y C]|(d & D & TD)]; [apply (NIL y)|apply (NIL (binary d))]; apply (listed_needs t _ _ I); constructor; assumption.
  - apply (NIL (binary t)). apply (listed_needs t _ _ I). constructor. exact N.
Qed.
(** Ways through commanded files. *)
Definition edge (x y : string) : Prop := prerequisite rs x y /\ In y (all_deps ts).
Definition way := clos_trans string edge.
Definition way0 := clos_refl_trans string edge.
Lemma way0_way : forall x y z, edge x y -> way0 y z -> way x z.
Proof.
  intros x y z E W. apply clos_rt_rtn1 in W. induction W as [|u v F W IH]; [apply t_step; exact E|]. apply (t_trans _ _ _ u); [exact IH|apply t_step; exact F].
Qed.
Lemma way_way0 : forall x y, way x y -> way0 x y.
Proof. intros x y W. induction W as [u v E|u v w _ IH1 _ IH2]; [apply rt_step; exact E|exact (rt_trans _ _ _ _ _ IH1 IH2)]. Qed.
Lemma way_way : forall x y z, way x y -> way0 y z -> way x z.
Proof. intros x y z W V. apply clos_rt_rtn1 in V. induction V as [|u v F V IH]; [exact W|]. apply (t_trans _ _ _ u); [exact IH|apply t_step; exact F]. Qed.
Lemma makes_noticed : forall t y, simple t -> makes t y -> noticed t y.
Proof.
  intros t y (R & T & O) M. destruct M as [a o A J|r s o A J K|c f A J].
  - destruct (O a A) as [o' E]. rewrite E in J. destruct J as [->|[]]. exact (noticed_action t a o A E).
  - rewrite R in A. destruct A.
  - exact (noticed_copy t c f A J).
Qed.
Lemma compiles_noticed : forall t y, compiles t y -> noticed t y.
Proof. intros t y (s & I & C & ->). exact (noticed_object t s I C). Qed.
Lemma binary_in : forall t, In t ts -> In (binary t) (all_deps ts).
Proof. intros t I. apply (commanded_in t _ I). apply noticed_product. apply (simple_in t I). Qed.
Lemma install_in : forall t, In t ts -> In (install_path t) (all_deps ts).
Proof.
  intros t I. destruct (String.eqb_spec (install_path t) (binary t)) as [E|N]; [rewrite E; exact (binary_in t I)|]. apply (commanded_in t _ I). apply noticed_install; [|exact N].
  unfold install_path in N. destruct (installable t); [reflexivity|contradiction].
Qed.
Lemma binary_makes : forall t y, In t ts -> makes t y -> edge (binary t) y.
Proof. intros t y I M. destruct (part_of sha1 needed ts rs ND G t I) as (de & li & IN & _). split; [apply (sub_prerequisite _ _ _ _ IN); apply binary_generated; exact M|apply (commanded_in t y I); apply makes_noticed; [exact (simple_in t I)|exact M]]. Qed.
Lemma object_makes : forall t x y, In t ts -> compiles t x -> makes t y -> edge x y.
Proof. intros t x y I C M. destruct (part_of sha1 needed ts rs ND G t I) as (de & li & IN & _). split; [apply (sub_prerequisite _ _ _ _ IN); apply object_generated; assumption|apply (commanded_in t y I); apply makes_noticed; [exact (simple_in t I)|exact M]]. Qed.
Lemma binary_compiles : forall t y, In t ts -> links t -> compiles t y -> edge (binary t) y.
Proof. intros t y I L C. destruct (part_of sha1 needed ts rs ND G t I) as (de & li & IN & _). split; [apply (sub_prerequisite _ _ _ _ IN); apply binary_link; [exact L|apply in_or_app; left; apply compiles_iff; exact C]|apply (commanded_in t y I); apply compiles_noticed; exact C]. Qed.
Lemma step_depends : forall t x d, compiles t x \/ makes t x -> depends ts t d -> edge x (install_path d).
Proof.
  intros t x d S D. pose proof D as (I & J & _). destruct (part_of sha1 needed ts rs ND G t I) as (de & li & IN & H). split; [|exact (install_in d J)]. apply (sub_prerequisite _ _ _ _ IN).
  destruct S as [C|M]; [apply object_deps|apply generated_deps]; try assumption; exact (proj1 H d D (NE d J)).
Qed.
Lemma install_way : forall t, In t ts -> way0 (install_path t) (binary t).
Proof.
  intros t I. destruct (String.eqb_spec (install_path t) (binary t)) as [E|N]; [rewrite E; apply rt_refl|]. apply rt_step. destruct (part_of sha1 needed ts rs ND G t I) as (de & li & IN & _).
  split; [apply (sub_prerequisite _ _ _ _ IN); apply install_binary; exact N|exact (binary_in t I)].
Qed.
Lemma solid_way : forall t d, solid t -> depends ts t d -> way (binary t) (install_path d).
Proof.
  intros t d S D. pose proof D as (I & J & _). assert (CASE : type t = None_ \/ type t <> None_) by (destruct (type t); auto; right; discriminate). destruct CASE as [K|K].
  - apply t_step. destruct (part_of sha1 needed ts rs ND G t I) as (de & li & IN & H). split; [|exact (install_in d J)]. apply (sub_prerequisite _ _ _ _ IN). apply stamp_deps; [exact K|exact (proj1 H d D (NE d J))].
  - destruct S as [S|[(x & C)|(x & M)]]; [contradiction| |].
    + apply (t_trans _ _ _ x); apply t_step; [exact (binary_compiles t x I K C)|exact (step_depends t x d (or_introl C) D)].
    + apply (t_trans _ _ _ x); apply t_step; [exact (binary_makes t x I M)|exact (step_depends t x d (or_intror M) D)].
Qed.
Lemma part_way : forall d y, In d ts -> part ts d y -> way0 (install_path d) y.
Proof.
  intros d y I P. revert I. induction P as [d|d|d y M|d y L C|d e y S D P IH]; intros I.
  - apply rt_refl.
  - exact (install_way d I).
  - exact (rt_trans _ _ _ _ _ (install_way d I) (rt_step _ _ _ _ (binary_makes d y I M))).
  - exact (rt_trans _ _ _ _ _ (install_way d I) (rt_step _ _ _ _ (binary_compiles d y I L C))).
  - apply (rt_trans _ _ _ (binary d)); [exact (install_way d I)|]. apply (rt_trans _ _ _ (install_path e)); [exact (way_way0 _ _ (solid_way d e S D))|exact (IH (proj1 (proj2 D)))].
Qed.
Lemma read_way : forall t x y, In t ts -> may_read ts t x y -> way x y.
Proof.
  intros t x y I R. destruct R as [y [C| ->] M|y L -> C| -> N|d y S D P].
  - apply t_step. exact (object_makes t x y I C M).
  - apply t_step. exact (binary_makes t y I M).
  - apply t_step. exact (binary_compiles t y I L C).
  - apply t_step. destruct (part_of sha1 needed ts rs ND G t I) as (de & li & IN & _). split; [apply (sub_prerequisite _ _ _ _ IN); apply install_binary; exact N|exact (binary_in t I)].
  - apply (way_way _ (install_path d)); [|exact (part_way d y (proj1 (proj2 D)) P)]. destruct S as [S|[S [-> | ->]]].
    + apply t_step. exact (step_depends t x d (step_compiles_or_makes t x S) D).
    + exact (solid_way t d S D).
    + pose proof (solid_way t d S D) as W. pose proof (install_way t I) as V. apply clos_rt_rt1n in V. induction V as [|u v w E V IH]; [exact W|]. apply (t_trans _ _ _ v); [apply t_step; exact E|exact (IH W)].
Qed.
(** The rules. *)
Variables (exec : tool) (tr : string -> bool) (text : string -> string -> string) (order : list string).
Hypothesis (SC : schedule rs order) (NO : NoDup order) (CA : careful ts rs exec tr text) (SO : forall t, In t ts -> sourced ts t).
Let R := commands ts rs text order.
Lemma outs_commands : outs R = filter (fun x => mem x (all_deps ts)) order.
Proof. unfold R, commands, outs. rewrite map_map. cbn [rule_of out]. apply map_id. Qed.
Lemma in_outs : forall x, In x (outs R) <-> In x order /\ In x (all_deps ts).
Proof. intros x. rewrite outs_commands, filter_In, mem_In. reflexivity. Qed.
Lemma in_commands : forall r, In r R -> exists t x, r = rule_of rs (the_text rs text) x /\ In x order /\ In x (all_deps ts) /\ In t ts /\ noticed t x.
Proof.
  intros r I. unfold R, commands in I. apply in_map_iff in I. destruct I as (x & <- & I). apply filter_In in I. destruct I as [I J]. apply mem_In in J. pose proof J as K. apply (commanded_iff ts x SI) in K. destruct K as (t & T & N). exists t, x. auto.
Qed.
Lemma way_before : forall x y, way x y -> In x order -> before R (rule_of rs (the_text rs text) x) y.
Proof.
  intros x y W. apply clos_trans_t1n in W. induction W as [x y [P _]|x y z [P D] W IH]; intros I.
  - apply before_direct. apply all_in. exact P.
  - apply (before_through R _ (rule_of rs (the_text rs text) y)).
    + unfold R, commands. apply in_map. apply filter_In. split; [|apply mem_In; exact D]. apply in_split in I. destruct I as (a & b & E). rewrite E. apply in_or_app. left. exact (SC a x b E y P (commanded_made y D)).
    + apply all_in. exact P.
    + apply IH. apply in_split in I. destruct I as (a & b & E). rewrite E. apply in_or_app. left. exact (SC a x b E y P (commanded_made y D)).
Qed.
Lemma project_good : good exec tr R.
Proof.
  split; [|split].
  - constructor.
    + rewrite outs_commands. apply NoDup_filter. exact NO.
    + intros a r b x E I J. unfold R, commands in E. apply map_eq_app in E. destruct E as (oa & ob' & E & _ & E2). apply map_eq_cons in E2. destruct E2 as (z & ob & -> & <- & <-).
      destruct (filter_split _ _ _ _ _ E) as (A & B & EO & _ & FB). cbn [rule_of inputs after] in I. apply all_in in I.
      assert (X : In x (z :: ob)). { cbn [outs map] in J. unfold outs in J. rewrite map_map in J. cbn [rule_of out] in J. rewrite map_id in J. exact J. }
      assert (XD : In x (all_deps ts)). { assert (K : In x (filter (fun x => mem x (all_deps ts)) order)) by (rewrite E; apply in_or_app; right; exact X). apply filter_In in K. apply mem_In. apply K. }
      assert (XA : In x A) by exact (SC A z B EO x I (commanded_made x XD)).
      assert (XB : In x (z :: B)). { destruct X as [X|X]; [left; exact X|right]. rewrite <- FB in X. apply filter_In in X. apply X. }
      rewrite EO in NO. clear - NO XA XB. induction A as [|y A IH]; [destruct XA|]. cbn [app] in NO. apply NoDup_cons_iff in NO. destruct NO as [N1 N2]. destruct XA as [->|XA]; [apply N1; apply in_or_app; right; exact XB|exact (IH N2 XA)].
    + intros r f c reads x I E J K. destruct (in_commands r I) as (t & z & -> & ZO & ZD & T & N). apply way_before; [|exact ZO]. apply (read_way t z x T). apply (allowed _ _ _ _ _ CA t z f c reads x T N E J). apply (commanded_iff ts x SI). apply in_outs. exact K.
    + intros r f c reads x I Q E J. destruct (in_commands r I) as (t & z & -> & ZO & ZD & T & N). cbn [rule_of command inputs] in *. apply (listed_needs t z x T). apply (announced _ _ _ _ _ CA t z f c reads x T N); [|exact E|exact J].
      intros C. destruct (compile_line t z T C) as [c0 L]. assert (Z : the_text rs text z = text z c0) by (unfold the_text; rewrite L; reflexivity). rewrite Z in Q. rewrite (proj2 (marked _ _ _ _ _ CA z c0)) in Q; [discriminate|]. rewrite L. left. reflexivity.
  - intros r I. destruct (in_commands r I) as (t & z & -> & _ & _ & T & N). exact (noticed_fed t z T (SO t T) N).
  - intros r I. destruct (in_commands r I) as (t & z & -> & _ & _ & T & N). exact (readable _ _ _ _ _ CA t z T N).
Qed.
Lemma remake_command : forall st t x, In t ts -> noticed t x -> remake exec text rs (all_deps ts) st x = do_cmd exec tr st (rule_of rs (the_text rs text) x).
Proof.
  intros st t x T N. pose proof (commanded_in t x T N) as D. destruct (lines_one rs _ x covered DI D) as [c L]. pose proof (noticed_runs sha1 needed ts rs ND G t x st (the_text rs text) T N) as Q.
  assert (OD : out_of_date rs (all_deps ts) st x = true) by (unfold out_of_date; rewrite (noticed_forced sha1 needed ts rs ND G t x T N); reflexivity).
  unfold remake, do_cmd. rewrite OD, <- Q. destruct (marked _ _ _ _ _ CA x c) as [M1 M2]. cbn [rule_of command out]. destruct L as [L|L]; unfold the_text; rewrite L; cbn [run_lines run_line].
  - rewrite (M1 ltac:(rewrite L; left; reflexivity)). destruct (runs rs (all_deps ts) st x (text x c)); [|reflexivity]. unfold execute. destruct (exec (text x c) (contents st)) as [[v reads]|]; reflexivity.
  - rewrite (M2 ltac:(rewrite L; left; reflexivity)). destruct (runs rs (all_deps ts) st x (text x c)); [|reflexivity]. unfold execute. destruct (exec (text x c) (contents st)) as [[v reads]|]; reflexivity.
Qed.
Lemma build_make : forall l st, build exec text rs (all_deps ts) l st = make exec tr (commands ts rs text l) st.
Proof.
  induction l as [|x l IH]; intros st; [reflexivity|]. cbn [build]. unfold commands. cbn [filter]. destruct (mem x (all_deps ts)) eqn:M.
  - apply mem_In in M. apply (commanded_iff ts x SI) in M. destruct M as (t & T & N). rewrite (remake_command st t x T N). cbn [map make]. destruct (do_cmd exec tr st (rule_of rs (the_text rs text) x)); [apply IH|reflexivity].
  - apply mem_false in M. assert (Q : remake exec text rs (all_deps ts) st x = Some st) by (unfold remake; rewrite (lines_none rs _ x covered M); destruct (out_of_date rs (all_deps ts) st x); reflexivity). rewrite Q. apply IH.
Qed.
Lemma project_incremental : forall st, honest exec -> history exec tr st ->
  match from_scratch exec R (contents st) with
  | Some fs => exists st', build exec text rs (all_deps ts) order st = (st', true) /\ forall x, contents st' x = fs x
  | None => snd (build exec text rs (all_deps ts) order st) = false
  end.
Proof. intros st HO HI. rewrite build_make. exact (incremental exec tr HO st R HI project_good). Qed.
Lemma project_nothing : forall st st', honest exec -> history exec tr st -> finds exec R -> build exec text rs (all_deps ts) order st = (st', true) -> build exec text rs (all_deps ts) order st' = (st', true).
Proof. intros st st' HO HI FI. rewrite !build_make. exact (nothing_twice exec tr HO st R st' HI project_good FI). Qed.
Lemma project_history : forall st, history exec tr st -> history exec tr (fst (build exec text rs (all_deps ts) order st)).
Proof. intros st H. rewrite build_make. apply (built exec tr st R [] H). rewrite app_nil_r. exact project_good. Qed.
End Good.
