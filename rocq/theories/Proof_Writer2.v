From Verif Require Import Lib Str LibFacts StrFacts Model_Names Model_Path Model_Graph Model_Writer Spec_Writer Proof_Writer.
Local Open Scope string_scope.

Lemma makes_iff : forall t x, makes t x <-> In x (generated t).
Proof.
  intros t x. unfold generated. rewrite !in_app_iff, !in_flat_map. split.
  - intros [a o I J|r s o I J K|c f I J].
    + left. exists a. split; [exact I|]. unfold action_files. apply in_map. exact J.
    + right. left. exists r. split; [exact I|]. unfold rule_files. apply in_flat_map. exists s. split; [exact J|]. apply in_map. exact K.
    + right. right. exists c. split; [exact I|]. unfold copy_files_of. apply in_map. exact J.
  - intros [(a & I & J)|[(r & I & J)|(c & I & J)]].
    + unfold action_files in J. apply in_map_iff in J. destruct J as (o & <- & J). exact (makes_action t a o I J).
    + unfold rule_files in J. apply in_flat_map in J. destruct J as (s & J & K). apply in_map_iff in K. destruct K as (o & <- & K). exact (makes_rule t r s o I J K).
    + unfold copy_files_of in J. apply in_map_iff in J. destruct J as (f & <- & J). exact (makes_copy t c f I J).
Qed.
Lemma compiles_iff : forall t x, compiles t x <-> In x (objects t).
Proof.
  intros t x. unfold objects, compiled, compiles. rewrite in_map_iff. split.
  - intros (s & I & C & ->). exists s. split; [reflexivity|]. apply filter_In. split; assumption.
  - intros (s & <- & F). apply filter_In in F. exists s. split; [exact (proj1 F)|split; [exact (proj2 F)|reflexivity]].
Qed.
Lemma has_generated_makes : forall t x, makes t x -> has_generated t = true.
Proof. intros t x [a o I _|r s o I _ _|c f I _]; unfold has_generated; destruct (actions t), (rules t), (copies t); try reflexivity; destruct I. Qed.
Lemma sources_compiles : forall t x, compiles t x -> (sources t ++ extra_sources t)%list <> [].
Proof. intros t x (s & I & _) E. rewrite E in I. destruct I. Qed.
Lemma sub_prerequisite : forall rs rs' x y, incl rs rs' -> prerequisite rs x y -> prerequisite rs' x y.
Proof. intros rs rs' x y I (r & R & H). exists r. split; [exact (I r R)|exact H]. Qed.
Lemma sub_made : forall rs rs' x, incl rs rs' -> made rs x -> made rs' x.
Proof. intros rs rs' x I (r & R & H). exists r. split; [exact (I r R)|exact H]. Qed.
Lemma prerequisite_made : forall rs x y, prerequisite rs x y -> made rs x.
Proof. intros rs x y (r & R & H & _). exists r. split; assumption. Qed.

Section One.
Variable sha1 : string -> string.
Variables (t : target) (deps link_deps : list string) (part : bool).
Let W := write_all sha1 t deps link_deps part.
Lemma order_edge : forall outs ins x y, In x outs -> In y ins -> prerequisite (write_order sha1 outs ins) x y.
Proof. intros outs ins x y I J. eexists. split; [left; reflexivity|]. split; [exact I|exact J]. Qed.
Lemma in_sources : forall x, compiles t x -> incl (write_sources sha1 t deps) W.
Proof.
  intros x C. unfold W, write_all. do 3 apply incl_appr. apply incl_appl. pose proof (sources_compiles t x C) as N. destruct (sources t ++ extra_sources t)%list; [congruence|apply incl_refl].
Qed.
Lemma in_final : incl (write_final sha1 t deps (objects t ++ linked t ++ link_deps) part) W.
Proof. unfold W, write_all. do 4 apply incl_appr. apply incl_refl. Qed.
Lemma object_deps : forall x y, compiles t x -> In y deps -> prerequisite W x y.
Proof.
  intros x y C D. apply (sub_prerequisite _ _ _ _ (in_sources x C)). unfold write_sources. assert (E : match deps with [] => [] | _ :: _ => write_order sha1 (objects t) deps end = write_order sha1 (objects t) deps) by (destruct deps; [destruct D|reflexivity]).
  rewrite E. apply (sub_prerequisite (write_order sha1 (objects t) deps)); [apply incl_appl, incl_refl|]. apply order_edge; [apply compiles_iff; exact C|exact D].
Qed.
Lemma object_generated : forall x y, compiles t x -> makes t y -> prerequisite W x y.
Proof.
  intros x y C M. apply (sub_prerequisite _ _ _ _ (in_sources x C)). unfold write_sources. rewrite (has_generated_makes t y M).
  apply (sub_prerequisite (write_order sha1 (objects t) (generated t))); [apply incl_appr, incl_appl, incl_refl|]. apply order_edge; [apply compiles_iff; exact C|apply makes_iff; exact M].
Qed.
Lemma object_source : forall s, In s (sources t ++ extra_sources t) -> compilable s = true -> prerequisite W (object_of t s) (input t s).
Proof.
  intros s I C. apply (sub_prerequisite _ _ _ _ (in_sources (object_of t s) (ex_intro _ s (conj I (conj C eq_refl))))). unfold write_sources.
  apply (sub_prerequisite (write_object t s)); [do 2 apply incl_appr; intros r R; apply in_flat_map; exists s; split; [unfold compiled; apply filter_In; split; assumption|exact R]|]. eexists. split; [left; reflexivity|]. split; [left; reflexivity|left; reflexivity].
Qed.
Lemma generated_deps : forall x y, makes t x -> In y deps -> prerequisite W x y.
Proof.
  intros x y M D. apply (sub_prerequisite _ _ _ _ in_final). unfold write_final. rewrite (has_generated_makes t x M).
  apply (sub_prerequisite (write_order sha1 (generated t) deps)); [apply incl_appl, incl_appr, incl_refl|]. apply order_edge; [apply makes_iff; exact M|exact D].
Qed.
Lemma binary_generated : forall y, makes t y -> prerequisite W (binary t) y.
Proof.
  intros y M. apply (sub_prerequisite _ _ _ _ in_final). unfold write_final. rewrite (has_generated_makes t y M).
  apply (sub_prerequisite (write_order sha1 [binary t] (generated t))); [apply incl_appl, incl_appl, incl_refl|]. apply order_edge; [left; reflexivity|apply makes_iff; exact M].
Qed.
Lemma in_binary : incl (write_binary sha1 t deps (objects t ++ linked t ++ link_deps)) W.
Proof. intros r R. apply in_final. unfold write_final. apply in_or_app. right. apply in_or_app. left. exact R. Qed.
Lemma single : forall o ins lines force c, write_rule sha1 [o] ins lines false force c = [{| heads := [o]; needs := ins; orders := []; forced := force; recipe := lines |}].
Proof. reflexivity. Qed.
Lemma binary_link : forall y, links t -> In y (objects t ++ linked t ++ link_deps) -> prerequisite W (binary t) y.
Proof.
  intros y L I. apply (sub_prerequisite _ _ _ _ in_binary). unfold write_binary, write_do_cmd, links in *.
  destruct (type t); try (eexists; split; [left; reflexivity|]; split; [left; reflexivity|]; cbn [needs orders]; rewrite app_nil_r; exact I). congruence.
Qed.
Lemma stamp_deps : forall y, type t = None_ -> In y deps -> prerequisite W (binary t) y.
Proof. intros y L I. apply (sub_prerequisite _ _ _ _ in_binary). unfold write_binary, write_do_cmd. rewrite L. eexists; split; [left; reflexivity|]; split; [left; reflexivity|]; cbn [needs orders]; rewrite app_nil_r; exact I. Qed.
Lemma binary_made : made W (binary t).
Proof. apply (sub_made _ _ _ in_binary). unfold write_binary, write_do_cmd. destruct (type t); eexists; (split; [left; reflexivity|left; reflexivity]). Qed.
Lemma install_binary : install_path t <> binary t -> prerequisite W (install_path t) (binary t).
Proof.
  intros N. apply (sub_prerequisite _ _ _ _ in_final). unfold write_final. assert (I : installable t = true) by (unfold install_path in N; destruct (installable t); [reflexivity|congruence]). rewrite I.
  apply (sub_prerequisite (write_do_cmd sha1 [install_path t] [binary t] "copy")).
  - do 3 apply incl_appr. apply incl_appr, incl_appl. destruct (String.eqb_spec (install_path t) (binary t)); [contradiction|apply incl_refl].
  - eexists; split; [left; reflexivity|]; split; [left; reflexivity|left; reflexivity].
Qed.
Lemma install_made : made W (install_path t).
Proof. destruct (String.eqb_spec (install_path t) (binary t)) as [->|N]; [exact binary_made|exact (prerequisite_made _ _ _ (install_binary N))]. Qed.
Lemma object_made : forall x, compiles t x -> made W x.
Proof. intros x (s & I & C & ->). exact (prerequisite_made _ _ _ (object_source s I C)). Qed.
Lemma rule_heads : forall outs ins lines force c x, In x outs -> made (write_rule sha1 outs ins lines false force c) x.
Proof. intros outs ins lines force c x I. unfold write_rule. destruct outs as [|a [|b l]]; [destruct I| |]; eexists; (split; [left; reflexivity|exact I]). Qed.
Lemma generated_made : forall x, makes t x -> made W x.
Proof.
  intros x M. apply (sub_made (write_order sha1 (generated t) deps)).
  - intros r R. apply in_final. unfold write_final. rewrite (has_generated_makes t x M). apply in_or_app. left. apply in_or_app. right. exact R.
  - eexists. split; [left; reflexivity|]. apply makes_iff. exact M.
Qed.
(** all *)
Lemma all_asks : binary t <> target_name t -> part = true -> asked W "all" (install_path t).
Proof.
  intros Q P. destruct (installable t) eqn:I.
  - apply (asked_for _ _ "all"); [constructor|]. apply (sub_prerequisite _ _ _ _ in_final). unfold write_final. rewrite I, P. apply (sub_prerequisite (write_phony sha1 ["all"] [install_path t])); [do 6 apply incl_appr; apply incl_refl|].
    eexists; split; [left; reflexivity|]; split; left; reflexivity.
  - assert (E : install_path t = binary t) by (unfold install_path; rewrite I; reflexivity). rewrite E.
    assert (K : match type t with Executable | Loadable_module | Shared_library => true | _ => false end = false) by (unfold installable in I; destruct (type t); try discriminate; reflexivity).
    assert (NN : String.eqb (binary t) (target_name t) = false) by (destruct (String.eqb_spec (binary t) (target_name t)); [contradiction|reflexivity]).
    apply (asked_for _ _ (target_name t)); [apply (asked_for _ _ "all"); [constructor|]|]; apply (sub_prerequisite _ _ _ _ in_final); unfold write_final; rewrite NN, K, P; cbn [negb andb].
    + apply (sub_prerequisite (write_phony sha1 ["all"] [target_name t])); [do 2 apply incl_appr; apply incl_appl, incl_appr, incl_refl|]. eexists; split; [left; reflexivity|]; split; left; reflexivity.
    + apply (sub_prerequisite (write_phony sha1 [target_name t] [binary t])); [do 2 apply incl_appr; apply incl_appl, incl_appl, incl_refl|]. eexists; split; [left; reflexivity|]; split; left; reflexivity.
Qed.
(** By its name. *)
Lemma name_asks : asked W (target_name t) (install_path t).
Proof.
  destruct (installable t) eqn:I.
  - apply (asked_for _ _ (target_name t)); [constructor|]. apply (sub_prerequisite _ _ _ _ in_final). unfold write_final. rewrite I. apply (sub_prerequisite (write_phony sha1 [target_name t] [install_path t])); [do 3 apply incl_appr; apply incl_appl, incl_refl|].
    eexists; split; [left; reflexivity|]; split; left; reflexivity.
  - assert (E : install_path t = binary t) by (unfold install_path; rewrite I; reflexivity). rewrite E.
    assert (K : match type t with Executable | Loadable_module | Shared_library => true | _ => false end = false) by (unfold installable in I; destruct (type t); try discriminate; reflexivity).
    destruct (String.eqb (binary t) (target_name t)) eqn:NN; [apply String.eqb_eq in NN; rewrite NN; constructor|].
    apply (asked_for _ _ (target_name t)); [constructor|]. apply (sub_prerequisite _ _ _ _ in_final); unfold write_final; rewrite NN, K; cbn [negb andb].
    apply (sub_prerequisite (write_phony sha1 [target_name t] [binary t])); [do 2 apply incl_appr; apply incl_appl, incl_appl, incl_refl|]. eexists; split; [left; reflexivity|]; split; left; reflexivity.
Qed.
End One.

Lemma asked_trans : forall rs x y z, asked rs x y -> asked rs y z -> asked rs x z.
Proof. intros rs x y z A B. induction B as [|u v B IH P]; [exact A|exact (asked_for _ _ _ _ IH P)]. Qed.
Lemma sub_asked : forall rs rs' x y, incl rs rs' -> asked rs x y -> asked rs' x y.
Proof. intros rs rs' x y I A. induction A as [|u v A IH P]; [constructor|exact (asked_for _ _ _ _ IH (sub_prerequisite _ _ _ _ I P))]. Qed.
Section Whole.
Variable sha1 : string -> string.
Variable needed : string -> bool.
Variables (ts : list target) (rs : list written).
Hypothesis (ND : NoDup (map qualified ts)) (G : makefile sha1 needed ts = Some rs).
(** The product of every target that has one has a name. *)
Hypothesis (NE : forall t, In t ts -> install_path t <> "").
Lemma part_of : forall t, In t ts -> exists deps link_deps, incl (write_all sha1 t deps link_deps (needed (qualified t))) rs /\ has ts deps link_deps t.
Proof. exact (proj1 (makefile_parts sha1 needed ts rs ND G)). Qed.
Lemma product_made : forall t, In t ts -> made rs (install_path t) /\ made rs (binary t).
Proof. intros t I. destruct (part_of t I) as (de & li & IN & _). split; apply (sub_made _ _ _ IN); [apply install_made|apply binary_made]. Qed.
Lemma step_compiles_or_makes : forall t x, step t x -> compiles t x \/ makes t x.
Proof.
  intros t x [a o I E|r s o I J E|c f I J|s I C].
  - right. apply (makes_action t a o I). rewrite E. left. reflexivity.
  - right. apply (makes_rule t r s o I J). rewrite E. left. reflexivity.
  - right. exact (makes_copy t c f I J).
  - left. exists s. auto.
Qed.
Lemma asks_binary : forall t, In t ts -> asked rs (install_path t) (binary t).
Proof.
  intros t I. destruct (part_of t I) as (de & li & IN & _). apply (sub_asked _ _ _ _ IN). destruct (String.eqb_spec (install_path t) (binary t)) as [E|N]; [rewrite E; constructor|]. exact (asked_for _ _ _ _ (asked_itself _ _) (install_binary sha1 t de li _ N)).
Qed.
Lemma asks_makes : forall t x, In t ts -> makes t x -> asked rs (install_path t) x.
Proof. intros t x I M. apply (asked_for _ _ _ _ (asks_binary t I)). destruct (part_of t I) as (de & li & IN & _). apply (sub_prerequisite _ _ _ _ IN). apply binary_generated. exact M. Qed.
Lemma asks_compiles : forall t x, In t ts -> links t -> compiles t x -> asked rs (install_path t) x.
Proof. intros t x I L C. apply (asked_for _ _ _ _ (asks_binary t I)). destruct (part_of t I) as (de & li & IN & _). apply (sub_prerequisite _ _ _ _ IN). apply binary_link; [exact L|]. apply in_or_app. left. apply compiles_iff. exact C. Qed.
Lemma asks_depends : forall t d, depends ts t d -> solid t -> asked rs (install_path t) (install_path d).
Proof.
  intros t d D S. pose proof D as (I & J & _). destruct (part_of t I) as (de & li & IN & H). pose proof (proj1 H d D (NE d J)) as Y. assert (CASE : type t = None_ \/ type t <> None_) by (destruct (type t); auto; right; discriminate). destruct CASE as [T|T].
  - apply (asked_for _ _ _ _ (asks_binary t I)). apply (sub_prerequisite _ _ _ _ IN). apply stamp_deps; assumption.
  - destruct S as [S|[(x & C)|(x & M)]]; [contradiction| |].
    + apply (asked_for _ _ _ _ (asks_compiles t x I T C)). apply (sub_prerequisite _ _ _ _ IN). apply object_deps; assumption.
    + apply (asked_for _ _ _ _ (asks_makes t x I M)). apply (sub_prerequisite _ _ _ _ IN). apply generated_deps; assumption.
Qed.
Lemma asks_all : forall t, In t ts -> binary t <> target_name t -> needed (qualified t) = true -> asked rs "all" (install_path t).
Proof. intros t I N Q. destruct (part_of t I) as (de & li & IN & _). apply (sub_asked _ _ _ _ IN). apply all_asks; assumption. Qed.
Lemma asks_name : forall t, In t ts -> asked rs (target_name t) (install_path t).
Proof. intros t I. destruct (part_of t I) as (de & li & IN & _). apply (sub_asked _ _ _ _ IN). apply name_asks. Qed.
Variable order : list string.
Hypothesis (SC : schedule rs order).
Lemma steps_after : forall t d x, depends ts t d -> step t x -> first order (install_path d) x.
Proof.
  intros t d x D S. pose proof D as (I & J & _). destruct (part_of t I) as (de & li & IN & H). apply (first_direct rs); [exact SC| |exact (proj1 (product_made d J))].
  apply (sub_prerequisite _ _ _ _ IN). destruct (step_compiles_or_makes t x S) as [C|M]; [apply object_deps|apply generated_deps]; try assumption; exact (proj1 H d D (NE d J)).
Qed.
Lemma generated_before : forall t x y, In t ts -> makes t y -> compiles t x \/ x = binary t -> first order y x.
Proof.
  intros t x y I M C. destruct (part_of t I) as (de & li & IN & H). apply (first_direct rs); [exact SC| |apply (sub_made _ _ _ IN); apply generated_made; exact M].
  apply (sub_prerequisite _ _ _ _ IN). destruct C as [C| ->]; [apply object_generated; assumption|apply binary_generated; exact M].
Qed.
Lemma linked_after_objects : forall t x, In t ts -> links t -> compiles t x -> first order x (binary t).
Proof.
  intros t x I L C. destruct (part_of t I) as (de & li & IN & H). apply (first_direct rs); [exact SC| |apply (sub_made _ _ _ IN); apply object_made; exact C].
  apply (sub_prerequisite _ _ _ _ IN). apply binary_link; [exact L|]. apply in_or_app. left. apply compiles_iff. exact C.
Qed.
Lemma linked_after_libraries : forall t d, depends ts t d -> links t -> type d = Static_library \/ type d = Shared_library -> first order (binary d) (binary t).
Proof.
  intros t d D L T. pose proof D as (I & J & _). destruct (part_of t I) as (de & li & IN & H). apply (first_direct rs); [exact SC| |exact (proj2 (product_made d J))].
  apply (sub_prerequisite _ _ _ _ IN). apply binary_link; [exact L|]. apply in_or_app. right. apply in_or_app. right. exact (proj2 (proj1 (proj2 H) d D T)).
Qed.
Lemma installed_after : forall t, In t ts -> install_path t = binary t \/ first order (binary t) (install_path t).
Proof.
  intros t I. destruct (String.eqb_spec (install_path t) (binary t)) as [E|N]; [left; exact E|right]. destruct (part_of t I) as (de & li & IN & H). apply (first_direct rs); [exact SC| |exact (proj2 (product_made t I))].
  apply (sub_prerequisite _ _ _ _ IN). apply install_binary. exact N.
Qed.
Lemma before_product : forall t y, In t ts -> first order y (binary t) -> first order y (install_path t).
Proof. intros t y I F. destruct (installed_after t I) as [E|K]; [rewrite E; exact F|exact (first_trans _ _ _ _ F K)]. Qed.
Lemma product_after_makes : forall t y, In t ts -> makes t y -> first order y (install_path t).
Proof. intros t y I M. apply (before_product t y I). exact (generated_before t (binary t) y I M (or_intror eq_refl)). Qed.
Lemma product_after_objects : forall t y, In t ts -> links t -> compiles t y -> first order y (install_path t).
Proof. intros t y I L C. apply (before_product t y I). exact (linked_after_objects t y I L C). Qed.
Lemma solid_after : forall t d, depends ts t d -> solid t -> first order (install_path d) (install_path t).
Proof.
  intros t d D S. pose proof D as (I & J & _). assert (CASE : type t = None_ \/ type t <> None_) by (destruct (type t); auto; right; discriminate). destruct CASE as [T|T].
  - apply (before_product t _ I). destruct (part_of t I) as (de & li & IN & H). apply (first_direct rs); [exact SC| |exact (proj1 (product_made d J))]. apply (sub_prerequisite _ _ _ _ IN). apply stamp_deps; [exact T|]. exact (proj1 H d D (NE d J)).
  - destruct S as [S|[(x & C)|(x & M)]]; [contradiction| |].
    + apply (first_trans _ _ x); [|exact (product_after_objects t x I T C)]. destruct C as (s & IS & C & ->). exact (steps_after t d _ D (step_object t s IS C)).
    + apply (first_trans _ _ x); [|exact (product_after_makes t x I M)]. destruct (part_of t I) as (de & li & IN & H). apply (first_direct rs); [exact SC| |exact (proj1 (product_made d J))]. apply (sub_prerequisite _ _ _ _ IN). apply generated_deps; [exact M|]. exact (proj1 H d D (NE d J)).
Qed.
Lemma through_in : forall t d, through ts t d -> In d ts.
Proof. intros t d [d' (_ & I & _)|d' e _ _ (_ & I & _)]; exact I. Qed.
Lemma through_after : forall t d x, through ts t d -> step t x -> first order (install_path d) x.
Proof.
  intros t d x T S. induction T as [d D|d e T IH SO D]; [exact (steps_after t d x D S)|]. exact (first_trans _ _ _ _ (solid_after d e D SO) IH).
Qed.
End Whole.
