(** The commands of a simple project: one for each of its files. *)
From Verif Require Import Lib Str LibFacts StrFacts Model_Names Model_Path Model_Make Model_Writer Model_Remake Spec_Make Spec_Writer Spec_Remake Proof_Make Proof_Writer Proof_Writer2 Proof_Remake.
Local Open Scope string_scope.

Definition acts (r : written) : bool := match recipe r with [] => false | _ => true end.
Definition single_line (r : written) : Prop := exists c, recipe r = [Do c] \/ recipe r = [Do_tracked c].
Definition one (x : string) : list string := [x].
(** The rules with recipes are those of the files in a list, in order. *)
Definition covers (rs : list written) (l : list string) : Prop := map heads (filter acts rs) = map one l /\ Forall single_line (filter acts rs).
Lemma covers_nil : covers [] [].
Proof. split; [reflexivity|constructor]. Qed.
Lemma covers_app : forall a b l m, covers a l -> covers b m -> covers (a ++ b) (l ++ m).
Proof. intros a b l m [A1 A2] [B1 B2]. split; rewrite filter_app. - rewrite !map_app, A1, B1. reflexivity. - apply Forall_app. split; assumption. Qed.
Lemma covers_flat : forall A (f : A -> list written) (g : A -> list string) l, (forall a, In a l -> covers (f a) (g a)) -> covers (flat_map f l) (flat_map g l).
Proof. intros A f g. induction l as [|a l IH]; intros H; [exact covers_nil|]. cbn [flat_map]. apply covers_app; [apply H; left; reflexivity|apply IH; intros b I; apply H; right; exact I]. Qed.
Lemma covers_map : forall A (f : A -> list written) (g : A -> string) l, (forall a, In a l -> covers (f a) [g a]) -> covers (flat_map f l) (map g l).
Proof. intros A f g. induction l as [|a l IH]; intros H; [exact covers_nil|]. cbn [flat_map map]. apply (covers_app _ _ [g a]); [apply H; left; reflexivity|apply IH; intros b I; apply H; right; exact I]. Qed.
Lemma covers_do : forall o ins force c, covers [{| heads := [o]; needs := ins; orders := []; forced := force; recipe := [Do c] |}] [o].
Proof. intros. split; [reflexivity|]. constructor; [exists c; left; reflexivity|constructor]. Qed.
Lemma covers_none : forall l, (forall r, In r l -> recipe r = []) -> covers l [].
Proof. induction l as [|r l IH]; intros H; [exact covers_nil|]. assert (A : acts r = false) by (unfold acts; rewrite (H r (or_introl eq_refl)); reflexivity). unfold covers. cbn [filter]. rewrite A. apply IH. intros q I. apply H. right. exact I. Qed.
Section Lines.
Variable sha1 : string -> string.
Lemma covers_order : forall a b, covers (write_order sha1 a b) [].
Proof. intros a b. apply covers_none. intros r [<-|[]]. reflexivity. Qed.
Lemma covers_phony : forall a b, covers (write_phony sha1 [a] b) [].
Proof. intros a b. apply covers_none. intros r [<-|[]]. reflexivity. Qed.
Lemma covers_cond : forall (b : bool) l, covers l [] -> covers (if b then l else []) [].
Proof. intros [|] l H; [exact H|exact covers_nil]. Qed.
Lemma covers_two : forall a b, covers a [] -> covers b [] -> covers (a ++ b) [].
Proof. intros a b A B. exact (covers_app a b [] [] A B). Qed.
Lemma covers_skip : forall a b l, covers a [] -> covers b l -> covers (a ++ b) l.
Proof. intros a b l A B. exact (covers_app a b [] l A B). Qed.
Lemma covers_stop : forall a b l, covers a l -> covers b [] -> covers (a ++ b) l.
Proof. intros a b l A B. rewrite <- (app_nil_r l). exact (covers_app a b l [] A B). Qed.
Lemma covers_sources : forall t deps, covers (write_sources sha1 t deps) (objects t).
Proof.
  intros t deps. unfold write_sources. apply covers_skip; [destruct deps; [exact covers_nil|apply covers_order]|]. apply covers_skip; [apply covers_cond; apply covers_order|].
  unfold objects. apply covers_map. intros s _. split; [reflexivity|]. constructor; [eexists; right; reflexivity|constructor].
Qed.
Lemma covers_binary : forall t deps li, type t <> Static_library -> covers (write_binary sha1 t deps li) [binary t].
Proof. intros t deps li T. unfold write_binary. destruct (type t); try contradiction; try apply covers_do. Qed.
Lemma covers_all : forall t deps li part, simple t -> covers (write_all sha1 t deps li part) (tracked t).
Proof.
  intros t deps li part (R & T & O). unfold write_all, tracked. rewrite R. cbn [flat_map app]. apply covers_app.
  { apply covers_flat. intros a I. destruct (O a I) as [o E]. unfold write_action, action_files. rewrite E. apply covers_do. }
  apply covers_app.
  { apply covers_flat. intros c _. unfold write_copy, copy_files_of. apply covers_map. intros f _. apply covers_do. }
  apply covers_app.
  { destruct (sources t ++ extra_sources t)%list as [|s l] eqn:E; [|apply covers_sources]. unfold objects, compiled. rewrite E. exact covers_nil. }
  unfold write_final. apply covers_skip; [apply covers_cond; apply covers_two; apply covers_order|].
  apply covers_app; [destruct (type t) eqn:K; try (rewrite <- K in *); try contradiction; apply covers_binary; congruence|].
  apply covers_skip; [apply covers_cond; apply covers_two; [apply covers_phony|apply covers_cond; apply covers_phony]|].
  destruct (installable t); [|exact covers_nil]. cbn [andb]. apply covers_skip; [apply covers_phony|]. apply covers_stop.
  - destruct (String.eqb (install_path t) (binary t)); [exact covers_nil|apply covers_do].
  - apply covers_two; [|apply covers_cond; apply covers_phony]. destruct (String.eqb (alias t) (binary t) || String.eqb (alias t) (target_name t)); [exact covers_nil|apply covers_phony].
Qed.
Lemma covers_generate : forall needed ts k rs, Forall simple ts -> generate sha1 needed k ts = Some rs -> covers rs (all_deps ts).
Proof.
  intros needed. induction ts as [|t ts IH]; intros k rs S G; cbn [generate] in G.
  - injection G as <-. exact covers_nil.
  - destruct (acceptable t); [|discriminate]. destruct (compute_deps k t) as [[de li]|]; [|discriminate]. destruct (generate sha1 needed (learn k t) ts) as [rs'|] eqn:Q; [|discriminate]. injection G as <-.
    unfold all_deps. cbn [flat_map]. apply covers_app; [apply covers_all; exact (Forall_inv S)|exact (IH _ _ (Forall_inv_tail S) Q)].
Qed.
End Lines.
(** So a file has one line, and other names none. *)
Lemma lines_filter : forall rs x, lines_of rs x = flat_map recipe (filter (fun r => mem x (heads r)) (filter acts rs)).
Proof.
  intros rs x. unfold lines_of, rules_for. induction rs as [|r rs IH]; [reflexivity|]. cbn [filter]. unfold acts at 1. destruct (recipe r) as [|l m] eqn:E.
  - destruct (mem x (heads r)); [cbn [flat_map]; rewrite E; exact IH|exact IH].
  - cbn [filter]. destruct (mem x (heads r)); [cbn [flat_map]; rewrite IH; reflexivity|exact IH].
Qed.
Lemma no_lines : forall L D x, map heads L = map one D -> ~ In x D -> filter (fun r => mem x (heads r)) L = [].
Proof.
  induction L as [|r L IH]; intros D x E N; [reflexivity|]. destruct D as [|d D]; [discriminate|]. cbn [map] in E. injection E as E1 E2. cbn [filter]. rewrite E1.
  assert (M : mem x (one d) = false) by (apply mem_false; intros [H|[]]; apply N; left; exact H). rewrite M. apply (IH D x E2). intros H. apply N. right. exact H.
Qed.
Lemma one_line : forall L D x, map heads L = map one D -> Forall single_line L -> NoDup D -> In x D -> exists r c, In r L /\ heads r = [x] /\ filter (fun r => mem x (heads r)) L = [r] /\ (recipe r = [Do c] \/ recipe r = [Do_tracked c]).
Proof.
  induction L as [|r L IH]; intros D x E F N I; destruct D as [|d D]; try discriminate; [destruct I|]. cbn [map] in E. injection E as E1 E2. cbn [filter]. rewrite E1. apply NoDup_cons_iff in N. destruct N as [N1 N2]. destruct I as [->|I].
  - assert (M : mem x (one x) = true) by (apply mem_In; left; reflexivity). rewrite M, (no_lines L D x E2 N1). destruct (Forall_inv F) as [c C]. exists r, c. split; [left; reflexivity|]. auto.
  - assert (M : mem x (one d) = false) by (apply mem_false; intros [H|[]]; subst d; contradiction). rewrite M. destruct (IH D x E2 (Forall_inv_tail F) N2 I) as (q & c & Q & H). exists q, c. split; [right; exact Q|exact H].
Qed.
Lemma lines_none : forall rs D x, covers rs D -> ~ In x D -> lines_of rs x = [].
Proof. intros rs D x [C _] N. rewrite lines_filter, (no_lines _ _ _ C N). reflexivity. Qed.
Lemma lines_one : forall rs D x, covers rs D -> NoDup D -> In x D -> exists c, lines_of rs x = [Do c] \/ lines_of rs x = [Do_tracked c].
Proof. intros rs D x [C F] N I. destruct (one_line _ _ _ C F N I) as (r & c & _ & _ & E & R). exists c. rewrite lines_filter, E. cbn [flat_map]. rewrite app_nil_r. exact R. Qed.
Lemma lines_in : forall rs r x l, In r rs -> In x (heads r) -> In l (recipe r) -> In l (lines_of rs x).
Proof. intros rs r x l R H L. unfold lines_of, rules_for. apply in_flat_map. exists r. split; [apply filter_In; split; [exact R|apply mem_In; exact H]|exact L]. Qed.
Lemma simple_noticed : forall t x, simple t -> In x (tracked t) -> noticed t x.
Proof.
  intros t x (R & T & O) I. unfold tracked in I. rewrite R in I. cbn [flat_map app] in I. apply in_app_or in I. destruct I as [I|I]; [|apply in_app_or in I; destruct I as [I|I]; [|apply in_app_or in I; destruct I as [I|I]; [|apply in_app_or in I; destruct I as [I|I]]]].
  - apply in_flat_map in I. destruct I as (a & A & I). destruct (O a A) as [o E]. unfold action_files in I. rewrite E in I. destruct I as [<-|[]]. exact (noticed_action t a o A E).
  - apply in_flat_map in I. destruct I as (c & C & I). apply in_map_iff in I. destruct I as (f & <- & F). exact (noticed_copy t c f C F).
  - apply compiles_iff in I. destruct I as (s & S & C & ->). exact (noticed_object t s S C).
  - assert (x = binary t) as -> by (destruct (type t); try contradiction; destruct I as [->|[]]; reflexivity). exact (noticed_product t T).
  - destruct (installable t) eqn:Q; [|destruct I]. destruct (String.eqb_spec (install_path t) (binary t)) as [E|N]; [destruct I|]. destruct I as [<-|[]]. exact (noticed_install t Q N).
Qed.
Lemma commanded_iff : forall ts x, Forall simple ts -> (commanded ts x <-> In x (all_deps ts)).
Proof.
  intros ts x S. unfold commanded, all_deps. rewrite in_flat_map. split; intros (t & I & H); exists t; (split; [exact I|]); [exact (noticed_tracked t x H)|]. apply simple_noticed; [|exact H]. rewrite Forall_forall in S. exact (S t I).
Qed.
