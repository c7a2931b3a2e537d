(** Examples and counterexamples. *)
From Verif Require Import Lib Str LibFacts StrFacts Model_Names Model_Path Model_Make Model_Writer Model_Remake Spec_Make Spec_Writer Spec_Remake Proof_Make Proof_Writer Proof_Writer2 Proof_Writer3 Proof_Remake Proof_Remake2 Proof_Remake3.
Local Open Scope string_scope.

(** A shared library, and an addon that uses it and generates a header. *)
Definition shared_util : target := plain_target "util" Shared_library [] ["src/util.c"; "src/util.h"] [].
Definition own_header : action := {| action_name := "header"; action_inputs := ["make.py"]; action_outputs := ["$(obj)/gen/config.h"]; action_command := ["python"; "make.py"]; outputs_are_sources := false |}.
Definition user : target := plain_target "addon" Loadable_module ["binding.gyp:util#target"] ["src/addon.cc"] [own_header].
Definition pair_project : list target := [shared_util; user].
Definition pair_rules : list written := match makefile id_sha everything pair_project with Some rs => rs | None => [] end.
Definition pair_order : list string :=
  ["$(obj).target/util/src/util.o"; "$(obj).target/libutil.so"; "$(builddir)/libutil.so"; "util"; "libutil.so"; "$(obj)/gen/config.h"; "$(obj).target/addon/src/addon.o"; "$(obj).target/libaddon.so"; "$(builddir)/libaddon.so"; "libaddon.so"; "addon"; "all"].
(** What the commands read. *)
Definition pair_reads : list (string * list string) :=
  [("cc $(obj).target/util/src/util.o", ["$(srcdir)/src/util.c"; "$(srcdir)/src/util.h"]);
   ("solink $(obj).target/libutil.so", ["$(obj).target/util/src/util.o"]);
   ("copy $(builddir)/libutil.so", ["$(obj).target/libutil.so"]);
   ("binding_gyp_addon_target_header $(obj)/gen/config.h", ["$(srcdir)/make.py"]);
   ("cxx $(obj).target/addon/src/addon.o", ["$(srcdir)/src/addon.cc"; "$(obj)/gen/config.h"; "$(srcdir)/src/util.h"]);
   ("solink_module $(obj).target/libaddon.so", ["$(obj).target/addon/src/addon.o"; "$(obj).target/libutil.so"]);
   ("copy $(builddir)/libaddon.so", ["$(obj).target/libaddon.so"])].
Definition reads_of (c : string) : list string := match assoc c pair_reads with Some l => l | None => [] end.
Definition pair_text (x c : string) : string := c ++ " " ++ x.
Definition pair_tracked (c : string) : bool := String.prefix "cc " c || String.prefix "cxx " c.
Fixpoint gather (f : string -> option string) (l : list string) : option string :=
  match l with [] => Some "" | y :: l' => match f y, gather f l' with Some a, Some b => Some (a ++ b) | _, _ => None end end.
Definition pair_exec : tool := fun c f => option_map (fun v => (v, reads_of c)) (gather f (reads_of c)).
Lemma gather_same : forall l f g, (forall x, In x l -> g x = f x) -> gather g l = gather f l.
Proof. induction l as [|y l IH]; intros f g H; [reflexivity|]. cbn [gather]. rewrite (H y (or_introl eq_refl)), (IH f g); [reflexivity|]. intros x I. apply H. right. exact I. Qed.
Lemma gather_found : forall l f v x, gather f l = Some v -> In x l -> f x <> None.
Proof. induction l as [|y l IH]; intros f v x H I; [destruct I|]; destruct I as [->|I]; cbn [gather] in H; destruct (f _) eqn:Q; try discriminate; destruct (gather f l) eqn:W; try discriminate. exact (IH f _ x W I). Qed.
Lemma pair_honest : honest pair_exec.
Proof.
  intros c f g r E H. unfold pair_exec in *. destruct (gather f (reads_of c)) as [v|] eqn:Q; [|discriminate]. cbn [option_map] in E. injection E as <-. cbn [snd] in H. rewrite (gather_same _ f g H), Q. reflexivity.
Qed.
Lemma pair_made : makefile id_sha everything pair_project = Some pair_rules.
Proof. vm_compute. reflexivity. Qed.
Lemma pair_schedule : schedule pair_rules pair_order.
Proof. apply schedule_sound. vm_compute. reflexivity. Qed.
Lemma pair_distinct : NoDup (map qualified pair_project).
Proof. cbn. repeat constructor; cbn; intuition discriminate. Qed.
Lemma pair_named : forall t, In t pair_project -> install_path t <> "".
Proof. intros t [<-|[<-|[]]]; vm_compute; discriminate. Qed.
Lemma pair_simple : Forall simple pair_project.
Proof.
  repeat constructor; try reflexivity; try (vm_compute; discriminate).
  - intros a [].
  - intros a [<-|[]]. eexists. reflexivity.
Qed.
Fixpoint distinct_b (l : list string) : bool := match l with [] => true | x :: l' => negb (mem x l') && distinct_b l' end.
Lemma distinct_sound : forall l, distinct_b l = true -> NoDup l.
Proof. induction l as [|x l IH]; intros H; [constructor|]. cbn [distinct_b] in H. apply andb_true_iff in H. destruct H as [H1 H2]. constructor; [apply mem_false; apply negb_true_iff; exact H1|exact (IH H2)]. Qed.
Lemma pair_deps : NoDup (all_deps pair_project).
Proof. apply distinct_sound. vm_compute. reflexivity. Qed.
Lemma pair_once : NoDup pair_order.
Proof. apply distinct_sound. vm_compute. reflexivity. Qed.
Lemma pair_depends : depends pair_project user shared_util.
Proof. split; [right; left; reflexivity|split; [left; reflexivity|left; reflexivity]]. Qed.
Lemma util_object : compiles shared_util "$(obj).target/util/src/util.o".
Proof. exists "src/util.c". split; [left; reflexivity|split; reflexivity]. Qed.
Lemma user_object : compiles user "$(obj).target/addon/src/addon.o".
Proof. exists "src/addon.cc". split; [left; reflexivity|split; reflexivity]. Qed.
Lemma user_header : makes user "$(obj)/gen/config.h".
Proof. apply (makes_action user own_header "$(obj)/gen/config.h"); left; reflexivity. Qed.
Lemma pair_sourced : forall t, In t pair_project -> sourced pair_project t.
Proof.
  intros t [<-|[<-|[]]]; (split; [|split]); try discriminate.
  - intros a [].
  - intros _. left. eexists. exact util_object.
  - intros a [<-|[]]. discriminate.
  - intros _. left. eexists. exact user_object.
Qed.
Lemma tracked_in : forall t x, noticed t x -> In x (tracked t).
Proof. exact noticed_tracked. Qed.
Definition util_files : list string := ["$(obj).target/util/src/util.o"; "$(obj).target/libutil.so"; "$(builddir)/libutil.so"].
Definition user_files : list string := ["$(obj)/gen/config.h"; "$(obj).target/addon/src/addon.o"; "$(obj).target/libaddon.so"; "$(builddir)/libaddon.so"].
Lemma util_noticed : forall x, noticed shared_util x -> In x util_files.
Proof. intros x N. apply noticed_tracked in N. vm_compute in N. vm_compute. exact N. Qed.
Lemma user_noticed : forall x, noticed user x -> In x user_files.
Proof. intros x N. apply noticed_tracked in N. vm_compute in N. vm_compute. exact N. Qed.
Lemma pair_reads_of : forall x f c reads, pair_exec (the_text pair_rules pair_text x) f = Some (c, reads) -> reads = reads_of (the_text pair_rules pair_text x).
Proof. intros x f c reads E. unfold pair_exec in E. destruct (gather f _); [|discriminate]. cbn [option_map] in E. injection E as _ <-. reflexivity. Qed.
Lemma not_commanded : forall y, mem y (all_deps pair_project) = false -> ~ commanded pair_project y.
Proof. intros y M C. apply (commanded_iff _ _ pair_simple) in C. apply mem_false in M. contradiction. Qed.
Lemma plain_b : forall c, negb (String.eqb c "") && negb (has_char "#" c) && negb (has_char "010" c) && match c with String a _ => negb (is_space a) | EmptyString => true end && negb (ends_with "\" c) = true -> (forall a, c <> a ++ "\") -> plain c.
Proof.
  intros c H E. rewrite !andb_true_iff, !negb_true_iff in H. destruct H as ((((H1 & H2) & H3) & H4) & _). split; [apply String.eqb_neq; exact H1|]. split; [exact H2|]. split; [exact H3|]. split; [|exact E].
  intros a t ->. apply negb_true_iff. exact H4.
Qed.
Lemma last_char : forall c a, has_char "\" c = false -> c <> a ++ "\".
Proof. intros c a H E. subst c. rewrite has_char_app in H. apply orb_false_iff in H. destruct H as [_ H]. discriminate. Qed.
Lemma pair_careful : careful pair_project pair_rules pair_exec pair_tracked pair_text.
Proof.
  constructor.
  - intros x c. destruct (mem x (all_deps pair_project)) eqn:M.
    + apply mem_In in M. vm_compute in M. destruct M as [<-|[<-|[<-|[<-|[<-|[<-|[<-|[]]]]]]]]; (split; intros L; vm_compute in L; destruct L as [L|[]]; try discriminate; injection L as <-; vm_compute; reflexivity).
    + assert (L : lines_of pair_rules x = []).
      { apply (lines_none _ (all_deps pair_project)); [apply (covers_generate id_sha everything pair_project _ _ pair_simple pair_made)|apply mem_false; exact M]. }
      rewrite L. split; intros [].
  - intros t x f c reads y I N E J C. apply pair_reads_of in E. subst reads. destruct I as [<-|[<-|[]]].
    + apply util_noticed in N. destruct N as [<-|[<-|[<-|[]]]]; vm_compute in J.
      * destruct J as [<-|[<-|[]]]; exfalso; revert C; apply not_commanded; vm_compute; reflexivity.
      * destruct J as [<-|[]]. apply read_object; [discriminate|reflexivity|exact util_object].
      * destruct J as [<-|[]]. apply (read_product pair_project shared_util); [reflexivity|vm_compute; discriminate].
    + apply user_noticed in N. destruct N as [<-|[<-|[<-|[<-|[]]]]]; vm_compute in J.
      * destruct J as [<-|[]]. exfalso. revert C. apply not_commanded. vm_compute. reflexivity.
      * destruct J as [<-|[<-|[<-|[]]]]; try (exfalso; revert C; apply not_commanded; vm_compute; reflexivity). apply read_generated; [left; exact user_object|exact user_header].
      * destruct J as [<-|[<-|[]]]; [apply read_object; [discriminate|reflexivity|exact user_object]|].
        apply (read_part pair_project user _ shared_util); [right; split; [right; left; eexists; exact user_object|left; reflexivity]|exact pair_depends|]. exact (part_binary pair_project shared_util).
      * destruct J as [<-|[]]. apply (read_product pair_project user); [reflexivity|vm_compute; discriminate].
  - intros t x f c reads y I N NC E J. apply pair_reads_of in E. subst reads. destruct I as [<-|[<-|[]]].
    + apply util_noticed in N. destruct N as [<-|[<-|[<-|[]]]]; vm_compute in J.
      * destruct NC. exact util_object.
      * destruct J as [<-|[]]. apply (listed_object pair_project shared_util); [discriminate|exact util_object].
      * destruct J as [<-|[]]. apply (listed_install pair_project shared_util). vm_compute. discriminate.
    + apply user_noticed in N. destruct N as [<-|[<-|[<-|[<-|[]]]]]; vm_compute in J.
      * destruct J as [<-|[]]. apply (listed_action pair_project user own_header "$(obj)/gen/config.h" "make.py"); [left; reflexivity|reflexivity|left; reflexivity].
      * destruct NC. exact user_object.
      * destruct J as [<-|[<-|[]]]; [apply (listed_object pair_project user); [discriminate|exact user_object]|apply (listed_library pair_project user shared_util); [discriminate|exact pair_depends|reflexivity]].
      * destruct J as [<-|[]]. apply (listed_install pair_project user). vm_compute. discriminate.
  - intros t x I N. assert (X : In x (util_files ++ user_files)) by (apply in_or_app; destruct I as [<-|[<-|[]]]; [left; exact (util_noticed x N)|right; exact (user_noticed x N)]).
    clear N. cbn [app util_files user_files] in X. destruct X as [<-|[<-|[<-|[<-|[<-|[<-|[<-|[]]]]]]]]; (apply plain_b; [vm_compute; reflexivity|intros a; apply last_char; vm_compute; reflexivity]).
Qed.
Definition from_sources (l : list (string * string)) : state :=
  {| files := fun x => option_map (fun c => {| content := c; time := 0 |}) (assoc x l); saved := fun _ => None; clock := 0 |}.
Definition pair_start : state := from_sources [("$(srcdir)/src/util.c", "u"); ("$(srcdir)/src/util.h", "h"); ("$(srcdir)/make.py", "m"); ("$(srcdir)/src/addon.cc", "a")].
Definition pair_built : state := fst (build pair_exec pair_text pair_rules (all_deps pair_project) pair_order pair_start).
(** A header is changed. *)
Definition pair_edited : state := write pair_built "$(srcdir)/src/util.h" "H".
Lemma pair_fresh : history pair_exec pair_tracked pair_start.
Proof. apply untouched; [reflexivity|]. intros f e E. unfold pair_start, from_sources in E. cbn [files] in E. destruct (assoc f _); [|discriminate]. cbn [option_map] in E. injection E as <-. apply Nat.le_refl. Qed.
Lemma pair_history : history pair_exec pair_tracked pair_edited.
Proof.
  apply edited; [|vm_compute; reflexivity]. apply (project_history id_sha everything pair_project pair_rules pair_distinct pair_made pair_named pair_simple pair_deps pair_exec pair_tracked pair_text pair_order pair_schedule pair_once pair_careful pair_sourced). exact pair_fresh.
Qed.
Lemma pair_finds : finds pair_exec (commands pair_project pair_rules pair_text pair_order).
Proof.
  intros r f c reads x I E J. unfold commands in I. apply in_map_iff in I. destruct I as (z & <- & I). cbn [rule_of command inputs] in *. apply filter_In in I. destruct I as [_ I]. apply mem_In in I.
  pose proof (pair_reads_of z f c reads E) as ->. assert (K : In x (reads_of (the_text pair_rules pair_text z))).
  { apply in_app_or in J. destruct J as [J|J]; [|exact J]. vm_compute in I. destruct I as [<-|[<-|[<-|[<-|[<-|[<-|[<-|[]]]]]]]]; vm_compute in J; vm_compute; tauto. }
  unfold pair_exec in E. destruct (gather f (reads_of (the_text pair_rules pair_text z))) as [v|] eqn:Q; [|discriminate]. exact (gather_found _ f v x Q K).
Qed.

(** A state with some files, of given times, and depfiles. *)
Definition some_state (l : list (string * nat)) (d : list (string * (string * list string))) : state :=
  {| files := fun x => option_map (fun n => {| content := ""; time := n |}) (assoc x l); saved := fun x => assoc x d; clock := 9 |}.
(** A project with a gyp rule. *)
Definition ruled : target :=
  {| qualified := "binding.gyp:ruled#target"; target_name := "ruled"; type := None_; toolset := "target"; path := ""; dependencies := []; sources := []; actions := []; Model_Writer.copies := [];
     rules := [{| rule_name := "idl"; rule_sources := ["a.idl"]; rule_inputs := []; rule_outputs := ["$(obj)/gen/%(INPUT_ROOT)s.h"]; rule_command := ["python"; "idl.py"]; rule_outputs_are_sources := false |}];
     product_prefix := None; product_name := None; product_extension := None; product_dir := None; standalone := false |}.
Definition ruled_rules : list written := match makefile id_sha everything [ruled] with Some rs => rs | None => [] end.
Lemma rule_unnoticed : ~ (forall sha1 needed ts rs t r s o st text, NoDup (map qualified ts) -> makefile sha1 needed ts = Some rs -> In t ts -> In r (rules t) -> In s (rule_sources r) -> rule_outputs_for r s = [o] ->
  reason rs st (output t o) text -> runs rs (all_deps ts) st (output t o) text = true).
Proof.
  intros H. specialize (H id_sha everything [ruled] ruled_rules ruled (hd {| rule_name := ""; rule_sources := []; rule_inputs := []; rule_outputs := []; rule_command := []; rule_outputs_are_sources := false |} (rules ruled)) "a.idl" "$(obj)/gen/a.h").
  specialize (H (some_state [("$(obj)/gen/a.h", 1); ("$(srcdir)/a.idl", 0)] [("$(obj)/gen/a.h", ("python idl.py --old", []))]) "python idl.py").
  assert (ND : NoDup (map qualified [ruled])) by (repeat constructor; intros []). assert (M : makefile id_sha everything [ruled] = Some ruled_rules) by (vm_compute; reflexivity).
  specialize (H ND M (or_introl eq_refl) (or_introl eq_refl) (or_introl eq_refl) eq_refl).
  assert (R : reason ruled_rules (some_state [("$(obj)/gen/a.h", 1); ("$(srcdir)/a.idl", 0)] [("$(obj)/gen/a.h", ("python idl.py --old", []))]) (output ruled "$(obj)/gen/a.h") "python idl.py") by (left; vm_compute; discriminate).
  specialize (H R). vm_compute in H. discriminate.
Qed.
(** A static library from which a source is taken away. *)
Definition archive2 : target := plain_target "ar" Static_library [] ["a.c"; "b.c"] [].
Definition archive1 : target := plain_target "ar" Static_library [] ["a.c"] [].
Definition archive_rules (t : target) : list written := match makefile id_sha everything [t] with Some rs => rs | None => [] end.
Definition archived : state := some_state [("$(obj).target/libar.a", 1); ("$(obj).target/ar/a.o", 0); ("$(obj).target/ar/b.o", 0)] [].
Lemma archive_feeds : forall y, feeds (archive_rules archive2) "$(obj).target/libar.a" y -> y = "$(obj).target/ar/a.o" \/ y = "$(obj).target/ar/b.o".
Proof. intros y F. apply needs_feeds in F. vm_compute in F. destruct F as [<-|[<-|[]]]; auto. Qed.
Lemma archive_kept : ~ (forall sha1 needed ts rs ts' rs' t t' st, NoDup (map qualified ts) -> makefile sha1 needed ts = Some rs -> NoDup (map qualified ts') -> makefile sha1 needed ts' = Some rs' ->
  In t ts -> In t' ts' -> type t = Static_library -> type t' = Static_library -> binary t = binary t' -> (forall y, feeds rs (binary t) y -> ~ late st (binary t) y) -> (exists y, feeds rs (binary t) y /\ ~ feeds rs' (binary t) y) ->
  out_of_date rs' (all_deps ts') st (binary t) = true).
Proof.
  intros H. specialize (H id_sha everything [archive2] (archive_rules archive2) [archive1] (archive_rules archive1) archive2 archive1 archived).
  assert (N1 : NoDup (map qualified [archive2])) by (repeat constructor; intros []). assert (N2 : NoDup (map qualified [archive1])) by (repeat constructor; intros []).
  assert (M1 : makefile id_sha everything [archive2] = Some (archive_rules archive2)) by (vm_compute; reflexivity). assert (M2 : makefile id_sha everything [archive1] = Some (archive_rules archive1)) by (vm_compute; reflexivity).
  assert (B2 : binary archive2 = "$(obj).target/libar.a") by (vm_compute; reflexivity). assert (B1 : binary archive1 = "$(obj).target/libar.a") by (vm_compute; reflexivity).
  specialize (H N1 M1 N2 M2 (or_introl eq_refl) (or_introl eq_refl) eq_refl eq_refl (eq_trans B2 (eq_sym B1))). rewrite B2 in H.
  assert (L : forall y, feeds (archive_rules archive2) "$(obj).target/libar.a" y -> ~ late archived "$(obj).target/libar.a" y).
  { intros y F. destruct (archive_feeds y F) as [-> | ->]; intros A; specialize (A {| content := ""; time := 1 |} {| content := ""; time := 0 |} eq_refl eq_refl); cbn in A; inversion A. }
  assert (D : exists y, feeds (archive_rules archive2) "$(obj).target/libar.a" y /\ ~ feeds (archive_rules archive1) "$(obj).target/libar.a" y).
  { exists "$(obj).target/ar/b.o". split; [apply needs_feeds; vm_compute; tauto|]. intros F. apply needs_feeds in F. vm_compute in F. destruct F as [F|[]]. discriminate. }
  specialize (H L D). vm_compute in H. discriminate.
Qed.
(** An action with two outputs. *)
Lemma two_again : ~ (forall sha1 needed ts rs t a r x st text, NoDup (map qualified ts) -> makefile sha1 needed ts = Some rs -> In t ts -> In a (actions t) -> In r rs -> In (Do (action_variable t (action_name a))) (recipe r) -> In x (heads r) ->
  ~ reason rs st x text -> runs rs (all_deps ts) st x text = false).
Proof.
  intros H. specialize (H id_sha everything two_project two_rules two_outputs (hd own_header (actions two_outputs))).
  specialize (H {| heads := ["binding_gyp_two_target_both.intermediate"]; needs := ["$(srcdir)/in.txt"]; orders := []; forced := true; recipe := [Do "touch"; Do "binding_gyp_two_target_both"] |} "binding_gyp_two_target_both.intermediate").
  pose (st := some_state [("binding_gyp_two_target_both.intermediate", 1); ("$(srcdir)/in.txt", 0)] [("binding_gyp_two_target_both.intermediate", ("python both.py", []))]). specialize (H st "python both.py").
  assert (ND : NoDup (map qualified two_project)) by (cbn; repeat constructor; cbn; intuition discriminate).
  assert (M : makefile id_sha everything two_project = Some two_rules) by (vm_compute; reflexivity).
  assert (R : In {| heads := ["binding_gyp_two_target_both.intermediate"]; needs := ["$(srcdir)/in.txt"]; orders := []; forced := true; recipe := [Do "touch"; Do "binding_gyp_two_target_both"] |} two_rules) by (vm_compute; tauto).
  specialize (H ND M (or_intror (or_introl eq_refl)) (or_introl eq_refl) R (or_intror (or_introl eq_refl)) (or_introl eq_refl)).
  assert (N : ~ reason two_rules st "binding_gyp_two_target_both.intermediate" "python both.py").
  { intros [O|(y & [F|(c & l & V & J)] & L)].
    - apply O. reflexivity.
    - apply needs_feeds in F. vm_compute in F. destruct F as [<-|[]]. specialize (L {| content := ""; time := 1 |} {| content := ""; time := 0 |} eq_refl eq_refl). cbn in L. inversion L.
    - vm_compute in V. injection V as <- <-. destruct J. }
  specialize (H N). vm_compute in H. discriminate.
Qed.
(** Names of actions that are the same once they are variables. *)
Definition named_action (n : string) : action := {| action_name := n; action_inputs := ["in"]; action_outputs := ["$(obj)/" ++ n]; action_command := ["python"; n]; outputs_are_sources := false |}.
Definition twins : target := plain_target "twins" None_ [] [] [named_action "gen-a"; named_action "gen_a"].
Lemma twin_commands : ~ (forall ts t a, NoDup (map qualified ts) -> In t ts -> NoDup (map action_name (actions t)) -> In a (actions t) -> value_of (definitions ts) (action_variable t (action_name a)) = Some (action_text t a)).
Proof.
  intros H. specialize (H [twins] twins (named_action "gen-a")). assert (ND : NoDup (map qualified [twins])) by (repeat constructor; intros []). assert (NA : NoDup (map action_name (actions twins))) by (apply distinct_sound; vm_compute; reflexivity).
  specialize (H ND (or_introl eq_refl) NA (or_introl eq_refl)). vm_compute in H. discriminate.
Qed.
Definition near1 : target := plain_target "x" None_ [] [] [named_action "y_target_z"].
Definition near2 : target := plain_target "x_target_y" None_ [] [] [named_action "z"].
Lemma near_commands : ~ (forall ts t a, NoDup (map qualified ts) -> In t ts -> NoDup (map action_name (actions t)) -> (forall u b, In u ts -> In b (actions u) -> Model_Release.all_chars word_char (target_name u ++ action_name b) = true) -> In a (actions t) -> value_of (definitions ts) (action_variable t (action_name a)) = Some (action_text t a)).
Proof.
  intros H. specialize (H [near1; near2] near1 (named_action "y_target_z")). assert (ND : NoDup (map qualified [near1; near2])) by (apply distinct_sound; vm_compute; reflexivity). assert (NA : NoDup (map action_name (actions near1))) by (apply distinct_sound; vm_compute; reflexivity).
  specialize (H ND (or_introl eq_refl) NA). assert (W : forall u b, In u [near1; near2] -> In b (actions u) -> Model_Release.all_chars word_char (target_name u ++ action_name b) = true) by (intros u b [<-|[<-|[]]] [<-|[]]; vm_compute; reflexivity).
  specialize (H W (or_introl eq_refl)). vm_compute in H. discriminate.
Qed.
