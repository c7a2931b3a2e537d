(** Examples for the build statements for ninja. *)
From Coq Require Import Relations Operators_Properties.
From Verif Require Import Lib Str LibFacts Model_Names Model_Path Model_Graph Model_Writer Model_NinjaBuild Spec_NinjaBuild Proof_NinjaBuild Proof_NinjaBuild2 Proof_NinjaBuild3.
Local Open Scope string_scope.

(** ** deciding *)
Lemma pair_dec : forall a b : string * string, {a = b} + {a <> b}.
Proof. decide equality; apply string_dec. Defined.
Definition edge_dec : forall a b : edge, {a = b} + {a <> b}.
Proof. decide equality; solve [apply (list_eq_dec string_dec)|apply string_dec|apply (list_eq_dec pair_dec)]. Defined.
Definition finished (e : edge) (done : list event) : bool := existsb (fun v => match v with Finish e' => if edge_dec e e' then true else false | Begin _ => false end) done.
Definition begun (e : edge) (done : list event) : bool := existsb (fun v => match v with Begin e' => if edge_dec e e' then true else false | Finish _ => false end) done.
Definition may (es : list edge) (done : list event) (v : event) : bool :=
  match v with
  | Begin e => forallb (fun p => forallb (fun e' => negb (mem p (outs e')) || finished e' done) es) (reads e)
  | Finish e => begun e done
  end.
Fixpoint allowed_b (es : list edge) (done run : list event) : bool := match run with [] => true | v :: run' => may es done v && allowed_b es (done ++ [v])%list run' end.
Lemma finished_in : forall e done, finished e done = true -> In (Finish e) done.
Proof. intros e done H. apply existsb_exists in H. destruct H as ([e'|e'] & I & H); [discriminate|]. destruct (edge_dec e e') as [->|]; [exact I|discriminate]. Qed.
Lemma begun_in : forall e done, begun e done = true -> In (Begin e) done.
Proof. intros e done H. apply existsb_exists in H. destruct H as ([e'|e'] & I & H); [|discriminate]. destruct (edge_dec e e') as [->|]; [exact I|discriminate]. Qed.
Lemma allowed_may : forall es run done d v l, allowed_b es done run = true -> run = (d ++ v :: l)%list -> may es (done ++ d)%list v = true.
Proof.
  intros es. induction run as [|w run IH]; intros done d v l H E; [destruct d; discriminate|]. cbn [allowed_b] in H. apply andb_true_iff in H. destruct H as (H1 & H2). destruct d as [|u d]; injection E as E1 E2.
  - subst. rewrite app_nil_r. exact H1.
  - subst u. rewrite <- (IH (done ++ [w])%list d v l H2 E2). rewrite <- app_assoc. reflexivity.
Qed.
Lemma allowed_sound : forall es run, allowed_b es [] run = true -> allowed es run.
Proof.
  intros es run H. split.
  - intros done e l E p e' P I Q. pose proof (allowed_may es run [] done (Begin e) l H E) as M. cbn [may app] in M. rewrite forallb_forall in M. specialize (M p P). rewrite forallb_forall in M. specialize (M e' I). apply orb_true_iff in M.
    destruct M as [M|M]; [|exact (finished_in e' done M)]. apply negb_true_iff in M. apply mem_false in M. contradiction.
  - intros done e l E. exact (begun_in e done (allowed_may es run [] done (Finish e) l H E)).
Qed.
Fixpoint distinct_b (l : list string) : bool := match l with [] => true | x :: l' => negb (mem x l') && distinct_b l' end.
Lemma distinct_sound : forall l, distinct_b l = true -> NoDup l.
Proof. induction l as [|x l IH]; cbn [distinct_b]; intros H; [constructor|]. apply andb_true_iff in H. destruct H as (H1 & H2). constructor; [apply mem_false; apply negb_true_iff; exact H1|exact (IH H2)]. Qed.
Definition accepted_b (es : list edge) : bool := (forallb (fun e => match outs e with [] => false | _ => true end) es && negb (mem "" (flat_map outs es)) && distinct_b (flat_map outs es))%bool.
Lemma accepted_sound : forall es, accepted_b es = true -> accepted es.
Proof.
  intros es H. unfold accepted_b in H. apply andb_true_iff in H. destruct H as (H & H3). apply andb_true_iff in H. destruct H as (H1 & H2). rewrite forallb_forall in H1. split; [|split].
  - intros e I E. specialize (H1 e I). rewrite E in H1. discriminate.
  - apply negb_true_iff in H2. apply mem_false in H2. exact H2.
  - exact (distinct_sound _ H3).
Qed.

(** ** a project *)
Definition some_setup : setup := {| to_top := "../.."; config_name := "Release"; md5 := fun s => "0f" |}.
Definition header : target := {| qualified := "binding.gyp:header#target"; target_name := "header"; type := None_; toolset := "target"; path := "";
  dependencies := []; sources := []; actions := [{| action_name := "make_config"; action_inputs := ["config.in"]; action_outputs := ["$!INTERMEDIATE_DIR/config.h"]; action_command := ["cp"]; outputs_are_sources := false |}]; rules := []; copies := [];
  product_prefix := None; product_name := None; product_extension := None; product_dir := None; standalone := false |}.
Definition util : target := {| qualified := "binding.gyp:util#target"; target_name := "util"; type := Static_library; toolset := "target"; path := "";
  dependencies := ["binding.gyp:header#target"]; sources := ["src/util.cc"; "src/util.h"]; actions := []; rules := []; copies := [];
  product_prefix := None; product_name := None; product_extension := None; product_dir := None; standalone := false |}.
Definition addon : target := {| qualified := "binding.gyp:addon#target"; target_name := "addon"; type := Loadable_module; toolset := "target"; path := "";
  dependencies := ["binding.gyp:util#target"]; sources := ["src/addon.c"]; actions := [{| action_name := "list"; action_inputs := ["names.in"]; action_outputs := ["$!INTERMEDIATE_DIR/names.c"]; action_command := ["python"]; outputs_are_sources := true |}];
  rules := []; copies := [{| copy_files := ["README.md"]; destination := "$!PRODUCT_DIR" |}];
  product_prefix := Some ""; product_name := None; product_extension := Some "node"; product_dir := None; standalone := false |}.
Definition some_project : list target := [header; util; addon].
Definition some_edges : list edge := Eval vm_compute in match build_ninja some_setup (fun _ => true) some_project with Some es => es | None => [] end.
Definition some_run : list event := flat_map (fun e => [Begin e; Finish e]) some_edges.
Lemma some_built : build_ninja some_setup (fun _ => true) some_project = Some some_edges.
Proof. vm_compute. reflexivity. Qed.
Lemma some_distinct : NoDup (map qualified some_project).
Proof. repeat constructor; cbn; intros H; decompose [or] H; try discriminate; contradiction. Qed.
Lemma some_accepted : accepted some_edges.
Proof. apply accepted_sound. vm_compute. reflexivity. Qed.
Lemma some_allowed : allowed some_edges some_run.
Proof. apply allowed_sound. vm_compute. reflexivity. Qed.
Lemma some_order : in_order some_project.
Proof.
  intros l1 t l2 d E (_ & I & X). unfold some_project in E.
  destruct l1 as [|a [|b [|c l1]]]; cbn [app] in E; [injection E as <- <-|injection E as <- <- <-|injection E as <- <- <- <-|injection E as <- <- <- E; destruct l1; discriminate].
  - contradiction.
  - cbn in X. destruct X as [X|[]]. cbn in I. destruct I as [<-|[<-|[<-|[]]]]; try discriminate X. left. reflexivity.
  - cbn in X. destruct X as [X|[]]. cbn in I. destruct I as [<-|[<-|[<-|[]]]]; try discriminate X. right. left. reflexivity.
Qed.
Lemma some_depends : depends some_project addon util /\ depends some_project util header.
Proof. split; (split; [cbn; tauto|split; [cbn; tauto|left; reflexivity]]). Qed.
Lemma some_through : through some_project addon header.
Proof. econstructor 2; constructor 1; apply some_depends. Qed.
Lemma header_generates : generates some_setup header "obj/header.gen/config.h".
Proof. apply (gen_action some_setup header (hd {| action_name := ""; action_inputs := []; action_outputs := []; action_command := []; outputs_are_sources := false |} (actions header)) "$!INTERMEDIATE_DIR/config.h"); [left; reflexivity|left; reflexivity|vm_compute; reflexivity]. Qed.
Lemma addon_waits : waits some_setup addon "obj/addon.gen/names.c".
Proof. apply (wait_action some_setup addon (hd {| action_name := ""; action_inputs := []; action_outputs := []; action_command := []; outputs_are_sources := false |} (actions addon)) "$!INTERMEDIATE_DIR/names.c"); [left; reflexivity|left; reflexivity|vm_compute; reflexivity]. Qed.
Lemma addon_compiles : compiles some_setup addon "obj/src/addon.addon.o".
Proof. exists "src/addon.c", "cc". split; [right; left; reflexivity|]. split; vm_compute; reflexivity. Qed.
Lemma util_compiles : compiles some_setup util "obj/src/util.util.o".
Proof. exists "src/util.cc", "cxx". split; [left; reflexivity|]. split; vm_compute; reflexivity. Qed.
Lemma addon_linked : linked some_setup some_project addon.
Proof. apply (linked_compiled some_setup some_project addon _ ltac:(discriminate) addon_compiles). Qed.
Lemma util_linked : linked some_setup some_project util.
Proof. apply (linked_compiled some_setup some_project util _ ltac:(discriminate) util_compiles). Qed.
Lemma util_done : done some_setup some_project util "obj/libutil.a".
Proof. right. right. split; [exact util_linked|vm_compute; reflexivity]. Qed.
Lemma addon_product : product some_setup addon = Some "addon.node".
Proof. vm_compute. reflexivity. Qed.
Lemma util_cpp : has_cpp util.
Proof. exists "src/util.cc". split; [left; reflexivity|left; reflexivity]. Qed.

(** ** rules that do not wait *)
Definition many : target := {| qualified := "binding.gyp:many#target"; target_name := "many"; type := None_; toolset := "target"; path := "";
  dependencies := ["binding.gyp:header#target"]; sources := []; actions := [];
  rules := [{| rule_name := "tables"; rule_sources := ["a.t"; "b.t"; "c.t"]; rule_inputs := ["one.py"; "two.py"]; rule_outputs := ["$!INTERMEDIATE_DIR/${root}.c"]; rule_command := ["python"]; rule_outputs_are_sources := false |};
            {| rule_name := "words"; rule_sources := ["a.w"]; rule_inputs := []; rule_outputs := ["$!INTERMEDIATE_DIR/${root}.txt"]; rule_command := ["python"]; rule_outputs_are_sources := false |}]; copies := [];
  product_prefix := None; product_name := None; product_extension := None; product_dir := None; standalone := false |}.
Definition early_edges : list edge := Eval vm_compute in match build_ninja some_setup (fun _ => true) [header; many] with Some es => es | None => [] end.
Definition early_edge : edge := statement ["obj/many.gen/a.txt"] "many_target_words_0f" ["../../a.w"] [] [].
Definition early_header : edge := statement ["obj/header.gen/config.h"] "header_target_make_config_0f" ["../../config.in"] [] [].
Lemma rule_early : ~ (forall s needed ts es run t d x y, NoDup (map qualified ts) -> in_order ts -> build_ninja s needed ts = Some es -> accepted es -> allowed es run ->
  through ts t d -> generates s d x -> generates s t y -> first es run x y).
Proof.
  intros H.
  assert (X : first early_edges [Begin early_edge] "obj/header.gen/config.h" "obj/many.gen/a.txt").
  { apply (H some_setup (fun _ => true) [header; many] early_edges [Begin early_edge] many header).
    - repeat constructor; cbn; intros X; decompose [or] X; try discriminate; contradiction.
    - intros l1 t l2 d E (_ & I & X). destruct l1 as [|a [|b l1]]; cbn [app] in E; [injection E as <- <-|injection E as <- <- <-|injection E as <- <- E; destruct l1; discriminate]; [contradiction|].
      cbn in X. destruct X as [X|[]]. cbn in I. destruct I as [<-|[<-|[]]]; [left; reflexivity|discriminate X].
    - vm_compute. reflexivity.
    - apply accepted_sound. vm_compute. reflexivity.
    - apply allowed_sound. vm_compute. reflexivity.
    - constructor 1. split; [cbn; tauto|split; [cbn; tauto|left; reflexivity]].
    - exact header_generates.
    - eapply gen_rule; [right; left; reflexivity|]. exists "a.w", "$!INTERMEDIATE_DIR/a.txt". split; [left; reflexivity|]. split; [left; reflexivity|vm_compute; reflexivity]. }
  destruct X as (_ & _ & X). assert (Y : In (Finish early_header) []); [|destruct Y]. apply (X early_header early_edge [] []); [| |left; reflexivity|left; reflexivity|reflexivity].
  - unfold early_edges. cbn. tauto.
  - unfold early_edges. cbn. tauto.
Qed.
(** ** statements ninja does not accept *)
Definition named (n : string) (outputs : list string) : target := {| qualified := "binding.gyp:" ++ n ++ "#target"; target_name := n; type := None_; toolset := "target"; path := "";
  dependencies := []; sources := []; actions := [{| action_name := "act"; action_inputs := []; action_outputs := outputs; action_command := ["true"]; outputs_are_sources := false |}]; rules := []; copies := [];
  product_prefix := None; product_name := None; product_extension := None; product_dir := None; standalone := false |}.
Lemma one_order : forall t, dependencies t = [] -> in_order [t].
Proof. intros t D0 l1 t' l2 d E (_ & _ & X). destruct l1 as [|a l1]; cbn [app] in E; [injection E as <- _; rewrite D0 in X; contradiction|injection E as _ E; destruct l1; discriminate]. Qed.
Lemma all_twice : ~ (forall s needed ts es, NoDup (map qualified ts) -> in_order ts -> build_ninja s needed ts = Some es -> (forall t a, In t ts -> In a (actions t) -> action_outputs a <> []) -> NoDup (map target_name ts) -> NoDup (flat_map outs es)).
Proof.
  intros H. set (t := named "all" ["out.txt"]). destruct (build_ninja some_setup (fun _ => true) [t]) as [es|] eqn:E; [|vm_compute in E; discriminate].
  assert (X : NoDup (flat_map outs es)).
  { apply (H some_setup (fun _ => true) [t] es); [repeat constructor; intros []|apply one_order; reflexivity|exact E| |repeat constructor; intros []]. intros t' a [<-|[]] [<-|[]]. discriminate. }
  vm_compute in E. injection E as <-. revert X. vm_compute. intros X. apply NoDup_cons_iff in X. destruct X as (_ & X). apply NoDup_cons_iff in X. destruct X as (X & _). apply X. left. reflexivity.
Qed.
Lemma no_output : ~ (forall s needed ts es, NoDup (map qualified ts) -> in_order ts -> build_ninja s needed ts = Some es -> forall e, In e es -> outs e <> []).
Proof.
  intros H. set (t := named "log" []). destruct (build_ninja some_setup (fun _ => true) [t]) as [es|] eqn:E; [|vm_compute in E; discriminate].
  assert (X : outs (statement [] "log_target_act_0f" [] [] []) <> []); [|exact (X eq_refl)].
  apply (H some_setup (fun _ => true) [t] es); [repeat constructor; intros []|apply one_order; reflexivity|exact E|]. vm_compute in E. injection E as <-. left. reflexivity.
Qed.
