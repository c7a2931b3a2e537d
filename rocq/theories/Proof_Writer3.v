(** Examples and counterexamples. *)
From Verif Require Import Lib Str LibFacts StrFacts Model_Names Model_Path Model_Graph Model_Writer Spec_Writer Proof_Writer Proof_Writer2.
Local Open Scope string_scope.

(** Checking a schedule. *)
Definition made_b (rs : list written) (y : string) : bool := existsb (fun r => mem y (heads r)) rs.
Fixpoint schedule_b (rs : list written) (done order : list string) : bool :=
  match order with
  | [] => true
  | x :: l => forallb (fun r => negb (mem x (heads r)) || forallb (fun y => negb (made_b rs y) || mem y done) (needs r ++ orders r)) rs && schedule_b rs (done ++ [x]) l
  end.
Lemma made_b_iff : forall rs y, made_b rs y = true <-> made rs y.
Proof. intros rs y. unfold made_b, made. rewrite existsb_exists. split; intros (r & I & H); exists r; (split; [exact I|]); [apply mem_In|apply mem_In in H]; exact H. Qed.
Lemma schedule_b_sound : forall rs order done, schedule_b rs done order = true -> forall a x b, order = (a ++ x :: b)%list -> forall y, prerequisite rs x y -> made rs y -> In y (done ++ a).
Proof.
  intros rs. induction order as [|z l IH]; intros done H a x b E y P M; [destruct a; discriminate|]. cbn [schedule_b] in H. apply andb_true_iff in H. destruct H as [H1 H2]. destruct a as [|w a]; cbn [app] in E; injection E as -> E.
  - rewrite app_nil_r. destruct P as (r & R & IX & IY). rewrite forallb_forall in H1. specialize (H1 r R). apply orb_true_iff in H1. destruct H1 as [H1|H1]; [apply negb_true_iff, mem_false in H1; contradiction|].
    rewrite forallb_forall in H1. specialize (H1 y IY). apply orb_true_iff in H1. destruct H1 as [H1|H1]; [|apply mem_In; exact H1]. apply negb_true_iff in H1. apply made_b_iff in M. congruence.
  - specialize (IH (done ++ [w])%list H2 a x b E y P M). rewrite <- app_assoc in IH. exact IH.
Qed.
Lemma schedule_sound : forall rs order, schedule_b rs [] order = true -> schedule rs order.
Proof. intros rs order H a x b E y P M. exact (schedule_b_sound rs order [] H a x b E y P M). Qed.

Definition id_sha (s : string) : string := s.
Definition everything (s : string) : bool := true.
Definition plain_target (name : string) (k : kind) (deps srcs : list string) (acts : list action) : target :=
  {| qualified := "binding.gyp:" ++ name ++ "#target"; target_name := name; type := k; toolset := "target"; path := ""; dependencies := deps; sources := srcs; actions := acts; rules := []; copies := [];
     product_prefix := None; product_name := None; product_extension := None; product_dir := None; standalone := false |}.
(** A target that makes a header, a library that uses it, an addon. *)
Definition header_maker : target := plain_target "gen" None_ [] [] [{| action_name := "header"; action_inputs := ["make.py"]; action_outputs := ["$(obj)/gen/config.h"]; action_command := ["python"; "make.py"]; outputs_are_sources := false |}].
Definition some_library : target := plain_target "util" Static_library ["binding.gyp:gen#target"] ["src/util.c"; "src/util.h"] [].
Definition addon : target :=
  {| qualified := "binding.gyp:addon#target"; target_name := "addon"; type := Loadable_module; toolset := "target"; path := ""; dependencies := ["binding.gyp:util#target"]; sources := ["src/addon.cc"]; actions := []; rules := []; copies := [];
     product_prefix := Some ""; product_name := None; product_extension := Some "node"; product_dir := None; standalone := false |}.
Definition project : list target := [header_maker; some_library; addon].
Definition project_rules : list written := match makefile id_sha everything project with Some rs => rs | None => [] end.
Definition project_order : list string :=
  ["$(obj)/gen/config.h"; "$(obj).target/gen.stamp"; "gen"; "$(obj).target/util/src/util.o"; "$(obj).target/libutil.a"; "util"; "$(obj).target/addon/src/addon.o"; "$(obj).target/addon.node"; "$(builddir)/addon.node"; "addon.node"; "addon"; "all"].
Lemma project_made : makefile id_sha everything project = Some project_rules.
Proof. vm_compute. reflexivity. Qed.
Lemma project_schedule : schedule project_rules project_order.
Proof. apply schedule_sound. vm_compute. reflexivity. Qed.
Lemma project_distinct : NoDup (map qualified project).
Proof. cbn. repeat constructor; cbn; intuition discriminate. Qed.
Lemma project_named : forall t, In t project -> install_path t <> "".
Proof. intros t [<-|[<-|[<-|[]]]]; vm_compute; discriminate. Qed.
Lemma project_through : through project addon header_maker.
Proof.
  apply (through_more _ _ some_library); [constructor; split; [right; right; left; reflexivity|split; [right; left; reflexivity|left; reflexivity]]| |split; [right; left; reflexivity|split; left; reflexivity]].
  right. left. exists (object_of some_library "src/util.c"). exists "src/util.c". split; [left; reflexivity|split; reflexivity].
Qed.
Lemma addon_step : step addon "$(obj).target/addon/src/addon.o".
Proof. apply (step_object addon "src/addon.cc"); [left; reflexivity|reflexivity]. Qed.

(** A library of headers only. *)
Definition bare_library : target := plain_target "util" Static_library ["binding.gyp:gen#target"] ["src/util.h"] [].
Definition bare_project : list target := [header_maker; bare_library; addon].
Definition bare_rules : list written := match makefile id_sha everything bare_project with Some rs => rs | None => [] end.
Lemma header_only : ~ (forall sha1 needed ts rs order t d, NoDup (map qualified ts) -> makefile sha1 needed ts = Some rs -> (forall t, In t ts -> install_path t <> "") -> schedule rs order -> depends ts t d -> first order (install_path d) (install_path t)).
Proof.
  intros H. specialize (H id_sha everything bare_project bare_rules ["$(obj).target/libutil.a"; "$(obj)/gen/config.h"; "$(obj).target/gen.stamp"] bare_library header_maker).
  assert (ND : NoDup (map qualified bare_project)) by (cbn; repeat constructor; cbn; intuition discriminate).
  assert (M : makefile id_sha everything bare_project = Some bare_rules) by (vm_compute; reflexivity).
  assert (N : forall t, In t bare_project -> install_path t <> "") by (intros t [<-|[<-|[<-|[]]]]; vm_compute; discriminate).
  assert (S : schedule bare_rules ["$(obj).target/libutil.a"; "$(obj)/gen/config.h"; "$(obj).target/gen.stamp"]) by (apply schedule_sound; vm_compute; reflexivity).
  specialize (H ND M N S). specialize (H (conj (or_intror (or_introl eq_refl)) (conj (or_introl eq_refl) (or_introl eq_refl)))).
  specialize (H [] _ eq_refl). destruct H.
Qed.
(** An action with two outputs. *)
Definition two_outputs : target := plain_target "two" None_ ["binding.gyp:gen#target"] [] [{| action_name := "both"; action_inputs := ["in.txt"]; action_outputs := ["$(obj)/gen/a.h"; "$(obj)/gen/b.h"]; action_command := ["python"; "both.py"]; outputs_are_sources := false |}].
Definition two_project : list target := [header_maker; two_outputs].
Definition two_rules : list written := match makefile id_sha everything two_project with Some rs => rs | None => [] end.
Lemma two_early : ~ (forall sha1 needed ts rs order t d a r x, NoDup (map qualified ts) -> makefile sha1 needed ts = Some rs -> (forall t, In t ts -> install_path t <> "") -> schedule rs order -> depends ts t d ->
  In a (actions t) -> In r rs -> In (Do (action_variable t (action_name a))) (recipe r) -> In x (heads r) -> first order (install_path d) x).
Proof.
  intros H. specialize (H id_sha everything two_project two_rules ["binding_gyp_two_target_both.intermediate"; "$(obj)/gen/config.h"; "$(obj).target/gen.stamp"; "$(obj)/gen/a.h"; "$(obj)/gen/b.h"] two_outputs header_maker).
  assert (ND : NoDup (map qualified two_project)) by (cbn; repeat constructor; cbn; intuition discriminate).
  assert (M : makefile id_sha everything two_project = Some two_rules) by (vm_compute; reflexivity).
  assert (N : forall t, In t two_project -> install_path t <> "") by (intros t [<-|[<-|[]]]; vm_compute; discriminate).
  specialize (H {| action_name := "both"; action_inputs := ["in.txt"]; action_outputs := ["$(obj)/gen/a.h"; "$(obj)/gen/b.h"]; action_command := ["python"; "both.py"]; outputs_are_sources := false |}).
  specialize (H {| heads := ["binding_gyp_two_target_both.intermediate"]; needs := ["$(srcdir)/in.txt"]; orders := []; forced := true; recipe := [Do "touch"; Do "binding_gyp_two_target_both"] |} "binding_gyp_two_target_both.intermediate" ND M N).
  assert (S : schedule two_rules ["binding_gyp_two_target_both.intermediate"; "$(obj)/gen/config.h"; "$(obj).target/gen.stamp"; "$(obj)/gen/a.h"; "$(obj)/gen/b.h"]) by (apply schedule_sound; vm_compute; reflexivity). specialize (H S). specialize (H (conj (or_intror (or_introl eq_refl)) (conj (or_introl eq_refl) (or_introl eq_refl)))).
  specialize (H (or_introl eq_refl)). assert (R : In {| heads := ["binding_gyp_two_target_both.intermediate"]; needs := ["$(srcdir)/in.txt"]; orders := []; forced := true; recipe := [Do "touch"; Do "binding_gyp_two_target_both"] |} two_rules) by (vm_compute; tauto).
  specialize (H R (or_intror (or_introl eq_refl)) (or_introl eq_refl) [] _ eq_refl). destruct H.
Qed.
