(** Property theorems: configurations and their inheritance (C19). *)
From Verif Require Import Model_Value Model_Merge Spec_Merge Examples_Merge Model_Config Spec_Config Proof_Config.
Local Open Scope string_scope.

(** C19: a configuration is merged along every route of the inheritance that
    visits no configuration twice, once per route, ancestors before heirs and
    the configuration itself last; even if the inheritance is circular. *)
Theorem C19_routes : forall c fuel configs new n new', parents_listed configs ->
  merge_config c fuel configs new n [] = Val new' ->
  exists routes, all_routes configs n routes /\ applied c configs (map snd routes) new new'.
Proof. exact merge_config_all_routes. Qed.
Print Assumptions C19_routes.

Theorem C19_own_wins : forall c fuel configs new n new' cd k s, parents_listed configs -> c_to_file c = c_fro_file c ->
  merge_config c fuel configs new n [] = Val new' -> assoc n configs = Some (VDict cd) -> NoDup (map fst cd) -> k <> "abstract" ->
  In (k, VStr s) cd -> (forall l x, In x ["="; "+"; "?"] -> ~ In (k ++ x, VList l) cd) -> assoc k new' = Some (VStr s).
Proof. exact own_setting_wins. Qed.
Print Assumptions C19_own_wins.

Theorem C19_inherited : forall c configs ns1 ns2 d d' k, applied c configs (ns1 ++ ns2)%list d d' -> k <> "abstract" ->
  (forall n cd k' v, In n ns2 -> assoc n configs = Some (VDict cd) -> In (k', v) cd -> ~ affects k' v k) ->
  exists d1, applied c configs ns1 d d1 /\ assoc k d' = assoc k d1.
Proof. exact unset_inherited. Qed.
Print Assumptions C19_inherited.

(** C19: cycles do not diverge: fuel above the number of configurations is
    enough, whatever they inherit. *)
Theorem C19_terminates : forall c reserved invalid fuel d,
  (forall cs, configurations_of d cs -> length cs < fuel) -> set_up_configurations c reserved invalid fuel d <> Exn NoFuel.
Proof. exact set_up_terminates. Qed.
Print Assumptions C19_terminates.

(** C19: the whole of SetUpConfigurations. *)
Theorem C19_set_up : forall c reserved invalid fuel d d',
  In "configurations" reserved -> In "default_configuration" reserved ->
  (forall cs, configurations_of d cs -> NoDup (map fst cs) /\ parents_listed cs) ->
  set_up_configurations c reserved invalid fuel d = Val d' -> set_up c reserved invalid d d'.
Proof. exact set_up_spec. Qed.
Print Assumptions C19_set_up.

(** A circular, diamond-shaped inheritance. *)
Definition ex_configs : dict :=
  [("Base", VDict [("abstract", VInt 1); ("defines", VList [VStr "B"]); ("opt", VStr "0"); ("inherit_from", VList [VStr "Release"])]);
   ("Common", VDict [("abstract", VInt 1); ("inherit_from", VList [VStr "Base"]); ("opt", VStr "1")]);
   ("Release", VDict [("inherit_from", VList [VStr "Common"; VStr "Base"]); ("opt", VStr "3")])].
Definition ex_target : dict :=
  [("target_name", VStr "t"); ("cflags", VList [VStr "-g"]); ("sources!", VList []); ("configurations", VDict ex_configs)].
Definition ex_reserved : list string := ["configurations"; "default_configuration"; "sources"; "target_name"].

Example C19_witness : parents_listed ex_configs /\ (forall cs, configurations_of ex_target cs -> NoDup (map fst cs) /\ parents_listed cs) /\
  set_up_configurations ctx1 ex_reserved ["sources"] 4 ex_target = Val
   [("target_name", VStr "t"); ("sources!", VList []);
    ("configurations", VDict [("Release", VDict [("cflags", VList [VStr "-g"]); ("defines", VList [VStr "B"]); ("opt", VStr "3");
       ("inherit_from", VList [VStr "Release"; VStr "Base"; VStr "Common"])])]);
    ("default_configuration", VStr "Release")].
Proof.
  assert (P : parents_listed ex_configs).
  { intros n cd v H1 H2. cbn in H1. destruct (String.eqb n "Base"); [inversion H1; subst; cbn in H2; inversion H2; eauto|].
    destruct (String.eqb n "Common"); [inversion H1; subst; cbn in H2; inversion H2; eauto|].
    destruct (String.eqb n "Release"); [inversion H1; subst; cbn in H2; inversion H2; eauto|]. discriminate. }
  split; [exact P|]. split; [|reflexivity]. intros cs [H|[H _]]; [|exfalso; apply H; right; right; right; left; reflexivity].
  cbn in H. inversion H; subst. split; [|exact P]. repeat constructor; cbn; intuition discriminate.
Qed.
