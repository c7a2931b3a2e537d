(** C88: the solutions of Visual Studio. *)
From Verif Require Import Lib Str Model_Names Model_Solution Spec_Solution Proof_Solution2 Proof_Solution3 Proof_Solution4.
Local Open Scope string_scope.

(** The solution of a .gyp file has each of its targets and of what they need once, with
    the GUIDs of its dependencies, and no other project. *)
Theorem C88_projects : forall st o dicts targets file p, well_formed st dicts targets file p -> fair o ->
  exists lines qs, solution st o targets dicts file = Some lines /\ NoDup qs /\ (forall q, In q qs <-> in_solution targets dicts file q) /\
    Permutation (filter (String.prefix project_start) lines) (map (fun q => project_line st (p q)) qs) /\
    forall q s, In q qs -> assoc q dicts = Some s -> holds lines (project_block st (p q) (map (fun d => guid (p d)) (wanted s))).
Proof. intros st o dicts targets file p W O. exact (projects_ok st o dicts targets file p W O). Qed.
Print Assumptions C88_projects.
(** Each configuration of a target is one of the solution; it builds the configuration of
    that name, which the project has. *)
Theorem C88_configurations : forall st o dicts targets file p q s n c base plat, well_formed st dicts targets file p -> fair o -> cross_compiling st = false ->
  (forall q1 q2, in_solution targets dicts file q1 -> in_solution targets dicts file q2 -> guid (p q1) = guid (p q2) -> q1 = q2) ->
  in_solution targets dicts file q -> assoc q dicts = Some s -> NoDup (map fst (configurations s)) -> (forall n' c', In (n', c') (configurations s) -> exists b pl, plain_config n' c' b pl) ->
  In (n, c) (configurations s) -> plain_config n c base plat ->
  exists lines, solution st o targets dicts file = Some lines /\ In (tabs 2 (base ++ "|" ++ plat ++ " = " ++ base ++ "|" ++ plat)) lines /\
    holds lines [tabs 2 (guid (p q) ++ "." ++ base ++ "|" ++ plat ++ ".ActiveCfg = " ++ base ++ "|" ++ plat); tabs 2 (guid (p q) ++ "." ++ base ++ "|" ++ plat ++ ".Build.0 = " ++ base ++ "|" ++ plat)] /\
    (toolset s <> "host" \/ plat <> "arm64" -> In (base ++ "|" ++ plat) (project_configurations s)).
Proof. exact configurations_ok. Qed.
Print Assumptions C88_configurations.
(** When compiling for arm64 elsewhere, the tools of the host are built for x64. *)
Theorem C88_cross : forall st o dicts targets file p q s n c, well_formed st dicts targets file p -> fair o -> cross_compiling st = true ->
  (forall q1 q2, in_solution targets dicts file q1 -> in_solution targets dicts file q2 -> guid (p q1) = guid (p q2) -> q1 = q2) ->
  in_solution targets dicts file q -> assoc q dicts = Some s -> NoDup (map fst (configurations s)) ->
  (forall n' c', In (n', c') (configurations s) -> has_char "_" n' = false /\ platform c' = Some "arm64" /\ target_platform c' = None) -> In (n, c) (configurations s) ->
  let built := n ++ "|" ++ (if String.eqb (toolset s) "host" then "x64" else "arm64") in
  exists lines, solution st o targets dicts file = Some lines /\ In (tabs 2 (n ++ "|arm64 = " ++ n ++ "|arm64")) lines /\
    holds lines [tabs 2 (guid (p q) ++ "." ++ n ++ "|arm64.ActiveCfg = " ++ built); tabs 2 (guid (p q) ++ "." ++ n ++ "|arm64.Build.0 = " ++ built)] /\
    In built (project_configurations s).
Proof. exact cross_ok. Qed.
Print Assumptions C88_cross.
(** The project of a target is beside its .gyp file. *)
Theorem C88_place : forall md suffix q s file n ts pr cross, named q file n ts -> target_name s = n -> piece n -> has_char ":" suffix = false -> falsy (existing s) ->
  create md suffix None cross q s = Some pr -> let f := n ++ host_suffix (toolset s) ++ suffix ++ ".vcxproj" in
  name pr = n ++ host_suffix (toolset s) /\
  (piece file -> has_char ":" file = false -> path pr = f) /\
  (forall dir l sep base, consists dir l -> sep = "/" \/ sep = "\" -> piece base -> file = dir ++ sep ++ base -> path pr = dir ++ "\" ++ f).
Proof. exact create_path. Qed.
Print Assumptions C88_place.
(** Its GUID is the one given, or is made of its path. *)
Theorem C88_guid : forall md suffix out cross q s pr, create md suffix out cross q s = Some pr ->
  (falsy (given_guid s) -> let d := md ("msvs_new" ++ path pr) in guid pr = "{" ++ substring 0 8 d ++ "-" ++ substring 8 4 d ++ "-" ++ substring 12 4 d ++ "-" ++ substring 16 4 d ++ "-" ++ substring 20 12 d ++ "}") /\
  (forall g, given_guid s = Some g -> g <> "" -> guid pr = "{" ++ g ++ "}" /\ forall a, In a (list_ascii_of_string g) -> In a (list_ascii_of_string "0123456789ABCDEF-")).
Proof. exact create_guid. Qed.
Print Assumptions C88_guid.
(** A GUID of capital hexadecimal digits and dashes is accepted. *)
Theorem C88_guid_accepted : forall md suffix out cross q s, falsy (given_guid s) \/ (exists g, given_guid s = Some g /\ forall a, In a (list_ascii_of_string g) -> In a (list_ascii_of_string "0123456789ABCDEF-")) -> exists pr, create md suffix out cross q s = Some pr.
Proof. exact guid_taken. Qed.
Print Assumptions C88_guid_accepted.
Example C88_guid_accepted_witness : forall a, In a (list_ascii_of_string "12AB-4") -> In a (list_ascii_of_string "0123456789ABCDEF-").
Proof. intros a H. cbn in *. tauto. Qed.

(** ** an addon with a library *)
Definition sample_config : config := {| platform := Some "x64"; target_platform := None |}.
Definition sample (n ts : string) (deps : list string) (g : string) (cs : list (string * config)) : spec :=
  {| target_name := n; toolset := ts; dependencies := deps; dependencies_original := []; external := false; configurations := cs; given_guid := Some g; existing := None |}.
Definition two_configs : list (string * config) := [("Debug", sample_config); ("Release_x64", sample_config)].
Definition sample_settings (cross : bool) : settings :=
  {| md5 := fun s => s; relative := fun s => s; version := "12.00"; description := "Visual Studio 2015"; flat_solution := false; file_suffix := ""; generator_output := None; cross_compiling := cross |}.
Definition in_turn : orders := {| walk := fun l => l; walk_entries := fun l => l |}.
Definition backwards : orders := {| walk := fun l => rev l; walk_entries := fun l => l |}.
Lemma in_turn_fair : fair in_turn.
Proof. split; intros l; apply Permutation_refl. Qed.
Lemma backwards_fair : fair backwards.
Proof. split; intros l; [apply Permutation_sym, Permutation_rev|apply Permutation_refl]. Qed.
Definition addon : string := "binding.gyp:addon#target".
Definition zlib : string := "deps/zlib/zlib.gyp:zlib#target".
Definition other : string := "deps/zlib/zlib.gyp:test#target".
Definition sample_targets : list string := [zlib; other; addon].
Definition sample_dicts (cs : list (string * config)) : list (string * spec) :=
  [(zlib, sample "zlib" "target" [] "A1" cs); (other, sample "test" "target" [zlib] "A2" cs); (addon, sample "addon" "target" [zlib] "A3" cs)].
Definition object (st : settings) (dicts : list (string * spec)) (q : string) : project :=
  match assoc q dicts with
  | Some s => match create (md5 st) (file_suffix st) (generator_output st) (cross_compiling st) q s with Some p => p | None => {| path := ""; name := ""; guid := ""; needs := []; config_overrides := [] |} end
  | None => {| path := ""; name := ""; guid := ""; needs := []; config_overrides := [] |}
  end.
Lemma piece_is : forall s, String.eqb s "" = false -> has_char "/" s = false -> has_char "\" s = false -> piece s.
Proof. intros s H1 H2 H3. apply String.eqb_neq in H1. repeat split; assumption. Qed.
Lemma binding_path : consists "binding.gyp" (app [] ["binding.gyp"]).
Proof. apply one_piece; [apply piece_is; reflexivity|reflexivity]. Qed.
Lemma zlib_path : consists "deps/zlib/zlib.gyp" (app ["deps"; "zlib"] ["zlib.gyp"]).
Proof. apply (longer "deps/zlib" ["deps"; "zlib"] "/" "zlib.gyp"); [|auto|apply piece_is; reflexivity]. apply (longer "deps" ["deps"] "/" "zlib"); [|auto|apply piece_is; reflexivity]. apply one_piece; [apply piece_is; reflexivity|reflexivity]. Qed.
Lemma spot_of : forall q file n ts folders base, named q file n ts -> n <> "" -> consists file (app folders [base]) -> exists l, spot q l.
Proof. intros q file n ts folders base N NE C. eexists. exists file, n, ts, folders, base. eauto. Qed.
Lemma apart_if : forall qs, (forall q, In q qs -> exists l, spot q l) -> (forall q1 q2 more, In q1 qs -> In q2 qs -> sp q2 = (sp q1 ++ more)%list -> q1 = q2) -> apart qs.
Proof. intros qs H1 H2. split; [exact H1|]. intros q1 q2 l1 l2 more I1 I2 S1 S2 E. apply spot_is in S1, S2. destruct S1 as (-> & _), S2 as (-> & _). exact (H2 q1 q2 more I1 I2 E). Qed.
Lemma sample_in : forall cs q, In q [addon; zlib] <-> in_solution sample_targets (sample_dicts cs) "binding.gyp" q.
Proof.
  intros cs q. split.
  - intros I. exists addon. split; [right; right; left; reflexivity|]. split; [exists "addon#target"; split; reflexivity|]. destruct I as [<-|[<-|[]]]; [apply itself|]. apply (through (sample_dicts cs) addon (sample "addon" "target" [zlib] "A3" cs) zlib zlib eq_refl); [left; left; reflexivity|apply itself].
  - intros (root & I & (r & E & H) & R). assert (root = addon). { destruct I as [<-|[<-|[<-|[]]]]; [discriminate E|discriminate E|reflexivity]. } clear E. subst root. inversion R as [|q0 s d t A D R']; subst; [left; reflexivity|]. injection A as <-. cbn [dependencies dependencies_original sample] in D. assert (d = zlib) by (destruct D as [[D|[]]|[]]; auto). subst d. inversion R' as [|q1 s1 d1 t1 A1 D1 R1]; subst; [right; left; reflexivity|]. injection A1 as <-. destruct D1 as [[]|[]].
Qed.
Lemma sample_formed : forall cross cs, well_formed (sample_settings cross) (sample_dicts cs) sample_targets "binding.gyp" (object (sample_settings cross) (sample_dicts cs)).
Proof.
  intros cross cs. split; [discriminate|]. split; [unfold sample_targets; repeat (apply NoDup_cons; [intros X; cbn [In] in X; repeat (destruct X as [X|X]; [discriminate X|]); exact X|]); apply NoDup_nil|]. split; [|split].
  - intros q [<-|[<-|[<-|[]]]]; (eexists; split; [reflexivity|reflexivity]).
  - intros q s d [<-|[<-|[<-|[]]]] A [D|D]; injection A as <-; cbn [dependencies dependencies_original sample In] in D; destruct D as [<-|[]] || destruct D; left; reflexivity.
  - exists [addon; zlib]. split; [repeat (apply NoDup_cons; [intros X; cbn [In] in X; repeat (destruct X as [X|X]; [discriminate X|]); exact X|]); apply NoDup_nil|]. split; [exact (sample_in cs)|]. apply apart_if.
    + intros q [<-|[<-|[]]]; [apply (spot_of addon "binding.gyp" "addon" "target" [] "binding.gyp"); [repeat split|discriminate|exact binding_path]|apply (spot_of zlib "deps/zlib/zlib.gyp" "zlib" "target" ["deps"; "zlib"] "zlib.gyp"); [repeat split|discriminate|exact zlib_path]].
    + intros q1 q2 more [<-|[<-|[]]] [<-|[<-|[]]] E; try reflexivity; vm_compute in E; discriminate E.
Qed.
Lemma sample_distinct : forall cross cs q1 q2, in_solution sample_targets (sample_dicts cs) "binding.gyp" q1 -> in_solution sample_targets (sample_dicts cs) "binding.gyp" q2 ->
  guid (object (sample_settings cross) (sample_dicts cs) q1) = guid (object (sample_settings cross) (sample_dicts cs) q2) -> q1 = q2.
Proof. intros cross cs q1 q2 I1 I2 E. apply sample_in in I1, I2. destruct I1 as [<-|[<-|[]]], I2 as [<-|[<-|[]]]; try reflexivity; vm_compute in E; discriminate E. Qed.
Example C88_projects_witness : well_formed (sample_settings false) (sample_dicts two_configs) sample_targets "binding.gyp" (object (sample_settings false) (sample_dicts two_configs)) /\ fair in_turn /\
  (exists lines, solution (sample_settings false) in_turn sample_targets (sample_dicts two_configs) "binding.gyp" = Some lines /\ length lines = 33 /\
    holds lines ["Project(""{8BC9CEB8-8B4A-11D0-8D11-00A0C91BC942}"") = ""addon"", ""addon.vcxproj"", ""{A3}"""; tabs 1 "ProjectSection(ProjectDependencies) = postProject"; tabs 2 "{A1} = {A1}"; tabs 1 "EndProjectSection"; "EndProject"]).
Proof.
  split; [apply sample_formed|]. split; [exact in_turn_fair|]. eexists. split; [vm_compute; reflexivity|]. split; [reflexivity|]. exists ["Microsoft Visual Studio Solution File, Format Version 12.00"; "# Visual Studio 2015"]. eexists. reflexivity.
Qed.
Example C88_configurations_witness : plain_config "Release_x64" sample_config "Release" "x64" /\ plain_config "Debug" sample_config "Debug" "x64" /\ assoc addon (sample_dicts two_configs) = Some (sample "addon" "target" [zlib] "A3" two_configs) /\
  (forall n c, In (n, c) two_configs -> exists b pl, plain_config n c b pl) /\
  (forall q1 q2, in_solution sample_targets (sample_dicts two_configs) "binding.gyp" q1 -> in_solution sample_targets (sample_dicts two_configs) "binding.gyp" q2 -> guid (object (sample_settings false) (sample_dicts two_configs) q1) = guid (object (sample_settings false) (sample_dicts two_configs) q2) -> q1 = q2) /\
  in_solution sample_targets (sample_dicts two_configs) "binding.gyp" addon /\
  project_configurations (sample "addon" "target" [zlib] "A3" two_configs) = ["Debug|x64"; "Release|x64"].
Proof.
  assert (R : plain_config "Release_x64" sample_config "Release" "x64") by (repeat split; right; reflexivity). assert (D : plain_config "Debug" sample_config "Debug" "x64") by (repeat split; left; split; reflexivity).
  split; [exact R|]. split; [exact D|]. split; [reflexivity|]. split; [intros n c [E|[E|[]]]; injection E as <- <-; eauto|]. split; [apply sample_distinct|]. split; [apply sample_in; left; reflexivity|]. vm_compute. reflexivity.
Qed.
Definition arm_config : config := {| platform := Some "arm64"; target_platform := None |}.
Example C88_cross_witness : exists lines, solution (sample_settings true) in_turn ["a.gyp:tool#host"] [("a.gyp:tool#host", sample "tool" "host" [] "A1" [("Release", arm_config)])] "a.gyp" = Some lines /\
  holds lines [tabs 2 "{A1}.Release|arm64.ActiveCfg = Release|x64"; tabs 2 "{A1}.Release|arm64.Build.0 = Release|x64"] /\
  well_formed (sample_settings true) [("a.gyp:tool#host", sample "tool" "host" [] "A1" [("Release", arm_config)])] ["a.gyp:tool#host"] "a.gyp" (object (sample_settings true) [("a.gyp:tool#host", sample "tool" "host" [] "A1" [("Release", arm_config)])]).
Proof.
  eexists. split; [vm_compute; reflexivity|]. split.
  - eexists [_; _; _; _; _; _; _; _; _]. eexists. reflexivity.
  - split; [discriminate|]. split; [apply NoDup_cons; [intros []|apply NoDup_nil]|]. split; [|split].
    + intros q [<-|[]]. eexists. split; reflexivity.
    + intros q s d [<-|[]] A [D|D]; injection A as <-; destruct D.
    + exists ["a.gyp:tool#host"]. split; [apply NoDup_cons; [intros []|apply NoDup_nil]|]. split.
      * intros q. split.
        -- intros [<-|[]]. exists "a.gyp:tool#host". split; [left; reflexivity|]. split; [exists "tool#host"; split; reflexivity|apply itself].
        -- intros (root & [<-|[]] & _ & R). inversion R as [|q0 s d t A D R']; subst; [left; reflexivity|]. injection A as <-. destruct D as [[]|[]].
      * apply apart_if; [intros q [<-|[]]; apply (spot_of "a.gyp:tool#host" "a.gyp" "tool" "host" [] "a.gyp"); [repeat split|discriminate|apply one_piece; [apply piece_is; reflexivity|reflexivity]]|intros q1 q2 more [<-|[]] [<-|[]] _; reflexivity].
Qed.
Example C88_place_witness : exists pr, create (fun s => s) "" None false zlib (sample "zlib" "target" [] "" two_configs) = Some pr /\ path pr = "deps/zlib\zlib.vcxproj" /\ guid pr = "{msvs_new-deps-/zli-b\zl-ib.vcxproj}" /\
  named zlib "deps/zlib/zlib.gyp" "zlib" "target" /\ consists "deps/zlib" ["deps"; "zlib"] /\ piece "zlib" /\ piece "zlib.gyp".
Proof.
  eexists. split; [reflexivity|]. split; [reflexivity|]. split; [reflexivity|]. split; [repeat split|]. split; [|split; apply piece_is; reflexivity]. apply (longer "deps" ["deps"] "/" "zlib"); [|auto|apply piece_is; reflexivity]. apply one_piece; [apply piece_is; reflexivity|reflexivity].
Qed.
Example C88_guid_witness : create (fun s => s) "" None false zlib (sample "zlib" "target" [] "12AB-4" two_configs) <> None /\ create (fun s => s) "" None false zlib (sample "zlib" "target" [] "12ab" two_configs) = None.
Proof. split; [discriminate|reflexivity]. Qed.

(** ** what does not hold *)
(** "The same .gyp files give the same solution": the configurations are kept in a Python
    set (msvs.py:2111-2119) and are written in the order it is walked through
    (MSVSNew.py:307, 322), which for strings changes from one run of Python to the next
    unless PYTHONHASHSEED is set: the solution file is rewritten with its lines in
    another order although nothing has changed. *)
Theorem C88_order_refuted : exists st dicts targets file p lines1 lines2, well_formed st dicts targets file p /\ fair in_turn /\ fair backwards /\
  solution st in_turn targets dicts file = Some lines1 /\ solution st backwards targets dicts file = Some lines2 /\ lines1 <> lines2.
Proof.
  exists (sample_settings false), (sample_dicts two_configs), sample_targets, "binding.gyp", (object (sample_settings false) (sample_dicts two_configs)). eexists. eexists. split; [apply sample_formed|]. split; [exact in_turn_fair|]. split; [exact backwards_fair|]. split; [vm_compute; reflexivity|]. split; [vm_compute; reflexivity|]. intros E. apply (f_equal (fun l => nth 13 l "")) in E. vm_compute in E. discriminate E.
Qed.
Print Assumptions C88_order_refuted.
(** "What a configuration of the solution builds is a configuration of the project": the
    solution cuts the platform off the end of the name of a configuration (msvs.py:311-315),
    the project whatever is behind the last underscore (msvs.py:2898). A configuration
    called Release_static is Release_static|Win32 in the solution, and Release|Win32 in
    the project; Visual Studio then does not build the project. *)
Theorem C88_underscore_refuted : exists st dicts targets file p s lines, well_formed st dicts targets file p /\ fair in_turn /\ solution st in_turn targets dicts file = Some lines /\
  assoc addon dicts = Some s /\ map fst (configurations s) = ["Release_static"] /\
  In (tabs 2 "{A3}.Release_static|Win32.ActiveCfg = Release_static|Win32") lines /\ project_configurations s = ["Release|Win32"].
Proof.
  set (cs := [("Release_static", {| platform := None; target_platform := None |})]). exists (sample_settings false), (sample_dicts cs), sample_targets, "binding.gyp", (object (sample_settings false) (sample_dicts cs)). eexists. eexists. split; [apply sample_formed|]. split; [exact in_turn_fair|]. split; [vm_compute; reflexivity|]. split; [reflexivity|]. split; [reflexivity|]. split; [|vm_compute; reflexivity]. vm_compute. repeat (first [left; reflexivity | right]).
Qed.
Print Assumptions C88_underscore_refuted.
(** "Each target of a .gyp file is in its solution": in the tree of folders a target of
    the toolset host is kept under its name with _host behind it (msvs.py:1856-1861), and
    replaces another target that has that name. Only one of the two is then in the
    solution, though both are written and others may depend on them. *)
Theorem C88_host_refuted : exists st dicts targets file lines, fair in_turn /\ NoDup targets /\ solution st in_turn targets dicts file = Some lines /\
  In "a.gyp:tool_host#target" targets /\ In "a.gyp:tool#host" targets /\ file = "a.gyp" /\ length (filter (String.prefix project_start) lines) = 1.
Proof.
  set (cs := [("Release", arm_config)]). exists (sample_settings true), [("a.gyp:tool_host#target", sample "tool_host" "target" [] "A1" cs); ("a.gyp:tool#host", sample "tool" "host" [] "A2" cs)], ["a.gyp:tool_host#target"; "a.gyp:tool#host"], "a.gyp". eexists. split; [exact in_turn_fair|]. split; [repeat (apply NoDup_cons; [intros X; cbn [In] in X; repeat (destruct X as [X|X]; [discriminate X|]); exact X|]); apply NoDup_nil|]. split; [vm_compute; reflexivity|]. split; [left; reflexivity|]. split; [right; left; reflexivity|]. split; reflexivity.
Qed.
Print Assumptions C88_host_refuted.
(** "A configuration of the solution builds only projects that have it": every
    configuration any target has is written for every project (MSVSNew.py:321-335). A
    project without it is told to build one it has not got. *)
Theorem C88_lacking_refuted : exists st dicts targets file lines s, fair in_turn /\ NoDup targets /\ solution st in_turn targets dicts file = Some lines /\
  assoc "a.gyp:b#target" dicts = Some s /\ guid_of (md5 st) "b.vcxproj" s = Some "{A2}" /\
  In (tabs 2 "{A2}.Debug|x64.Build.0 = Debug|x64") lines /\ project_configurations s = ["Release|x64"].
Proof.
  exists (sample_settings false), [("a.gyp:a#target", sample "a" "target" [] "A1" [("Debug", sample_config)]); ("a.gyp:b#target", sample "b" "target" [] "A2" [("Release", sample_config)])], ["a.gyp:a#target"; "a.gyp:b#target"], "a.gyp". eexists. eexists. split; [exact in_turn_fair|]. split; [repeat (apply NoDup_cons; [intros X; cbn [In] in X; repeat (destruct X as [X|X]; [discriminate X|]); exact X|]); apply NoDup_nil|]. split; [vm_compute; reflexivity|]. split; [reflexivity|]. split; [reflexivity|]. split; [|vm_compute; reflexivity]. vm_compute. repeat (first [left; reflexivity | right]).
Qed.
Print Assumptions C88_lacking_refuted.
