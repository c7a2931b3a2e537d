(** The command lines that node-gyp build runs. *)
From Coq Require Import ZArith Lia.
From Verif Require Import Lib LibFacts Str StrFacts Spec_Text Proof_Text Model_Vs Spec_Vs Proof_Vs Model_Json Model_Gypi Spec_Gypi Proof_Gypi Proof_Gypi2 Proof_Gypi3 Model_Build Spec_Build Proof_Build.
Local Open Scope string_scope.

Lemma targets_plain : forall m argv, platform m <> "win32" -> targets m argv = argv.
Proof. intros m argv W. unfold targets, win. apply String.eqb_neq in W. rewrite W. destruct (String.eqb (platform_make m) "gmake"); reflexivity. Qed.
Lemma make_windows : forall m, platform m = "win32" -> platform_make m = "make".
Proof. intros m W. unfold platform_make. rewrite W. reflexivity. Qed.
Lemma targets_win : forall m argv, platform m = "win32" -> targets m argv = map (fun t => "/t:" ++ t) argv.
Proof. intros m argv W. unfold targets, win. rewrite (make_windows m W), W. reflexivity. Qed.

Theorem make_runs : forall m argv c o_make o_jobs command ty j,
  platform m <> "win32" -> NoDup (map fst (options m)) -> config_data m = Some (config_file c) -> configuration c -> (0 < cpus m)%Z ->
  option_text "make" (options m) o_make -> command_asked (platform m) [o_make; env_make m] command ->
  option_text "jobs" (options m) o_jobs -> jobs_asked (cpus m) [o_jobs; env_jobs m] j ->
  type_asked (options m) c ty -> Forall plain_goal argv ->
  (found m command = true -> exists args, build m argv = Runs command args /\ forall r, make_reads args r <->
     r = {| goals := argv; settings := ((if verbose m then [("V", "1")] else []) ++ [("BUILDTYPE", ty)])%list; directory := Some "build"; parallel := j |}) /\
  (found m command = false -> build m argv = Fails Not_found).
Proof.
  intros m argv c om oj command ty j W N C HC CP OM CA OJ JA TA F. destruct (read_it c HC) as (c' & d & d' & t & t' & v & v' & L & R).
  rewrite (build_unfold m argv c c' d d' t t' v v' C L R). cbn zeta. unfold run_of. unfold win. rewrite (proj2 (String.eqb_neq _ _) W). rewrite (command_spec m om command N OM CA). rewrite (type_spec _ _ _ _ _ _ _ _ _ ty N R TA).
  split; intros FD; rewrite FD; [|reflexivity]. eexists. split; [reflexivity|]. unfold build_arguments. rewrite (targets_plain m argv W). rewrite (jobs_spec m _ j N oj OJ JA). cbn [negb andb]. rewrite !app_nil_r.
  assert (JR : make_reads (match j with Some n => ["--jobs"; rendering n] | None => [] end) {| goals := []; settings := []; directory := None; parallel := j |}).
  { destruct j as [n|]; [|exact mr_end]. apply (mr_jobs n [] nothing); [|exact mr_end]. inversion JA; subst; assumption. }
  assert (BR := mr_setting "BUILDTYPE" ty _ _ (eq_refl : has_char "=" "BUILDTYPE" = false) ltac:(discriminate) ltac:(intros (x & E); discriminate) (mr_directory "build" _ _ JR)). cbn [goals settings directory parallel] in BR.
  assert (AR : make_reads ((argv ++ (if verbose m then ["V=1"] else [])) ++ ["BUILDTYPE=" ++ ty; "-C"; "build"]%string ++ (match j with Some n => ["--jobs"; rendering n] | None => [] end))
    {| goals := argv; settings := ((if verbose m then [("V", "1")] else []) ++ [("BUILDTYPE", ty)])%list; directory := Some "build"; parallel := j |}).
  { rewrite <- app_assoc. destruct (verbose m).
    - assert (VR := mr_setting "V" "1" _ _ (eq_refl : has_char "=" "V" = false) ltac:(discriminate) ltac:(intros (x & E); discriminate) BR). cbn [goals settings directory parallel] in VR.
      assert (GR := read_goals argv _ _ F VR). unfold add_goals in GR. cbn [goals settings directory parallel] in GR. rewrite app_nil_r in GR. exact GR.
    - assert (GR := read_goals argv _ _ F BR). unfold add_goals in GR. cbn [goals settings directory parallel] in GR. rewrite app_nil_r in GR. exact GR. }
  intros r. split; [|intros ->; exact AR]. intros RR. symmetry. exact (make_unique _ _ AR _ RR).
Qed.

Lemma read_targets : forall ts ws r, msbuild_reads ws r -> msbuild_reads (map (fun t => "/t:" ++ t) ts ++ ws)
  {| projects := projects r; asked := (ts ++ asked r)%list; properties := properties r; nodes := nodes r; quiet := quiet r |}.
Proof. induction ts as [|t ts IH]; intros ws r R; [destruct r; exact R|]. cbn [map app]. exact (br_target t _ _ (IH ws r R)). Qed.
Lemma platform_plain : forall arch, has_char ";" (msbuild_platform arch) = false.
Proof. intros arch. unfold msbuild_platform. repeat (destruct (String.eqb _ _); [reflexivity|]). reflexivity. Qed.

Theorem msbuild_runs : forall m argv c o_sol o_jobs s0 rest solution path arch p ty j,
  platform m = "win32" -> NoDup (map fst (options m)) -> config_data m = Some (config_file c) -> configuration c ->
  solutions m = s0 :: rest -> option_text "solution" (options m) o_sol -> first_given [o_sol; Some s0] solution -> ~ (exists s', solution = String "/" s') ->
  holds c ["variables"; "msbuild_path"] (JStr path) -> path <> "" ->
  holds c ["variables"; "target_arch"] (JStr arch) -> msbuild_name arch p ->
  option_text "jobs" (options m) o_jobs -> jobs_asked (cpus m) [o_jobs; env_jobs m] j ->
  type_asked (options m) c ty -> has_char ";" ty = false ->
  Forall (fun t => ~ names_solution t) argv ->
  exists args, build m argv = Runs path args /\ forall r, msbuild_reads args r <->
    r = {| projects := [solution]; asked := argv; properties := [("Configuration", ty); ("Platform", p)]; nodes := j; quiet := negb (verbose m) |}.
Proof.
  intros m argv c os oj s0 rest solution path arch p ty j W N C HC SO OS FS NS HP PN HA MN OJ JA TA TS F. destruct (read_it c HC) as (c' & d & d' & t & t' & v & v' & L & R).
  rewrite (build_unfold m argv c c' d d' t t' v v' C L R). cbn zeta. unfold run_of. unfold win. rewrite W, String.eqb_refl, SO. rewrite (variable_spec _ _ _ _ _ _ _ _ _ _ R HP), (variable_spec _ _ _ _ _ _ _ _ _ _ R HA). cbn [text_of]. rewrite (proj2 (String.eqb_neq _ _) PN).
  rewrite (type_spec _ _ _ _ _ _ _ _ _ ty N R TA). eexists. split; [reflexivity|]. unfold build_arguments. rewrite (targets_win m argv W). rewrite (jobs_spec m _ j N oj OJ JA). cbn [negb andb app].
  assert (EV : (if negb (verbose m) then ["/clp:Verbosity=minimal"] else []) = (if verbose m then [] else ["/clp:Verbosity=minimal"])) by (destruct (verbose m); reflexivity). rewrite EV.
  pose proof (no_solution (verbose m) argv ty arch j F) as NO. cbn [app] in NO. rewrite NO. rewrite (option_text_spec _ _ _ N OS), SO. cbn [hd_error]. rewrite (or_else_first _ _ _ FS). rewrite (platform_name arch p MN).
  assert (JR : msbuild_reads (match j with Some n => ["/m:" ++ rendering n]%string | None => [] end) {| projects := []; asked := []; properties := []; nodes := j; quiet := false |}).
  { destruct j as [n|]; [|exact br_end]. exact (br_nodes n [] no_request br_end). }
  assert (HPl : has_char ";" p = false) by (rewrite <- (platform_name arch p MN); apply platform_plain).
  assert (PR := br_two "Configuration" ty "Platform" p _ _ eq_refl TS eq_refl HPl JR). apply br_logo in PR. cbn [projects asked properties nodes quiet] in PR.
  assert (QR : msbuild_reads ((if verbose m then [] else ["/clp:Verbosity=minimal"]) ++ "/nologo" :: ("/p:" ++ "Configuration" ++ "=" ++ ty ++ ";" ++ "Platform" ++ "=" ++ p) :: match j with Some n => ["/m:" ++ rendering n]%string | None => [] end)
     {| projects := []; asked := []; properties := [("Configuration", ty); ("Platform", p)]; nodes := j; quiet := negb (verbose m) |}).
  { destruct (verbose m); [exact PR|]. exact (br_quiet _ _ PR). }
  assert (TR := read_targets argv _ _ QR). cbn [projects asked properties nodes quiet] in TR. rewrite app_nil_r in TR. assert (AR := br_project solution _ _ NS TR). cbn [projects asked properties nodes quiet] in AR.
  intros r. rewrite <- !app_assoc. cbn [app]. split; [|intros ->; exact AR]. intros RR. symmetry. exact (msbuild_unique _ _ AR _ RR).
Qed.

(** ** What configure has chosen is what is built *)
Theorem configured : forall sur opts node_dir python vs base, NoDup (map fst opts) -> Forall (fun e => unique (snd e)) opts -> source sur opts node_dir base -> unique base ->
  configuration (JObj (current_config sur opts node_dir python vs)) /\
  forall later ty, (forall v, ~ In ("debug", v) later) -> type_asked opts base ty -> type_asked later (JObj (current_config sur opts node_dir python vs)) ty.
Proof.
  intros sur opts nd py vs b N F S U. assert (SB := source_base _ _ _ _ N S). rewrite (current_is sur opts nd py vs b SB).
  assert (NC : NoDup (map fst (config sur opts nd py vs b))) by (apply config_NoDup; assumption).
  split.
  - split; [apply config_unique; assumption|]. split; eexists; (apply holds_assoc; [exact NC|]); unfold config; [rewrite Proof_Merge2.assoc_set_other by discriminate|]; apply Proof_Merge2.assoc_set_same.
  - intros later ty NL T. assert (D : forall w, set_default sur opts vs b "default_configuration" w -> holds (JObj (config sur opts nd py vs b)) ["target_defaults"; "default_configuration"] w).
    { intros w W. apply config_defs'; try assumption. eapply defaults_iff; try eassumption. left. exact W. }
    destruct T as [G|x I G|t NO H NE|NO H].
    + apply ty_configured; [exact NL| |discriminate]. apply D, sd_debug, G.
    + apply ty_configured; [exact NL| |discriminate]. apply D. eapply sd_release; eassumption.
    + apply ty_configured; [exact NL| |exact NE]. apply config_defs'; try assumption. eapply defaults_iff; try eassumption. right. split; [|exact H]. intros y Y. inversion Y; subst; try (match goal with X : In _ _ |- _ => cbn in X; intuition discriminate end).
      * destruct H0 as (w & W & _). exact (NO w W).
      * eapply NO; eassumption.
      * match goal with X : forall v, holds _ _ v -> _ |- _ => apply X in H; cbn in H; intuition congruence end.
    + apply ty_configured; [exact NL| |discriminate]. apply D, sd_default; [exact NO|]. intros v V. apply H in V. cbn in V |- *. tauto.
Qed.

(** ** What goes wrong *)
Definition windows (sols : list string) (mk : bool) (config : json) : machine :=
  {| platform := "win32"; options := []; env_make := None; env_jobs := None; config_data := Some (config_file config); solutions := sols; has_makefile := mk; verbose := false; cpus := 8; found := fun _ => true |}.
Definition small : json := JObj [("target_defaults", JObj [("default_configuration", JStr "Debug")]); ("variables", JObj [("target_arch", JStr "X64"); ("msbuild_path", JStr "C:\msbuild.exe")])].
Lemma small_configuration : configuration small.
Proof.
  split; [|split; eexists; (eapply ho_entry; [first [left; reflexivity|right; left; reflexivity]|constructor])].
  constructor; [cbn; constructor; [cbn; intuition discriminate|constructor; [intros []|constructor]]|]. constructor; [|constructor; [|constructor]]; cbn [snd]; (constructor; [cbn|repeat constructor]).
  - constructor; [intros []|constructor].
  - constructor; [cbn; intuition discriminate|constructor; [intros []|constructor]].
Qed.
Lemma own_solution : exists args, build (windows ["build/binding.sln"] false small) ["my.sln"] = Runs "C:\msbuild.exe" args /\
  msbuild_reads args {| projects := []; asked := ["my.sln"]; properties := [("Configuration", "Debug"); ("Platform", "x64")]; nodes := None; quiet := true |}.
Proof.
  eexists. split; [vm_compute; reflexivity|]. apply (br_target "my.sln" _ {| projects := []; asked := []; properties := _; nodes := None; quiet := true |}).
  apply (br_quiet _ {| projects := []; asked := []; properties := [("Configuration", "Debug"); ("Platform", "x64")]; nodes := None; quiet := false |}). apply br_logo.
  apply (br_two "Configuration" "Debug" "Platform" "x64" [] no_request); try reflexivity. exact br_end.
Qed.
Lemma make_on_windows : exists args, build (windows [] true small) ["clean"] = Runs "make" args /\
  make_reads args {| goals := ["/t:clean"]; settings := [("BUILDTYPE", "Debug")]; directory := Some "build"; parallel := None |}.
Proof.
  eexists. split; [vm_compute; reflexivity|].
  apply (mr_goal "/t:clean" _ {| goals := []; settings := [("BUILDTYPE", "Debug")]; directory := Some "build"; parallel := None |}); [split; [discriminate|]; split; [reflexivity|intros (x & E); discriminate]|].
  apply (mr_setting "BUILDTYPE" "Debug" _ {| goals := []; settings := []; directory := Some "build"; parallel := None |}); [reflexivity|discriminate|intros (x & E); discriminate|]. apply (mr_directory "build" [] nothing), mr_end.
Qed.
