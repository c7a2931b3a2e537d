(** C64: what node-gyp build runs. *)
From Coq Require Import ZArith.
From Verif Require Import Lib Str Spec_Text Spec_Vs Model_Vs Model_Json Model_Gypi Spec_Gypi Model_Build Spec_Build Proof_Build Proof_Build2.
Local Open Scope string_scope.

(** C64: where there is no MSBuild, make is run in build/ for the targets that
    were named, in the build type that was asked for or configured, with the
    jobs that were asked for, and nothing else; make can read the command line
    in no other way. *)
Theorem C64_make : forall m argv c o_make o_jobs command ty j,
  platform m <> "win32" -> NoDup (map fst (options m)) -> config_data m = Some (config_file c) -> configuration c -> (0 < cpus m)%Z ->
  option_text "make" (options m) o_make -> command_asked (platform m) [o_make; env_make m] command ->
  option_text "jobs" (options m) o_jobs -> jobs_asked (cpus m) [o_jobs; env_jobs m] j ->
  type_asked (options m) c ty -> Forall plain_goal argv ->
  (found m command = true -> exists args, build m argv = Runs command args /\ forall r, make_reads args r <->
     r = {| goals := argv; settings := ((if verbose m then [("V", "1")] else []) ++ [("BUILDTYPE", ty)])%list; directory := Some "build"; parallel := j |}) /\
  (found m command = false -> build m argv = Fails Not_found).
Proof. exact make_runs. Qed.
Print Assumptions C64_make.

Example C64_make_witness : let m := {| platform := "freebsd"; options := [("jobs", JStr "Max"); ("debug", JBool true)]; env_make := Some ""; env_jobs := Some "3"; config_data := Some (config_file small);
    solutions := []; has_makefile := true; verbose := true; cpus := 8; found := String.eqb "gmake" |} in
  platform m <> "win32" /\ NoDup (map fst (options m)) /\ config_data m = Some (config_file small) /\ configuration small /\ (0 < cpus m)%Z /\
  option_text "make" (options m) None /\ command_asked (platform m) [None; env_make m] "gmake" /\
  option_text "jobs" (options m) (Some "Max") /\ jobs_asked (cpus m) [Some "Max"; env_jobs m] (Some 8%Z) /\
  type_asked (options m) small "Debug" /\ Forall plain_goal ["all"; "lint"] /\ found m "gmake" = true.
Proof.
  cbn. split; [discriminate|]. split; [constructor; [cbn; intuition discriminate|constructor; [intros []|constructor]]|]. split; [reflexivity|]. split; [exact small_configuration|]. split; [reflexivity|].
  split; [apply ot_not; cbn; intuition discriminate|].
  split; [apply ca_default; [intros o [<-|[<-|[]]]; auto|apply dm_gmake; right; right; exists "free", ""; reflexivity]|].
  split; [apply ot_given; left; reflexivity|].
  split; [apply (ja_max _ _ "Max"); [exists [], [Some "3"]; split; [reflexivity|]; split; [discriminate|intros o []]|exists "M"%char, "a"%char, "x"%char; cbn; auto]|].
  split; [apply ty_debug; exists (JBool true); cbn; intuition discriminate|]. split; [|reflexivity].
  repeat constructor; try discriminate; intros (x & E); discriminate.
Qed.

(** On Windows MSBuild is run on the chosen or the first solution, for the named
    targets, the build type and the platform. *)
Theorem C64_msbuild : forall m argv c o_sol o_jobs s0 rest solution path arch p ty j,
  platform m = "win32" -> NoDup (map fst (options m)) -> config_data m = Some (config_file c) -> configuration c ->
  solutions m = s0 :: rest -> option_text "solution" (options m) o_sol -> first_given [o_sol; Some s0] solution -> ~ (exists s', solution = String "/" s') ->
  holds c ["variables"; "msbuild_path"] (JStr path) -> path <> "" ->
  holds c ["variables"; "target_arch"] (JStr arch) -> msbuild_name arch p ->
  option_text "jobs" (options m) o_jobs -> jobs_asked (cpus m) [o_jobs; env_jobs m] j ->
  type_asked (options m) c ty -> has_char ";" ty = false ->
  Forall (fun t => ~ names_solution t) argv ->
  exists args, build m argv = Runs path args /\ forall r, msbuild_reads args r <->
    r = {| projects := [solution]; asked := argv; properties := [("Configuration", ty); ("Platform", p)]; nodes := j; quiet := negb (verbose m) |}.
Proof. exact msbuild_runs. Qed.
Print Assumptions C64_msbuild.

Example C64_msbuild_witness : let m := windows ["build/binding.sln"; "build/z.sln"] false small in
  platform m = "win32" /\ NoDup (map fst (options m)) /\ config_data m = Some (config_file small) /\ configuration small /\
  solutions m = ["build/binding.sln"; "build/z.sln"] /\ option_text "solution" (options m) None /\ first_given [None; Some "build/binding.sln"] "build/binding.sln" /\ ~ (exists s', "build/binding.sln" = String "/" s') /\
  holds small ["variables"; "msbuild_path"] (JStr "C:\msbuild.exe") /\ holds small ["variables"; "target_arch"] (JStr "X64") /\ msbuild_name "X64" "x64" /\
  option_text "jobs" (options m) None /\ jobs_asked (cpus m) [None; env_jobs m] None /\ type_asked (options m) small "Debug" /\ has_char ";" "Debug" = false /\ Forall (fun t => ~ names_solution t) ["Rebuild"].
Proof.
  cbn [windows platform options config_data solutions cpus env_jobs map]. split; [reflexivity|]. split; [constructor|]. split; [reflexivity|]. split; [exact small_configuration|]. split; [reflexivity|].
  split; [apply ot_not; intros s []|]. split; [exists [None], []; split; [reflexivity|]; split; [discriminate|]; intros o [<-|[]]; auto|]. split; [intros (x & E); discriminate|].
  split; [eapply ho_entry; [right; left; reflexivity|]; eapply ho_entry; [right; left; reflexivity|constructor]|].
  split; [eapply ho_entry; [right; left; reflexivity|]; eapply ho_entry; [left; reflexivity|constructor]|].
  split; [apply mn_x64; apply sl_upper; [split; discriminate|reflexivity|]; repeat constructor|]. split; [apply ot_not; intros s []|]. split; [apply ja_none; intros o [<-|[<-|[]]]; auto|].
  split; [apply ty_configured; [intros v []| |discriminate]; eapply ho_entry; [left; reflexivity|]; eapply ho_entry; [left; reflexivity|constructor]|]. split; [reflexivity|].
  constructor; [|constructor]. intros H. apply (solution_end "Rebuil" "d") in H. cbn in H. intuition discriminate.
Qed.

(** Without build/config.gypi nothing is run. *)
Theorem C64_unconfigured : forall m argv command args, build m argv = Runs command args -> exists text, config_data m = Some text.
Proof. intros m argv command args. unfold build. destruct (config_data m); [eauto|discriminate]. Qed.
Print Assumptions C64_unconfigured.

(** What configure was asked to prepare is what a later build makes, unless the
    build is asked for something else: C64_make and C64_msbuild apply to the
    configuration that was written, and the build type is the one of configure. *)
Theorem C64_configured : forall sur opts node_dir python vs base, NoDup (map fst opts) -> Forall (fun e => unique (snd e)) opts -> source sur opts node_dir base -> unique base ->
  configuration (JObj (current_config sur opts node_dir python vs)) /\
  forall later ty, (forall v, ~ In ("debug", v) later) -> type_asked opts base ty -> type_asked later (JObj (current_config sur opts node_dir python vs)) ty.
Proof. exact configured. Qed.
Print Assumptions C64_configured.

Example C64_configured_witness : exists sur opts base, NoDup (map fst opts) /\ Forall (fun e => unique (snd e)) opts /\ source sur opts "" base /\ unique base /\ type_asked opts base "Debug".
Proof.
  exists {| process_config := small; is_win := false; process_arch := "x64"; header_config := None |}, [("debug", JBool true)], small. split; [cbn; constructor; [intros []|constructor]|]. split; [repeat constructor|].
  split; [apply so_none; reflexivity|]. split; [apply small_configuration|]. apply ty_debug. exists (JBool true). cbn. intuition discriminate.
Qed.

(** The words of a command line mean one thing only. *)
Theorem C64_make_reads_unique : forall ws r r', make_reads ws r -> make_reads ws r' -> r = r'.
Proof. intros ws r r' H H'. exact (make_unique ws r H r' H'). Qed.
Print Assumptions C64_make_reads_unique.
Theorem C64_msbuild_reads_unique : forall ws r r', msbuild_reads ws r -> msbuild_reads ws r' -> r = r'.
Proof. intros ws r r' H H'. exact (msbuild_unique ws r H r' H'). Qed.
Print Assumptions C64_msbuild_reads_unique.

(** A solution of one's own as an argument is taken for a target, and then there
    is no solution at all. *)
Theorem C64_solution_refuted : ~ forall m argv path args r s, platform m = "win32" -> solutions m <> [] -> In s argv -> names_solution s -> build m argv = Runs path args -> msbuild_reads args r -> projects r <> [].
Proof.
  intros H. destruct own_solution as (args & B & R). apply (H (windows ["build/binding.sln"] false small) ["my.sln"] "C:\msbuild.exe" args _ "my.sln") in R; [apply R; reflexivity|reflexivity|discriminate|left; reflexivity| |exact B]. exists "my", "". split; [reflexivity|discriminate].
Qed.
Print Assumptions C64_solution_refuted.
(** With make on Windows the targets are not the ones that were named. *)
Theorem C64_windows_make_refuted : ~ forall m argv command args r, solutions m = [] -> Forall plain_goal argv -> build m argv = Runs command args -> make_reads args r -> goals r = argv.
Proof.
  intros H. destruct make_on_windows as (args & B & R). apply (H (windows [] true small) ["clean"] "make" args) in R; [discriminate|reflexivity| |exact B]. repeat constructor; try discriminate. intros (x & E). discriminate.
Qed.
Print Assumptions C64_windows_make_refuted.
