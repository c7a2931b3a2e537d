(** How make and MSBuild read a command line, and what a build should be. *)
From Coq Require Import ZArith.
From Verif Require Import Lib Str Spec_Text Spec_Vs Model_Json Spec_Gypi.
Local Open Scope string_scope.

(** What make is asked for. *)
Record make_request := { goals : list string; settings : list (string * string); directory : option string; parallel : option Z }.
Definition nothing : make_request := {| goals := []; settings := []; directory := None; parallel := None |}.
(** A word that make takes for a goal. *)
Definition plain_goal (g : string) : Prop := g <> "" /\ has_char "=" g = false /\ ~ (exists g', g = String "-" g').
(** The words of GNU make's command line that occur here: NAME=VALUE, -C DIR,
    --jobs N (a following word of digits belongs to --jobs), and goals. *)
Inductive make_reads : list string -> make_request -> Prop :=
| mr_end : make_reads [] nothing
| mr_setting n v ws r : has_char "=" n = false -> n <> "" -> ~ (exists n', n = String "-" n') -> make_reads ws r ->
    make_reads ((n ++ "=" ++ v) :: ws) {| goals := goals r; settings := (n, v) :: settings r; directory := directory r; parallel := parallel r |}
| mr_directory d ws r : make_reads ws r -> make_reads ("-C" :: d :: ws) {| goals := goals r; settings := settings r; directory := Some d; parallel := parallel r |}
| mr_jobs n ws r : (0 < n)%Z -> make_reads ws r -> make_reads ("--jobs" :: rendering n :: ws) {| goals := goals r; settings := settings r; directory := directory r; parallel := Some n |}
| mr_goal g ws r : plain_goal g -> make_reads ws r ->
    make_reads (g :: ws) {| goals := g :: goals r; settings := settings r; directory := directory r; parallel := parallel r |}.

(** What MSBuild is asked for: words that start with a slash are switches, any
    other is the project. *)
Record msbuild_request := { projects : list string; asked : list string; properties : list (string * string); nodes : option Z; quiet : bool }.
Definition no_request : msbuild_request := {| projects := []; asked := []; properties := []; nodes := None; quiet := false |}.
Inductive msbuild_reads : list string -> msbuild_request -> Prop :=
| br_end : msbuild_reads [] no_request
| br_target t ws r : msbuild_reads ws r -> msbuild_reads (("/t:" ++ t) :: ws) {| projects := projects r; asked := t :: asked r; properties := properties r; nodes := nodes r; quiet := quiet r |}
| br_two n1 v1 n2 v2 ws r : has_char "=" n1 = false -> has_char ";" v1 = false -> has_char "=" n2 = false -> has_char ";" v2 = false -> msbuild_reads ws r ->
    msbuild_reads (("/p:" ++ n1 ++ "=" ++ v1 ++ ";" ++ n2 ++ "=" ++ v2) :: ws)
      {| projects := projects r; asked := asked r; properties := (n1, v1) :: (n2, v2) :: properties r; nodes := nodes r; quiet := quiet r |}
| br_nodes n ws r : msbuild_reads ws r -> msbuild_reads (("/m:" ++ rendering n) :: ws) {| projects := projects r; asked := asked r; properties := properties r; nodes := Some n; quiet := quiet r |}
| br_quiet ws r : msbuild_reads ws r -> msbuild_reads ("/clp:Verbosity=minimal" :: ws) {| projects := projects r; asked := asked r; properties := properties r; nodes := nodes r; quiet := true |}
| br_logo ws r : msbuild_reads ws r -> msbuild_reads ("/nologo" :: ws) r
| br_project p ws r : ~ (exists p', p = String "/" p') -> msbuild_reads ws r -> msbuild_reads (p :: ws) {| projects := p :: projects r; asked := asked r; properties := properties r; nodes := nodes r; quiet := quiet r |}.

(** The first of these that is given and not empty. *)
Definition first_given (l : list (option string)) (s : string) : Prop := exists l1 l2, l = (l1 ++ Some s :: l2)%list /\ s <> "" /\ forall o, In o l1 -> o = None \/ o = Some "".
Definition none_given (l : list (option string)) : Prop := forall o, In o l -> o = None \/ o = Some "".

(** max, in capitals or not *)
Definition spells_max (s : string) : Prop := exists a b c, s = String a (String b (String c "")) /\ In a ["m"; "M"]%char /\ In b ["a"; "A"]%char /\ In c ["x"; "X"]%char.
(** How many jobs are asked for by the option or the environment: a number at
    the start of the text, or all processors. *)
Inductive jobs_asked (cpus : Z) (texts : list (option string)) : option Z -> Prop :=
| ja_none : none_given texts -> jobs_asked cpus texts None
| ja_number s n : first_given texts s -> whole s n -> (0 < n)%Z -> jobs_asked cpus texts (Some n)
| ja_max s : first_given texts s -> spells_max s -> jobs_asked cpus texts (Some cpus)
| ja_other s : first_given texts s -> (forall n, (0 < n)%Z -> ~ whole s n) -> ~ spells_max s -> jobs_asked cpus texts None.
(** The build type: what the option says, else what was configured. *)
Inductive type_asked (opts : list (string * json)) (config : json) : string -> Prop :=
| ty_debug : given "debug" opts -> type_asked opts config "Debug"
| ty_release v : In ("debug", v) opts -> ~ given "debug" opts -> type_asked opts config "Release"
| ty_configured t : (forall v, ~ In ("debug", v) opts) -> holds config ["target_defaults"; "default_configuration"] (JStr t) -> t <> "" -> type_asked opts config t
| ty_default : (forall v, ~ In ("debug", v) opts) -> (forall x, holds config ["target_defaults"; "default_configuration"] x -> In x [JNull; JNum 0; JStr ""]) -> type_asked opts config "Release".
(** The value of a string option. *)
Inductive option_text (k : string) (opts : list (string * json)) : option string -> Prop :=
| ot_given s : In (k, JStr s) opts -> option_text k opts (Some s)
| ot_not : (forall s, ~ In (k, JStr s) opts) -> option_text k opts None.
(** The platforms where GNU make is called gmake. *)
Definition gmake_platform (p : string) : Prop := p = "aix" \/ p = "os400" \/ exists a b, p = a ++ "bsd" ++ b.
Inductive default_make (p : string) : string -> Prop :=
| dm_gmake : gmake_platform p -> default_make p "gmake"
| dm_make : ~ gmake_platform p -> default_make p "make".
Inductive command_asked (p : string) (texts : list (option string)) : string -> Prop :=
| ca_given c : first_given texts c -> command_asked p texts c
| ca_default c : none_given texts -> default_make p c -> command_asked p texts c.
(** The name MSBuild has for an architecture, in capitals or not. *)
Inductive same_letters : string -> string -> Prop :=
| sl_nil : same_letters "" ""
| sl_same a s t : same_letters s t -> same_letters (String a s) (String a t)
| sl_upper a b s t : (65 <= N_of_ascii a <= 90)%N -> N_of_ascii b = (N_of_ascii a + 32)%N -> same_letters s t -> same_letters (String a s) (String b t).
Inductive msbuild_name (arch : string) : string -> Prop :=
| mn_x64 : same_letters arch "x64" -> msbuild_name arch "x64"
| mn_arm : same_letters arch "arm" -> msbuild_name arch "ARM"
| mn_arm64 : same_letters arch "arm64" -> msbuild_name arch "ARM64"
| mn_other : (forall a, In a ["x64"; "arm"; "arm64"] -> ~ same_letters arch a) -> msbuild_name arch "Win32".
(** A word that names a solution file. *)
Definition names_solution (t : string) : Prop := exists a b, t = a ++ ".sln" ++ b /\ forall c, has_char c b = true -> c = "/"%char \/ c = "\"%char.
(** A configuration as configure writes it: objects with the variables and the
    defaults for targets. *)
Definition configuration (c : json) : Prop := unique c /\ (exists d, holds c ["target_defaults"] (JObj d)) /\ (exists d, holds c ["variables"] (JObj d)).
