(** Solutions: configurations, and the names of projects. *)
From Verif Require Import Model_Vcxproj Lib LibFacts Str StrFacts Model_Path Model_Value Model_Names Model_Solution Spec_Solution Proof_Solution Proof_Solution2 Proof_Solution3.
From Verif Require Model_Writer Proof_Merge2 Proof_Flags5 Proof_Vcxproj4 Proof_Commands.
Local Open Scope string_scope.

Lemma substring_front : forall a b, substring 0 (String.length a) (a ++ b) = a.
Proof. induction a as [|x a IH]; intros b; [destruct b; reflexivity|]. cbn [append String.length substring]. rewrite IH. reflexivity. Qed.
Lemma base_behind : forall base plat, base_name (base ++ "_" ++ plat) plat = base.
Proof.
  intros base plat. unfold base_name. rewrite (proj2 (Proof_Flags5.ends_iff ("_" ++ plat) (base ++ "_" ++ plat)) (ex_intro _ base eq_refl)). rewrite !Proof_Vcxproj4.slen_app. cbn [String.length]. replace (String.length base + (1 + String.length plat) - String.length plat - 1) with (String.length base) by lia. apply substring_front.
Qed.
Lemma base_alone : forall n plat, has_char "_" n = false -> base_name n plat = n.
Proof.
  intros n plat H. unfold base_name. destruct (Model_Writer.ends_with ("_" ++ plat) n) eqn:E; [|reflexivity]. apply Proof_Flags5.ends_iff in E. destruct E as (a & ->). rewrite has_char_app in H. apply Bool.orb_false_iff in H. destruct H as (_ & H). discriminate.
Qed.
Lemma plain_base : forall n c base plat, plain_config n c base plat -> config_platform c = plat /\ base_name n plat = base /\ target_platform c = None /\ match rsplit1 "_" n with Some (b, _) => b | None => n end = base.
Proof.
  intros n c base plat (-> & H & T & N). split; [reflexivity|]. split; [|split; [exact T|]]; destruct N as [(-> & B)| ->].
  - apply base_alone. exact B.
  - apply base_behind.
  - rewrite (proj2 (rsplit1_None "_" base) B). reflexivity.
  - rewrite (proj2 (rsplit1_Some "_" (base ++ "_" ++ match platform c with Some p => p | None => "Win32" end) base _) (conj eq_refl H)). reflexivity.
Qed.
Definition fixed (cross : bool) (s : spec) (nc : string * config) : string :=
  let '(name, c) := nc in
  let plat := match target_platform c with Some p => p | None => config_platform c end in
  if String.eqb (toolset s) "host" && cross then name ++ "|x64" else base_name name (config_platform c) ++ "|" ++ plat.
Lemma overrides_assoc : forall cross s n c, In (n, c) (configurations s) -> (forall n' c', In (n', c') (configurations s) -> full_name n' c' = full_name n c -> fixed cross s (n', c') = fixed cross s (n, c)) ->
  assoc (full_name n c) (overrides cross s) = Some (fixed cross s (n, c)).
Proof.
  intros cross s n c I H. unfold overrides.
  assert (G : forall l d, (forall n' c', In (n', c') l -> full_name n' c' = full_name n c -> fixed cross s (n', c') = fixed cross s (n, c)) -> In (n, c) l \/ assoc (full_name n c) d = Some (fixed cross s (n, c)) ->
    assoc (full_name n c) (fold_left (fun d nc => let '(name, c) := nc in let plat := match target_platform c with Some p => p | None => config_platform c end in let fixed := if String.eqb (toolset s) "host" && cross then name ++ "|x64" else base_name name (config_platform c) ++ "|" ++ plat in set_key (full_name name c) fixed d) l d) = Some (fixed cross s (n, c))).
  { induction l as [|[n' c'] l IH]; intros d F [J|A]; cbn [fold_left]; [destruct J|exact A| |].
    - destruct J as [J|J].
      + injection J as -> ->. apply IH; [intros a b X; apply F; right; exact X|]. right. apply Proof_Merge2.assoc_set_same.
      + apply IH; [intros a b X; apply F; right; exact X|]. left. exact J.
    - apply IH; [intros a b X; apply F; right; exact X|]. right. change (assoc (full_name n c) (set_key (full_name n' c') (fixed cross s (n', c')) d) = Some (fixed cross s (n, c))). destruct (String.string_dec (full_name n' c') (full_name n c)) as [E|E]; [rewrite E, (F n' c' (or_introl eq_refl) E); apply Proof_Merge2.assoc_set_same|]. rewrite Proof_Merge2.assoc_set_other; [exact A|]. congruence. }
  apply G; [exact H|auto].
Qed.
Lemma all_configs_In : forall cross dicts targets q s n c, In q targets -> assoc q dicts = Some s -> In (n, c) (configurations s) -> In (full_name n c) (all_configs cross dicts targets).
Proof.
  intros cross dicts targets q s n c I A J. unfold all_configs.
  assert (K1 : forall l (cs : list (string * config)) x, In x l -> In x (fold_left (fun l nc => let f := full_name (fst nc) (snd nc) in let l := oset_add f l in if String.eqb f "Release|arm64" then oset_add "Release|x64" l else l) cs l)).
  { intros l cs. revert l. induction cs as [|nc cs IH]; intros l x X; [exact X|]. cbn [fold_left]. apply IH. cbv zeta. destruct (String.eqb _ _); rewrite ?oset_add_In; auto. }
  assert (K2 : forall l (cs : list (string * config)), In (n, c) cs -> In (full_name n c) (fold_left (fun l nc => let f := full_name (fst nc) (snd nc) in let l := oset_add f l in if String.eqb f "Release|arm64" then oset_add "Release|x64" l else l) cs l)).
  { intros l cs. revert l. induction cs as [|nc cs IH]; intros l X; [destruct X|]. cbn [fold_left]. destruct X as [->|X]; [|apply IH; exact X]. apply K1. cbv zeta. cbn [fst snd]. destruct (String.eqb _ _); rewrite ?oset_add_In; auto. }
  assert (K3 : forall ts l x, In x l -> In x (fold_left (fun l q => match assoc q dicts with Some s => fold_left (fun l nc => let f := full_name (fst nc) (snd nc) in let l := oset_add f l in if String.eqb f "Release|arm64" then oset_add "Release|x64" l else l) (configurations s) l | None => l end) ts l)).
  { induction ts as [|t ts IH]; intros l x X; [exact X|]. cbn [fold_left]. apply IH. destruct (assoc t dicts); [apply K1; exact X|exact X]. }
  generalize (@nil string) as l. induction targets as [|t ts IH]; intros l; [destruct I|]. cbn [fold_left]. destruct I as [->|I]; [|apply IH; exact I]. apply K3. rewrite A. apply K2. exact J.
Qed.
Lemma variants_In : forall st o dicts targets v, fair o -> In v (all_configs (cross_compiling st) dicts targets) -> (cross_compiling st = true -> Model_Writer.ends_with "arm64" v = true) -> In v (variants_of st o dicts targets).
Proof.
  intros st o dicts targets v (W & _) I C. unfold variants_of. apply (Permutation_in _ (Permutation_sym (W _))) in I. assert (J : In v (if cross_compiling st then filter (Model_Writer.ends_with "arm64") (walk o (all_configs (cross_compiling st) dicts targets)) else walk o (all_configs (cross_compiling st) dicts targets))). { destruct (cross_compiling st); [apply filter_In; split; [exact I|apply C; reflexivity]|exact I]. }
  destruct (if cross_compiling st then _ else _); [destruct J|exact J].
Qed.
Lemma project_has : forall s n c, NoDup (map fst (configurations s)) -> In (n, c) (configurations s) ->
  In (match rsplit1 "_" n with Some (b, _) => b | None => n end ++ "|" ++ (if String.eqb (toolset s) "host" && String.eqb (config_platform c) "arm64" then "x64" else config_platform c)) (project_configurations s).
Proof.
  intros s n c N I. unfold project_configurations. apply in_map_iff. exists n. rewrite (In_assoc _ _ _ _ N I). split; [reflexivity|]. apply sort_In. change n with (fst (n, c)). apply in_map. exact I.
Qed.
Lemma NoDup_map_inj : forall A B (f : A -> B) l, NoDup l -> (forall x y, In x l -> In y l -> f x = f y -> x = y) -> NoDup (map f l).
Proof.
  intros A B f l. induction 1 as [|x l N1 N2 IH]; intros H; [apply NoDup_nil|]. cbn [map]. apply NoDup_cons.
  - intros I. apply in_map_iff in I. destruct I as (y & E & I). assert (y = x) by (apply H; [right; exact I|left; reflexivity|exact E]). subst y. contradiction.
  - apply IH. intros a b Ia Ib. apply H; right; assumption.
Qed.
Lemma enabled : forall st o dicts targets file p q s n c, well_formed st dicts targets file p -> fair o ->
  (forall q1 q2, in_solution targets dicts file q1 -> in_solution targets dicts file q2 -> guid (p q1) = guid (p q2) -> q1 = q2) ->
  in_solution targets dicts file q -> assoc q dicts = Some s -> In (n, c) (configurations s) ->
  (forall n' c', In (n', c') (configurations s) -> full_name n' c' = full_name n c -> fixed (cross_compiling st) s (n', c') = fixed (cross_compiling st) s (n, c)) ->
  (cross_compiling st = true -> Model_Writer.ends_with "arm64" (full_name n c) = true) ->
  exists lines, solution st o targets dicts file = Some lines /\ In (tabs 2 (full_name n c ++ " = " ++ full_name n c)) lines /\
    holds lines [tabs 2 (guid (p q) ++ "." ++ full_name n c ++ ".ActiveCfg = " ++ fixed (cross_compiling st) s (n, c)); tabs 2 (guid (p q) ++ "." ++ full_name n c ++ ".Build.0 = " ++ fixed (cross_compiling st) s (n, c))].
Proof.
  intros st o dicts targets file p q s n c W O G I A J F C. destruct (solution_is st o dicts targets file p W O) as (qs & es & N & IQ & E & P). eexists. split; [exact E|]. apply IQ in I.
  assert (NG : NoDup (map (fun q => guid (p q)) qs)) by (apply NoDup_map_inj; [exact N|]; intros x y X Y; apply G; apply IQ; assumption).
  assert (T : In q targets) by (apply (in_targets st dicts targets file p W), IQ, I).
  assert (V : In (full_name n c) (variants_of st o dicts targets)) by (apply variants_In; [exact O|exact (all_configs_In _ dicts targets q s n c T A J)|exact C]).
  assert (GI : In (guid (p q)) (map guid (flat_map project_of es))) by (apply in_map, (Permutation_in _ (Permutation_sym P)), in_map, I).
  pose proof (holds_config st targets p ["Microsoft Visual Studio Solution File, Format Version " ++ version st; "# " ++ description st] (variants_of st o dicts targets) es (guid (p q)) (full_name n c) GI V) as H. cbv zeta in H. rewrite (overrides_of p qs es NG P q I) in H. destruct W as (_ & _ & OB & _). destruct (OB q T) as (s' & A' & CR). assert (s' = s) by congruence. subst s'. apply create_needs in CR. destruct CR as (_ & CR). rewrite CR, (overrides_assoc (cross_compiling st) s n c J F) in H. exact H.
Qed.
Lemma configurations_ok : forall st o dicts targets file p q s n c base plat, well_formed st dicts targets file p -> fair o -> cross_compiling st = false ->
  (forall q1 q2, in_solution targets dicts file q1 -> in_solution targets dicts file q2 -> guid (p q1) = guid (p q2) -> q1 = q2) ->
  in_solution targets dicts file q -> assoc q dicts = Some s -> NoDup (map fst (configurations s)) -> (forall n' c', In (n', c') (configurations s) -> exists b pl, plain_config n' c' b pl) ->
  In (n, c) (configurations s) -> plain_config n c base plat ->
  exists lines, solution st o targets dicts file = Some lines /\ In (tabs 2 (base ++ "|" ++ plat ++ " = " ++ base ++ "|" ++ plat)) lines /\
    holds lines [tabs 2 (guid (p q) ++ "." ++ base ++ "|" ++ plat ++ ".ActiveCfg = " ++ base ++ "|" ++ plat); tabs 2 (guid (p q) ++ "." ++ base ++ "|" ++ plat ++ ".Build.0 = " ++ base ++ "|" ++ plat)] /\
    (toolset s <> "host" \/ plat <> "arm64" -> In (base ++ "|" ++ plat) (project_configurations s)).
Proof.
  intros st o dicts targets file p q s n c base plat W O CC G I A N PL J PC. assert (FX : forall n' c' b pl, plain_config n' c' b pl -> full_name n' c' = b ++ "|" ++ pl /\ fixed (cross_compiling st) s (n', c') = b ++ "|" ++ pl).
  { intros n' c' b pl X. apply plain_base in X. destruct X as (X1 & X2 & X3 & _). unfold full_name, fixed. rewrite CC, Bool.andb_false_r, X1, X2, X3. auto. }
  destruct (FX n c base plat PC) as (F1 & F2). destruct (enabled st o dicts targets file p q s n c W O G I A J) as (lines & E & H1 & H2).
  - intros n' c' J' E. destruct (PL n' c' J') as (b & pl & X). destruct (FX n' c' b pl X) as (Y1 & Y2). congruence.
  - rewrite CC. discriminate.
  - exists lines. split; [exact E|]. rewrite F1 in *. rewrite F2 in *. rewrite !append_assoc in *. cbn [append] in *. split; [exact H1|]. split; [exact H2|]. intros X. pose proof (project_has s n c N J) as PH. apply plain_base in PC. destruct PC as (P1 & _ & _ & P4). rewrite P4, P1 in PH. assert (Z : String.eqb (toolset s) "host" && String.eqb plat "arm64" = false) by (apply Bool.andb_false_iff; destruct X as [X|X]; [left|right]; apply String.eqb_neq; exact X). rewrite Z in PH. exact PH.
Qed.
Lemma cross_ok : forall st o dicts targets file p q s n c, well_formed st dicts targets file p -> fair o -> cross_compiling st = true ->
  (forall q1 q2, in_solution targets dicts file q1 -> in_solution targets dicts file q2 -> guid (p q1) = guid (p q2) -> q1 = q2) ->
  in_solution targets dicts file q -> assoc q dicts = Some s -> NoDup (map fst (configurations s)) ->
  (forall n' c', In (n', c') (configurations s) -> has_char "_" n' = false /\ platform c' = Some "arm64" /\ target_platform c' = None) -> In (n, c) (configurations s) ->
  let built := n ++ "|" ++ (if String.eqb (toolset s) "host" then "x64" else "arm64") in
  exists lines, solution st o targets dicts file = Some lines /\ In (tabs 2 (n ++ "|arm64 = " ++ n ++ "|arm64")) lines /\
    holds lines [tabs 2 (guid (p q) ++ "." ++ n ++ "|arm64.ActiveCfg = " ++ built); tabs 2 (guid (p q) ++ "." ++ n ++ "|arm64.Build.0 = " ++ built)] /\
    In built (project_configurations s).
Proof.
  intros st o dicts targets file p q s n c W O CC G I A N PL J built. assert (FX : forall n' c', In (n', c') (configurations s) -> full_name n' c' = n' ++ "|arm64" /\ fixed (cross_compiling st) s (n', c') = n' ++ "|" ++ (if String.eqb (toolset s) "host" then "x64" else "arm64")).
  { intros n' c' X. destruct (PL n' c' X) as (X1 & X2 & X3). assert (X4 : config_platform c' = "arm64") by (unfold config_platform; rewrite X2; reflexivity). unfold full_name, fixed. rewrite CC, Bool.andb_true_r, X4, X3, (base_alone n' "arm64" X1). split; [reflexivity|]. destruct (String.eqb (toolset s) "host"); reflexivity. }
  destruct (FX n c J) as (F1 & F2). destruct (enabled st o dicts targets file p q s n c W O G I A J) as (lines & E & H1 & H2).
  - intros n' c' J' E. destruct (FX n' c' J') as (Y1 & Y2). rewrite Y1, F1 in E. apply (f_equal (rsplit1 "|")) in E. rewrite (proj2 (rsplit1_Some "|" (n' ++ "|arm64") n' "arm64") (conj eq_refl eq_refl)), (proj2 (rsplit1_Some "|" (n ++ "|arm64") n "arm64") (conj eq_refl eq_refl)) in E. injection E as E. rewrite Y2, F2, E. reflexivity.
  - intros _. rewrite F1. apply Proof_Flags5.ends_iff. exists (n ++ "|"). rewrite append_assoc. reflexivity.
  - exists lines. split; [exact E|]. rewrite F1 in *. rewrite F2 in *. rewrite !append_assoc in *. cbn [append] in *. split; [exact H1|]. split; [exact H2|]. pose proof (project_has s n c N J) as PH. destruct (PL n c J) as (X1 & X2 & _). rewrite (proj2 (rsplit1_None "_" n) X1) in PH. unfold config_platform in PH. rewrite X2 in PH. change (String.eqb "arm64" "arm64") with true in PH. rewrite Bool.andb_true_r in PH. exact PH.
Qed.

(** ** where a project is *)
Lemma guid_chars : forall g, valid_guid g = true -> forall a, In a (list_ascii_of_string g) -> In a (list_ascii_of_string "0123456789ABCDEF-").
Proof.
  intros g H a I. unfold valid_guid in H. apply Bool.andb_true_iff in H. destruct H as (_ & H). rewrite forallb_forall in H. specialize (H a I). clear I. revert H. destruct a as [[] [] [] [] [] [] [] []]; intros H; vm_compute in H; try discriminate H; vm_compute; tauto.
Qed.
Lemma rooted_piece : forall n x, piece n -> has_char ":" n = false -> String.length n <> 0 -> rooted (n ++ x) = false /\ (has_char ":" (n ++ x) = false -> fst (nt_drive (n ++ x)) = "").
Proof.
  intros n x (N & H1 & H2) C _. destruct n as [|a n]; [contradiction|]. split.
  - cbn [append rooted]. cbn [has_char] in H1, H2. unfold is_sep. change backslash with "\"%char. destruct (Ascii.eqb a "/"); [discriminate|]. destruct (Ascii.eqb a "\"); [discriminate|]. reflexivity.
  - intros H. cbn [append] in *. destruct (n ++ x) as [|b r]; [reflexivity|]. cbn [nt_drive]. cbn [has_char] in H. destruct (Ascii.eqb a ":"); [discriminate|]. destruct (Ascii.eqb b ":"); [discriminate|reflexivity].
Qed.
Lemma create_path : forall md suffix q s file n ts pr cross, named q file n ts -> target_name s = n -> piece n -> has_char ":" suffix = false -> falsy (existing s) ->
  create md suffix None cross q s = Some pr -> let f := n ++ host_suffix (toolset s) ++ suffix ++ ".vcxproj" in
  name pr = n ++ host_suffix (toolset s) /\
  (piece file -> has_char ":" file = false -> path pr = f) /\
  (forall dir l sep base, consists dir l -> sep = "/" \/ sep = "\" -> piece base -> file = dir ++ sep ++ base -> path pr = dir ++ "\" ++ f).
Proof.
  intros md suffix q s file n ts pr cross NQ TN PN HS EX C f. unfold create in C. destruct (guid_of _ _ _); [|discriminate]. injection C as <-. cbn [name path]. unfold path_of. rewrite (named_file q file n ts NQ).
  assert (FN : file_name suffix s = f) by (unfold file_name, f, host_suffix; rewrite TN; destruct EX as [-> | ->]; reflexivity). rewrite FN. split; [rewrite TN; reflexivity|]. destruct NQ as (_ & HC & _). assert (CN : has_char ":" n = false) by (rewrite has_char_app in HC; apply Bool.orb_false_iff in HC; tauto). assert (CF : has_char ":" f = false). { unfold f. rewrite !has_char_app, CN, HS. unfold host_suffix. destruct (String.eqb (toolset s) "host"); reflexivity. }
  destruct (rooted_piece n (host_suffix (toolset s) ++ suffix ++ ".vcxproj") PN CN) as (R & D); [destruct PN as (PN & _); destruct n; [contradiction|discriminate]|]. fold f in R, D. specialize (D CF). split.
  - intros PF CFL. rewrite (split_one file PF CFL). cbn [fst]. unfold nt_join. rewrite R, D. reflexivity.
  - intros dir l sep base CD SEP PB ->. destruct (sep_char sep SEP) as (c & Hc & ->). change (dir ++ String c "" ++ base) with (dir ++ String c base). rewrite (split_longer dir l c base CD Hc PB). cbn [fst]. unfold nt_join. rewrite R, D. cbn [orb negb String.eqb]. destruct (consists_end dir l CD) as (a & z & -> & NZ & Z1 & Z2). assert (NE : String.eqb (a ++ z) "" = false) by (apply String.eqb_neq; destruct a; [exact NZ|discriminate]). rewrite NE.
    assert (ES : ends_sep (a ++ z) = false). { unfold ends_sep. rewrite Proof_Commands.list_ascii_app, rev_app_distr. assert (X : exists z' y, z = z' ++ String y "" /\ is_sep y = false). { clear -NZ Z1 Z2. induction z as [|x z IH]; [contradiction|]. cbn [has_char] in Z1, Z2. destruct (Ascii.eqb x "/") eqn:E1; [discriminate|]. destruct (Ascii.eqb x "\") eqn:E2; [discriminate|]. destruct z as [|y z]; [exists "", x; split; [reflexivity|]; unfold is_sep; change backslash with "\"%char; rewrite E1, E2; reflexivity|]. destruct IH as (z' & w & E & NW); [discriminate|exact Z1|exact Z2|]. exists (String x z'), w. split; [rewrite E; reflexivity|exact NW]. }
      destruct X as (z' & y & -> & Y). rewrite Proof_Commands.list_ascii_app, rev_app_distr. cbn. exact Y. }
    rewrite ES. reflexivity.
Qed.
Lemma create_guid : forall md suffix out cross q s pr, create md suffix out cross q s = Some pr ->
  (falsy (given_guid s) -> let d := md ("msvs_new" ++ path pr) in guid pr = "{" ++ substring 0 8 d ++ "-" ++ substring 8 4 d ++ "-" ++ substring 12 4 d ++ "-" ++ substring 16 4 d ++ "-" ++ substring 20 12 d ++ "}") /\
  (forall g, given_guid s = Some g -> g <> "" -> guid pr = "{" ++ g ++ "}" /\ forall a, In a (list_ascii_of_string g) -> In a (list_ascii_of_string "0123456789ABCDEF-")).
Proof.
  intros md suffix out cross q s pr C. unfold create, guid_of in C. split.
  - intros [E|E]; rewrite E in C; injection C as <-; reflexivity.
  - intros g E NE. rewrite E in C. destruct g as [|a g]; [contradiction|]. destruct (valid_guid (String a g)) eqn:V; [|discriminate]. injection C as <-. split; [reflexivity|]. exact (guid_chars _ V).
Qed.
Lemma guid_taken : forall md suffix out cross q s, falsy (given_guid s) \/ (exists g, given_guid s = Some g /\ forall a, In a (list_ascii_of_string g) -> In a (list_ascii_of_string "0123456789ABCDEF-")) -> exists pr, create md suffix out cross q s = Some pr.
Proof.
  intros md suffix out cross q s H. unfold create, guid_of. destruct H as [[E|E]|(g & E & H)]; rewrite E; try (eexists; reflexivity). destruct g as [|a g]; [eexists; reflexivity|].
  assert (V : valid_guid (String a g) = true); [|rewrite V; eexists; reflexivity]. unfold valid_guid. cbn [String.eqb negb andb]. apply forallb_forall. intros x X. specialize (H x X). clear X. vm_compute in H. repeat (destruct H as [<-|H]; [reflexivity|]). contradiction.
Qed.
