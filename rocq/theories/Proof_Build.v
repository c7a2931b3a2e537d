(** Proofs about node-gyp build. *)
From Coq Require Import ZArith Lia.
From Verif Require Import Lib LibFacts Str StrFacts Spec_Text Proof_Text Model_Vs Spec_Vs Proof_Vs Model_Json Model_Gypi Spec_Gypi Proof_Gypi Proof_Gypi2 Proof_Gypi3 Model_Build Spec_Build.
Local Open Scope string_scope.

(** ** What make reads *)
Definition add_goals (gs : list string) (r : make_request) : make_request := {| goals := (gs ++ goals r)%list; settings := settings r; directory := directory r; parallel := parallel r |}.
Lemma read_goals : forall gs ws r, Forall plain_goal gs -> make_reads ws r -> make_reads (gs ++ ws) (add_goals gs r).
Proof.
  induction 1 as [|g gs H F IH]; intros R; [destruct r; exact R|]. apply (mr_goal g (gs ++ ws)%list (add_goals gs r)); auto.
Qed.

(** ** The texts that are given *)
Lemma or_else_cases : forall a b, match or_else a b with Some s => first_given [a; b] s | None => none_given [a; b] end.
Proof.
  intros a b. unfold or_else. destruct a as [[|x a]|].
  - destruct b as [[|y b]|]; [intros o [<-|[<-|[]]]; auto|exists [Some ""], []; split; [reflexivity|]; split; [discriminate|]; intros o [<-|[]]; auto|intros o [<-|[<-|[]]]; auto].
  - exists [], [b]. split; [reflexivity|]. split; [discriminate|intros o []].
  - destruct b as [[|y b]|]; [intros o [<-|[<-|[]]]; auto|exists [None], []; split; [reflexivity|]; split; [discriminate|]; intros o [<-|[]]; auto|intros o [<-|[<-|[]]]; auto].
Qed.
Lemma first_given_unique : forall l s t, first_given l s -> first_given l t -> s = t.
Proof.
  induction l as [|o l IH]; intros s t (l1 & l2 & E1 & N1 & B1) (k1 & k2 & E2 & N2 & B2); [destruct l1; discriminate|].
  destruct l1 as [|x l1], k1 as [|y k1]; cbn [app] in E1, E2; injection E1 as -> E1; injection E2 as E0 E2.
  - congruence.
  - subst y. destruct (B2 (Some s) (or_introl eq_refl)) as [X|X]; congruence.
  - subst x. destruct (B1 (Some t) (or_introl eq_refl)) as [X|X]; congruence.
  - subst y. apply IH; [exists l1, l2|exists k1, k2]; split; auto; split; auto; intros o I; [apply B1|apply B2]; right; exact I.
Qed.
Lemma first_not_none : forall l s, first_given l s -> none_given l -> False.
Proof. intros l s (l1 & l2 & -> & N & B) H. destruct (H (Some s)); [apply in_or_app; right; left; reflexivity|discriminate|congruence]. Qed.
Lemma or_else_first : forall a b s, first_given [a; b] s -> or_else a b = Some s.
Proof.
  intros a b s H. pose proof (or_else_cases a b) as C. destruct (or_else a b) as [t|]; [f_equal; eapply first_given_unique; eassumption|exfalso; eapply first_not_none; eassumption].
Qed.
Lemma or_else_none : forall a b, none_given [a; b] -> or_else a b = None.
Proof.
  intros a b H. pose proof (or_else_cases a b) as C. destruct (or_else a b) as [t|]; [exfalso; eapply first_not_none; eassumption|reflexivity].
Qed.
Lemma option_text_spec : forall k opts o, NoDup (map fst opts) -> option_text k opts o -> text_option k opts = o.
Proof.
  intros k opts o N H. unfold text_option. inversion H as [s I|E]; subst.
  - rewrite (In_assoc _ k (JStr s) opts); auto.
  - destruct (assoc k opts) as [[]|] eqn:A; try reflexivity. apply assoc_In in A. destruct (E s A).
Qed.

(** ** Letters *)
Lemma lower_cases : forall a, (65 <= N_of_ascii a <= 90)%N /\ N_of_ascii (lower a) = (N_of_ascii a + 32)%N \/ lower a = a.
Proof.
  intros a. unfold lower. destruct (N.leb 65 (N_of_ascii a) && N.leb (N_of_ascii a) 90) eqn:E; [|right; reflexivity]. left.
  apply Bool.andb_true_iff in E. destruct E as [E1 E2]. apply N.leb_le in E1. apply N.leb_le in E2. split; [split; assumption|]. apply N_ascii_embedding. lia.
Qed.
Lemma same_lower : forall s t, to_lower s = t -> same_letters s t.
Proof.
  induction s as [|a s IH]; intros t <-; cbn [to_lower]; [constructor|]. destruct (lower_cases a) as [[H1 H2]| ->]; [apply sl_upper; auto|apply sl_same; auto].
Qed.
(** small letters only on the right *)
Lemma lower_same : forall s t, same_letters s t -> (forall a, has_char a t = true -> lower a = a) -> to_lower s = t.
Proof.
  induction 1 as [|a s t H IH|a b s t L E H IH]; intros F; [reflexivity| |]; cbn [to_lower].
  - f_equal; [apply F; cbn [has_char]; rewrite Ascii.eqb_refl; reflexivity|]. apply IH. intros x X. apply F. cbn [has_char]. rewrite X. apply Bool.orb_true_r.
  - f_equal; [|apply IH; intros x X; apply F; cbn [has_char]; rewrite X; apply Bool.orb_true_r].
    unfold lower. replace (N.leb 65 (N_of_ascii a) && N.leb (N_of_ascii a) 90) with true by (symmetry; apply Bool.andb_true_iff; split; apply N.leb_le; lia). rewrite <- E. apply ascii_N_embedding.
Qed.
Lemma small_word : forall t, forallb (fun a => Ascii.eqb (lower a) a) (list_ascii_of_string t) = true -> forall a, has_char a t = true -> lower a = a.
Proof.
  induction t as [|b t IH]; cbn [list_ascii_of_string forallb has_char]; [discriminate|]. intros H a. apply Bool.andb_true_iff in H. destruct H as [H1 H2].
  intros X. apply Bool.orb_true_iff in X. destruct X as [X|X]; [|apply IH; assumption]. apply Ascii.eqb_eq in X. apply Ascii.eqb_eq in H1. congruence.
Qed.
Lemma platform_name : forall arch p, msbuild_name arch p -> msbuild_platform arch = p.
Proof.
  intros arch p H. unfold msbuild_platform. destruct H as [H|H|H|H].
  - rewrite (lower_same _ _ H) by (apply small_word; reflexivity). reflexivity.
  - rewrite (lower_same _ _ H) by (apply small_word; reflexivity). reflexivity.
  - rewrite (lower_same _ _ H) by (apply small_word; reflexivity). reflexivity.
  - destruct (String.eqb_spec (to_lower arch) "x64") as [E|_]; [destruct (H "x64"); [cbn; auto|apply same_lower, E]|].
    destruct (String.eqb_spec (to_lower arch) "arm") as [E|_]; [destruct (H "arm"); [cbn; auto|apply same_lower, E]|].
    destruct (String.eqb_spec (to_lower arch) "arm64") as [E|_]; [destruct (H "arm64"); [cbn; auto|apply same_lower, E]|]. reflexivity.
Qed.
Lemma lower_is : forall a b, lower a = b -> (97 <= N_of_ascii b)%N -> a = b \/ N_of_ascii a = (N_of_ascii b - 32)%N.
Proof.
  intros a b E L. destruct (lower_cases a) as [[H1 H2]|H]; [right; rewrite <- E, H2; lia|left; congruence].
Qed.
Lemma max_iff : forall s, is_max s = true <-> spells_max s.
Proof.
  intros s. unfold is_max. rewrite String.eqb_eq. split.
  - destruct s as [|a [|b [|c [|d s]]]]; cbn [to_lower]; intros E; try discriminate. injection E as Ea Eb Ec. exists a, b, c. split; [reflexivity|].
    assert (K : forall x y z, lower x = y -> (97 <= N_of_ascii y)%N -> N_of_ascii z = (N_of_ascii y - 32)%N -> In x [y; z]).
    { intros x y z E L Z. destruct (lower_is x y E L) as [->|X]; [left; reflexivity|right; left]. rewrite <- (ascii_N_embedding x), <- (ascii_N_embedding z). congruence. }
    split; [|split]; apply K; auto; discriminate.
  - intros (a & b & c & -> & A & B & C). destruct A as [<-|[<-|[]]], B as [<-|[<-|[]]], C as [<-|[<-|[]]]; reflexivity.
Qed.

(** ** Jobs *)
Lemma max_not_whole : forall s n, is_max s = true -> (0 < n)%Z -> parse_int s = Some n -> False.
Proof. intros s n M L E. apply max_iff in M. destruct M as (a & b & c & -> & A & B & C). destruct A as [<-|[<-|[]]], B as [<-|[<-|[]]], C as [<-|[<-|[]]]; discriminate. Qed.
Lemma jobs_spec : forall m say j, NoDup (map fst (options m)) -> forall o, option_text "jobs" (options m) o -> jobs_asked (cpus m) [o; env_jobs m] j ->
  job_arguments m say = match j with Some n => say n | None => [] end.
Proof.
  intros m say j N o HO HJ. unfold job_arguments, jobs. rewrite (option_text_spec _ _ _ N HO). destruct HJ as [H|s n H W L|s H M|s H W M].
  - rewrite (or_else_none _ _ H). reflexivity.
  - rewrite (or_else_first _ _ _ H). apply (parse_int_spec s n L) in W. rewrite W. apply Z.ltb_lt in L. rewrite L. reflexivity.
  - rewrite (or_else_first _ _ _ H). apply max_iff in M. destruct (parse_int s) as [n|] eqn:P; [|rewrite M; reflexivity].
    destruct (Z.ltb_spec 0 n) as [L|_]; [destruct (max_not_whole s n M L P)|rewrite M; reflexivity].
  - rewrite (or_else_first _ _ _ H). rewrite <- max_iff in M. apply Bool.not_true_is_false in M. rewrite M. destruct (parse_int s) as [n|] eqn:P; [|reflexivity].
    destruct (Z.ltb_spec 0 n) as [L|_]; [|reflexivity]. destruct (W n L). apply parse_int_spec; assumption.
Qed.

(** ** The command *)
Lemma starts_iff : forall p s, starts p s = true <-> exists t, s = p ++ t.
Proof.
  induction p as [|a p IH]; intros s; cbn [starts append]; [split; [exists s; reflexivity|reflexivity]|]. destruct s as [|b s]; [split; [discriminate|intros (t & E); discriminate]|].
  rewrite Bool.andb_true_iff, Ascii.eqb_eq, IH. split; [intros (-> & t & ->); exists t; reflexivity|intros (t & E); injection E as -> E; split; [reflexivity|exists t; exact E]].
Qed.
Lemma includes_iff : forall p s, includes p s = true <-> exists a t, s = a ++ p ++ t.
Proof.
  intros p. induction s as [|b s IH]; cbn [includes]; rewrite Bool.orb_true_iff, starts_iff.
  - split; [intros [(t & E)|E]; [exists "", t; exact E|discriminate]|]. intros (a & t & E). destruct a; [left; exists t; exact E|discriminate].
  - rewrite IH. split; [intros [(t & E)|(a & t & ->)]; [exists "", t; exact E|exists (String b a), t; reflexivity]|].
    intros (a & t & E). destruct a as [|c a]; [left; exists t; exact E|right]. injection E as _ E. exists a, t. exact E.
Qed.
Lemma platform_make_spec : forall m c, default_make (platform m) c -> platform_make m = c.
Proof.
  intros m c H. unfold platform_make. destruct H as [[->|[->|H]]|H]; [reflexivity|reflexivity| |].
  - apply includes_iff in H. rewrite H. destruct (String.eqb _ _); [reflexivity|]. destruct (String.eqb _ _); reflexivity.
  - unfold gmake_platform in H. rewrite <- includes_iff in H. destruct (String.eqb_spec (platform m) "aix") as [E|_]; [destruct H; auto|].
    destruct (String.eqb_spec (platform m) "os400") as [E|_]; [destruct H; auto|]. destruct (includes "bsd" (platform m)); [destruct H; auto|reflexivity].
Qed.
Lemma command_spec : forall m o c, NoDup (map fst (options m)) -> option_text "make" (options m) o -> command_asked (platform m) [o; env_make m] c -> make_command m = c.
Proof.
  intros m o c N HO HC. unfold make_command. rewrite (option_text_spec _ _ _ N HO). destruct HC as [c H|c H D]; [rewrite (or_else_first _ _ _ H); reflexivity|rewrite (or_else_none _ _ H); apply platform_make_spec, D].
Qed.

(** ** The configuration that is read *)
Lemma stands_assoc : forall d d', Forall2 (fun e e' : string * json => fst e = fst e' /\ stands_for (snd e) (snd e')) d d' -> forall k,
  match assoc k d with Some x => exists x', assoc k d' = Some x' /\ stands_for x x' | None => assoc k d' = None end.
Proof.
  induction 1 as [|[k1 x1] [k2 x2] d d' [E S] F IH]; intros k; [reflexivity|]. cbn [fst snd] in E, S. subst k2. cbn [assoc]. destruct (String.eqb k k1); [exists x2; split; [reflexivity|exact S]|apply IH].
Qed.
Lemma holds_one : forall c k x, unique c -> (holds c [k] x <-> exists d, c = JObj d /\ assoc k d = Some x).
Proof.
  intros c k x U. split.
  - intros H. inversion H as [|d k0 y path x0 I H0]; subst. inversion H0; subst. exists d. split; [reflexivity|]. inversion U; subst. apply In_assoc; assumption.
  - intros (d & -> & A). eapply ho_entry; [eapply assoc_In; exact A|constructor].
Qed.
Lemma holds_two : forall c k k2 x, unique c -> (holds c [k; k2] x <-> exists y, holds c [k] y /\ holds y [k2] x).
Proof.
  intros c k k2 x U. split.
  - intros H. inversion H as [|d k0 y path x0 I H0]; subst. exists y. split; [eapply ho_entry; [exact I|constructor]|exact H0].
  - intros (y & H1 & H2). inversion H1 as [|d k0 y0 path x0 I H0]; subst. inversion H0; subst. eapply ho_entry; eassumption.
Qed.
Lemma unique_in : forall d k x, unique (JObj d) -> assoc k d = Some x -> unique x.
Proof. intros d k x U A. inversion U as [| | | | |d0 N F]; subst. rewrite Forall_forall in F. apply assoc_In in A. exact (F _ A). Qed.

Record read_config (c c' : json) (d d' t t' v v' : obj) : Prop := {
  rc_c : c = JObj d; rc_c' : c' = JObj d'; rc_u : unique c;
  rc_t : assoc "target_defaults" d = Some (JObj t); rc_t' : assoc "target_defaults" d' = Some (JObj t');
  rc_v : assoc "variables" d = Some (JObj v); rc_v' : assoc "variables" d' = Some (JObj v');
  rc_ts : Forall2 (fun e e' => fst e = fst e' /\ stands_for (snd e) (snd e')) t t';
  rc_vs : Forall2 (fun e e' => fst e = fst e' /\ stands_for (snd e) (snd e')) v v' }.
Lemma read_it : forall c, configuration c -> exists c' d d' t t' v v', load_config (config_file c) = Some c' /\ read_config c c' d d' t t' v v'.
Proof.
  intros c (U & (t & HT) & (v & HV)). destruct (build_reads c U) as (c' & L & S). apply holds_one in HT; [|exact U]. destruct HT as (d & -> & AT). apply holds_one in HV; [|exact U]. destruct HV as (d0 & E0 & AV). injection E0 as <-.
  inversion S as [| | | | | |d1 d' F]; subst. pose proof (stands_assoc _ _ F "target_defaults") as T. rewrite AT in T. destruct T as (x & T1 & T2). pose proof (stands_assoc _ _ F "variables") as V. rewrite AV in V. destruct V as (y & V1 & V2).
  inversion T2 as [| | | | | |t0 t' FT]; subst. inversion V2 as [| | | | | |v0 v' FV]; subst. exists (JObj d'), d, d', t, t', v, v'. split; [exact L|]. constructor; auto.
Qed.

Definition type_of (opts : obj) (configured : option json) : string :=
  match assoc "debug" opts with
  | Some v => if truthy (Some v) then "Debug" else "Release"
  | None => match text_of configured with Some t => t | None => "Release" end
  end.
Lemma truthy_not : forall v, truthy (Some v) = true <-> ~ In v [JNull; JBool false; JNum 0; JStr ""].
Proof.
  intros v. split.
  - intros T [<-|[<-|[<-|[<-|[]]]]]; discriminate.
  - intros N. destruct v as [| [|] | [| |] | [|] | |]; try reflexivity; destruct N; cbn; auto 6.
Qed.
Lemma type_spec : forall opts c c' d d' t t' v v' ty, NoDup (map fst opts) -> read_config c c' d d' t t' v v' -> type_asked opts c ty -> type_of opts (assoc "default_configuration" t') = ty.
Proof.
  intros opts c c' d d' t t' v v' ty N R H. unfold type_of. destruct H as [(x & I & F)|x I F|ty E H NE|E H].
  - rewrite (In_assoc _ _ _ _ N I). apply truthy_not in F. rewrite F. reflexivity.
  - rewrite (In_assoc _ _ _ _ N I). destruct (truthy (Some x)) eqn:T; [|reflexivity]. destruct F. exists x. split; [exact I|]. apply truthy_not, T.
  - destruct (assoc "debug" opts) as [x|] eqn:A; [apply assoc_In in A; destruct (E x A)|]. pose proof (rc_u _ _ _ _ _ _ _ _ R) as U. apply holds_two in H; [|exact U]. destruct H as (y & H1 & H2). apply holds_one in H1; [|exact U].
    destruct H1 as (d0 & E0 & A0). rewrite (rc_c _ _ _ _ _ _ _ _ R) in E0. injection E0 as <-. rewrite (rc_t _ _ _ _ _ _ _ _ R) in A0. injection A0 as <-.
    apply holds_one in H2; [|eapply unique_in; [rewrite <- (rc_c _ _ _ _ _ _ _ _ R); exact U|exact (rc_t _ _ _ _ _ _ _ _ R)]]. destruct H2 as (t0 & E0 & A0). injection E0 as <-.
    pose proof (stands_assoc _ _ (rc_ts _ _ _ _ _ _ _ _ R) "default_configuration") as S. rewrite A0 in S. destruct S as (x' & -> & S). inversion S; subst. cbn [text_of]. apply String.eqb_neq in NE. rewrite NE. reflexivity.
  - destruct (assoc "debug" opts) as [x|] eqn:A; [apply assoc_In in A; destruct (E x A)|]. pose proof (rc_u _ _ _ _ _ _ _ _ R) as U.
    pose proof (stands_assoc _ _ (rc_ts _ _ _ _ _ _ _ _ R) "default_configuration") as S. destruct (assoc "default_configuration" t) as [x|] eqn:AT; [|rewrite S; reflexivity].
    assert (HX : In x [JNull; JNum 0; JStr ""]).
    { apply H. apply holds_two; [exact U|]. exists (JObj t). split; [apply holds_one; [exact U|]; exists d; split; [exact (rc_c _ _ _ _ _ _ _ _ R)|exact (rc_t _ _ _ _ _ _ _ _ R)]|]. eapply ho_entry; [apply assoc_In; exact AT|constructor]. }
    destruct S as (x' & -> & S). destruct HX as [<-|[<-|[<-|[]]]]; inversion S; subst; reflexivity.
Qed.
Lemma variable_spec : forall c c' d d' t t' v v' k s, read_config c c' d d' t t' v v' -> holds c ["variables"; k] (JStr s) -> assoc k v' = Some (JStr s).
Proof.
  intros c c' d d' t t' v v' k s R H. pose proof (rc_u _ _ _ _ _ _ _ _ R) as U. apply holds_two in H; [|exact U]. destruct H as (y & H1 & H2). apply holds_one in H1; [|exact U].
  destruct H1 as (d0 & E0 & A0). rewrite (rc_c _ _ _ _ _ _ _ _ R) in E0. injection E0 as <-. rewrite (rc_v _ _ _ _ _ _ _ _ R) in A0. injection A0 as <-.
  apply holds_one in H2; [|eapply unique_in; [rewrite <- (rc_c _ _ _ _ _ _ _ _ R); exact U|exact (rc_v _ _ _ _ _ _ _ _ R)]]. destruct H2 as (t0 & E0 & A0). injection E0 as <-.
  pose proof (stands_assoc _ _ (rc_vs _ _ _ _ _ _ _ _ R) k) as S. rewrite A0 in S. destruct S as (x' & -> & S). inversion S; subst. reflexivity.
Qed.
Definition run_of (m : machine) (argv : list string) (ty : string) (arch msbuild : option json) (msvs : bool) (command : string) : outcome :=
  if msvs then
    match text_of msbuild, arch with
    | None, _ => Fails No_msbuild
    | Some path, Some (JStr a) => Runs path (build_arguments m true argv ty a)
    | Some _, _ => Fails Bad_config
    end
  else if found m command then Runs command (build_arguments m false argv ty "") else Fails Not_found.
Lemma build_unfold : forall m argv c c' d d' t t' v v', config_data m = Some (config_file c) -> load_config (config_file c) = Some c' -> read_config c c' d d' t t' v v' ->
  build m argv = let run := run_of m argv (type_of (options m) (assoc "default_configuration" t')) (assoc "target_arch" v') (assoc "msbuild_path" v') in
    if win m then match solutions m with [] => if has_makefile m then run false (make_command m) else Fails No_solution | _ :: _ => run true "" end else run false (make_command m).
Proof.
  intros m argv c c' d d' t t' v v' C L R. unfold build. rewrite C, L. rewrite (rc_c' _ _ _ _ _ _ _ _ R). cbn [field]. rewrite (rc_t' _ _ _ _ _ _ _ _ R), (rc_v' _ _ _ _ _ _ _ _ R). cbn [field]. reflexivity.
Qed.

(** ** Solutions *)
Lemma drop_seps_spec : forall s, exists b, s = drop_seps s ++ b /\ forall c, has_char c b = true -> c = "/"%char \/ c = "\"%char.
Proof.
  induction s as [|a s (b & E & H)]; [exists ""; split; [reflexivity|discriminate]|]. cbn [drop_seps]. destruct (drop_seps s) as [|x r].
  - cbn [append] in E. subst b. unfold win_sep. destruct (Ascii.eqb a "/" || Ascii.eqb a "\") eqn:W.
    + exists (String a s). split; [reflexivity|]. intros c X. rewrite has_cons in X. apply Bool.orb_true_iff in X. destruct X as [X|X]; [|apply H, X]. apply Ascii.eqb_eq in X. subst c.
      apply Bool.orb_true_iff in W. destruct W as [W|W]; apply Ascii.eqb_eq in W; auto.
    + exists s. split; [reflexivity|exact H].
  - exists b. split; [|exact H]. cbn [append] in *. rewrite E at 1. reflexivity.
Qed.
Lemma base_of_spec : forall s, exists a, s = a ++ base_of s.
Proof.
  induction s as [|c s (a & E)]; [exists ""; reflexivity|]. cbn [base_of]. destruct (win_sep c); [exists (String c a); cbn [append]; rewrite E at 1; reflexivity|].
  destruct (negb _); [exists ""; reflexivity|exists (String c a); cbn [append]; rewrite E at 1; reflexivity].
Qed.
Lemma sln_named : forall s, win_extname s = ".sln" -> names_solution s.
Proof.
  intros s H. unfold win_extname in H. set (p := match s with String a (String ":" r) => if letter a then r else s | _ => s end) in H.
  assert (P : exists q, s = q ++ p).
  { unfold p. destruct s as [|a [|b r]]; [exists ""; reflexivity|exists ""; reflexivity|]. destruct b as [b0 b1 b2 b3 b4 b5 b6 b7].
    destruct b0, b1, b2, b3, b4, b5, b6, b7; try (exists ""; reflexivity). destruct (letter a); [exists (String a ":"); reflexivity|exists ""; reflexivity]. }
  clearbody p. destruct P as (q & EP). destruct (drop_seps_spec p) as (b & ED & HB). destruct (base_of_spec (drop_seps p)) as (a & EA).
  destruct (rsplit1 "." (base_of (drop_seps p))) as [[x e]|] eqn:R; [|discriminate]. apply rsplit1_Some in R. destruct R as (R & _).
  assert (E : e = "sln"). { destruct x as [|x0 x]; [discriminate|]. destruct x0 as [b0 b1 b2 b3 b4 b5 b6 b7]. destruct b0, b1, b2, b3, b4, b5, b6, b7; try (injection H as H; exact H). destruct x, e; try discriminate H; injection H as -> ->; reflexivity. }
  subst e. exists (q ++ a ++ x), b. split; [|exact HB]. rewrite EP, ED, EA, R. repeat (rewrite ?append_assoc; cbn [append]). reflexivity.
Qed.
Lemma snoc_inj : forall x y a b, x ++ String a "" = y ++ String b "" -> a = b.
Proof.
  induction x as [|c x IH]; intros [|d y] a b E; cbn [append] in E; [injection E as E; exact E|destruct y; discriminate|destruct x; discriminate|injection E as _ E; eapply IH; exact E].
Qed.
Lemma snoc_ex : forall s, s <> "" -> exists q a, s = q ++ String a "".
Proof.
  induction s as [|c s IH]; intros H; [congruence|]. destruct s as [|d s]; [exists "", c; reflexivity|]. destruct (IH ltac:(discriminate)) as (q & a & ->). exists (String c q), a. reflexivity.
Qed.
Lemma has_snoc : forall q a, has_char a (q ++ String a "") = true.
Proof. intros q a. rewrite has_char_app, has_cons, Ascii.eqb_refl. apply Bool.orb_true_r. Qed.
Lemma solution_end : forall q c, names_solution (q ++ String c "") -> In c ["/"; "\"; "n"]%char.
Proof.
  intros q c (a & b & E & H). destruct b as [|x b].
  - assert (E2 : q ++ String c "" = (a ++ ".sl") ++ String "n" "") by (rewrite E, append_assoc; reflexivity). apply snoc_inj in E2. subst c. cbn. auto.
  - destruct (snoc_ex (String x b) ltac:(discriminate)) as (y & z & EZ). rewrite EZ in E, H. assert (E2 : q ++ String c "" = (a ++ ".sln" ++ y) ++ String z "") by (rewrite E, !append_assoc; reflexivity).
    apply snoc_inj in E2. subst z. destruct (H c (has_snoc y c)); subst; cbn; auto.
Qed.
Lemma solution_target : forall t, names_solution ("/t:" ++ t) -> names_solution t.
Proof.
  intros t (a & b & E & H). destruct a as [|a0 [|a1 [|a2 a]]]; cbn [append] in E; try discriminate. injection E as _ _ _ E. exists a, b. split; [exact E|exact H].
Qed.
Lemma digits_end : forall s, Spec_Text.digits s -> s <> "" -> exists q c, s = q ++ String c "" /\ Spec_Text.digit c.
Proof.
  induction 1 as [|a s D H IH]; intros N; [congruence|]. destruct s as [|b s]; [exists "", a; auto|]. destruct (IH ltac:(discriminate)) as (q & c & -> & DC). exists (String a q), c. auto.
Qed.
Lemma rendering_end : forall n, exists q c, rendering n = q ++ String c "" /\ Spec_Text.digit c.
Proof.
  intros n. destruct (rendering_shape n) as [->|(sg & a & r & -> & _ & D & _ & DS)]; [exists "", "0"%char; split; [reflexivity|cbn; auto]|].
  destruct (digits_end (String a r)) as (q & c & -> & DC); [constructor; assumption|discriminate|]. exists (sg ++ q), c. rewrite append_assoc. auto.
Qed.
Lemma not_solution_end : forall s q c, s = q ++ String c "" -> ~ In c ["/"; "\"; "n"]%char -> String.eqb (win_extname s) ".sln" = false.
Proof. intros s q c -> N. apply String.eqb_neq. intros E. apply sln_named, solution_end in E. auto. Qed.

Lemma platform_end : forall arch, exists q c, msbuild_platform arch = q ++ String c "" /\ ~ In c ["/"; "\"; "n"]%char.
Proof.
  intros arch. unfold msbuild_platform. destruct (String.eqb _ _); [exists "x6", "4"%char; split; [reflexivity|cbn; intuition discriminate]|].
  destruct (String.eqb _ _); [exists "AR", "M"%char; split; [reflexivity|cbn; intuition discriminate]|].
  destruct (String.eqb _ _); [exists "ARM6", "4"%char|exists "Win3", "2"%char]; split; try reflexivity; cbn; intuition discriminate.
Qed.
Lemma no_solution : forall verbose ts ty arch j, Forall (fun t => ~ names_solution t) ts ->
  existsb (fun a => String.eqb (win_extname a) ".sln")
    ((map (fun t => "/t:" ++ t) ts ++ (if verbose : bool then [] else ["/clp:Verbosity=minimal"]) ++ ["/nologo"]) ++ ["/p:Configuration=" ++ ty ++ ";Platform=" ++ msbuild_platform arch]%string ++ (match j with Some n => ["/m:" ++ rendering n]%string | None => [] end)) = false.
Proof.
  intros vb ts ty arch j F. set (f := fun a => String.eqb (win_extname a) ".sln").
  assert (A1 : existsb f (map (fun t => "/t:" ++ t) ts) = false).
  { induction F as [|t ts H F IH]; [reflexivity|]. cbn [map existsb]. apply Bool.orb_false_iff. split; [|exact IH]. apply String.eqb_neq. intros E. apply sln_named, solution_target in E. auto. }
  assert (A2 : existsb f (if vb then [] else ["/clp:Verbosity=minimal"]) = false) by (destruct vb; reflexivity).
  assert (A3 : existsb f ["/p:Configuration=" ++ ty ++ ";Platform=" ++ msbuild_platform arch] = false).
  { cbn [existsb]. rewrite Bool.orb_false_r. destruct (platform_end arch) as (q & c & -> & N). apply (not_solution_end _ ("/p:Configuration=" ++ ty ++ ";Platform=" ++ q) c); [|exact N]. rewrite !append_assoc. reflexivity. }
  assert (A4 : existsb f (match j with Some n => ["/m:" ++ rendering n]%string | None => [] end) = false).
  { destruct j as [n|]; [|reflexivity]. cbn [existsb]. rewrite Bool.orb_false_r. destruct (rendering_end n) as (q & c & -> & D). apply (not_solution_end _ ("/m:" ++ q) c); [rewrite append_assoc; reflexivity|].
    unfold Spec_Text.digit in D. cbn in D |- *. intuition (subst; discriminate). }
  rewrite !existsb_app, A1, A2, A3, A4. reflexivity.
Qed.

(** ** Readings are unique *)
Lemma rendering_inj : forall a b, rendering a = rendering b -> a = b.
Proof. intros a b E. pose proof (rendering_reads a) as X. pose proof (rendering_reads b) as Y. rewrite E in X. unfold reads_as in *. congruence. Qed.
Lemma cut_first : forall c a b a' b', has_char c a = false -> has_char c a' = false -> a ++ String c b = a' ++ String c b' -> a = a' /\ b = b'.
Proof.
  intros c. induction a as [|x a IH]; intros b [|y a'] b' H H' E; cbn [append] in E; injection E as E1; try rename H0 into E2.
  - auto.
  - subst y. cbn [has_char] in H'. rewrite Ascii.eqb_refl in H'. discriminate.
  - subst x. cbn [has_char] in H. rewrite Ascii.eqb_refl in H. discriminate.
  - cbn [has_char] in H, H'. apply Bool.orb_false_iff in H, H'. subst y. destruct (IH b a' b' (proj2 H) (proj2 H') E2) as [-> ->]. auto.
Qed.
Lemma has_middle : forall c a b, has_char c (a ++ String c b) = true.
Proof. intros c a b. rewrite has_char_app, has_cons, Ascii.eqb_refl. apply Bool.orb_true_r. Qed.
Lemma make_unique : forall ws r, make_reads ws r -> forall r', make_reads ws r' -> r = r'.
Proof.
  induction 1 as [|n v ws r H1 H2 H3 H IH|d ws r H IH|n ws r L H IH|g ws r [G1 [G2 G3]] H IH]; intros r' H'.
  - inversion H'; reflexivity.
  - inversion H' as [|n0 v0 ws0 r0 K1 K2 K3 K E|d0 ws0 r0 K E|n0 ws0 r0 L0 K E|g0 ws0 r0 [K1 [K2 K3]] K E]; subst.
    + apply cut_first in E; [|assumption|assumption]. destruct E as [-> ->]. rewrite (IH _ K). reflexivity.
    + destruct n as [|x n]; [congruence|]. injection E as <- E. destruct H3. exists n. reflexivity.
    + destruct n as [|x n]; [congruence|]. injection E as <- E. destruct H3. exists n. reflexivity.
    + cbn [append] in K2. rewrite has_middle in K2. discriminate.
  - inversion H' as [|n0 v0 ws0 r0 K1 K2 K3 K E|d0 ws0 r0 K E|n0 ws0 r0 L0 K E|g0 ws0 r0 [K1 [K2 K3]] K E]; subst.
    + destruct n0 as [|x n0]; [congruence|]. injection E as -> E. destruct K3. exists n0. reflexivity.
    + rewrite (IH _ K). reflexivity.
    + destruct K3. exists "C". reflexivity.
  - inversion H' as [|n0 v0 ws0 r0 K1 K2 K3 K E|d0 ws0 r0 K E|n0 ws0 r0 L0 K E|g0 ws0 r0 [K1 [K2 K3]] K E]; subst.
    + destruct n0 as [|x n0]; [congruence|]. injection E as -> E. destruct K3. exists n0. reflexivity.
    + apply rendering_inj in E. subst n0. rewrite (IH _ K). reflexivity.
    + destruct K3. exists "-jobs". reflexivity.
  - inversion H' as [|n0 v0 ws0 r0 K1 K2 K3 K E|d0 ws0 r0 K E|n0 ws0 r0 L0 K E|g0 ws0 r0 [K1 [K2 K3]] K E]; subst.
    + cbn [append] in G2. rewrite has_middle in G2. discriminate.
    + destruct G3. exists "C". reflexivity.
    + destruct G3. exists "-jobs". reflexivity.
    + rewrite (IH _ K). reflexivity.
Qed.
Lemma msbuild_unique : forall ws r, msbuild_reads ws r -> forall r', msbuild_reads ws r' -> r = r'.
Proof.
  induction 1 as [|t ws r H IH|n1 v1 n2 v2 ws r H1 H2 H3 H4 H IH|n ws r H IH|ws r H IH|ws r H IH|p ws r P H IH]; intros r' H'.
  - inversion H'; reflexivity.
  - inversion H'; subst; try discriminate; [rewrite (IH r0) by assumption; reflexivity|]. match goal with N : ~ _ |- _ => destruct N; eexists; reflexivity end.
  - inversion H' as [|t0 ws0 r0 K E|m1 w1 m2 w2 ws0 r0 K1 K2 K3 K4 K E|n0 ws0 r0 K E|ws0 r0 K E|ws0 r0 K E|p0 ws0 r0 N K E]; subst; try discriminate; [|destruct N; eexists; reflexivity].
    cbn [append] in E. apply cut_first in E; [|assumption|assumption]. destruct E as [-> E]. apply cut_first in E; [|assumption|assumption]. destruct E as [-> E]. apply cut_first in E; [|assumption|assumption]. destruct E as [-> ->]. rewrite (IH _ K). reflexivity.
  - inversion H' as [|t0 ws0 r0 K E|m1 w1 m2 w2 ws0 r0 K1 K2 K3 K4 K E|n0 ws0 r0 K E|ws0 r0 K E|ws0 r0 K E|p0 ws0 r0 N K E]; subst; try discriminate; [|destruct N; eexists; reflexivity].
    apply rendering_inj in E. subst n0. rewrite (IH _ K). reflexivity.
  - inversion H' as [|t0 ws0 r0 K E|m1 w1 m2 w2 ws0 r0 K1 K2 K3 K4 K E|n0 ws0 r0 K E|ws0 r0 K E|ws0 r0 K E|p0 ws0 r0 N K E]; subst; try discriminate; [|destruct N; eexists; reflexivity]. rewrite (IH _ K). reflexivity.
  - inversion H' as [|t0 ws0 r0 K E|m1 w1 m2 w2 ws0 r0 K1 K2 K3 K4 K E|n0 ws0 r0 K E|ws0 r0 K E|ws0 r0 K E|p0 ws0 r0 N K E]; subst; try discriminate; [|destruct N; eexists; reflexivity]. exact (IH _ K).
  - inversion H' as [|t0 ws0 r0 K E|m1 w1 m2 w2 ws0 r0 K1 K2 K3 K4 K E|n0 ws0 r0 K E|ws0 r0 K E|ws0 r0 K E|p0 ws0 r0 N K E]; subst; try (destruct P; eexists; reflexivity). rewrite (IH _ K). reflexivity.
Qed.
