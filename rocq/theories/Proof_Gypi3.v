(** Proofs about options and the configuration that is written. *)
From Coq Require Import ZArith.
From Verif Require Import Lib LibFacts Str StrFacts Js Model_Cli Spec_Cli Proof_Cli Model_Value Proof_Merge2 Model_Json Model_Gypi Spec_Gypi Proof_Json Proof_Gypi Proof_Gypi2.
From Verif Require Import Proof_Install2.
Local Open Scope string_scope.

Lemma turned_iff : forall a b s t, turned a b s t <-> t = subst_char a b s.
Proof.
  intros a b s t. split.
  - induction 1 as [|s t H IH|c s t N H IH]; [reflexivity| |]; cbn [subst_char]; [rewrite Ascii.eqb_refl|rewrite (proj2 (Ascii.eqb_neq c a) N)]; rewrite <- IH; reflexivity.
  - intros ->. induction s as [|c s IH]; [constructor|]. cbn [subst_char]. destruct (Ascii.eqb_spec c a) as [-> |N]; [apply tu_this, IH|apply tu_other; assumption].
Qed.
Lemma without_prefix_spec : forall p s t, without_prefix p s = Some t <-> s = p ++ t.
Proof.
  induction p as [|a p IH]; intros s t; [cbn; split; [intros [= ->]; reflexivity|intros ->; reflexivity]|]. destruct s as [|b s]; [cbn; split; discriminate|]. cbn [without_prefix append]. destruct (Ascii.eqb_spec a b) as [-> |N].
  - rewrite IH. split; [intros ->; reflexivity|intros [= ->]; reflexivity].
  - split; [discriminate|intros [= -> _]; destruct N; reflexivity].
Qed.

(** ** Setting keys one after the other *)
Section Fold.
  Context {A : Type} (f : obj -> A -> obj) (key : A -> option string) (val : A -> json).
  Hypothesis F : forall o e, f o e = match key e with Some k => set_key k (val e) o | None => o end.
  Lemma fold_other : forall k l o, (forall e, In e l -> key e <> Some k) -> assoc k (fold_left f l o) = assoc k o.
  Proof.
    intros k l. induction l as [|e l IH]; intros o H; [reflexivity|]. cbn [fold_left]. rewrite IH by (intros; apply H; right; assumption). rewrite F. destruct (key e) as [k'|] eqn:E; [|reflexivity]. apply assoc_set_other. intros ->. apply (H e); [left; reflexivity|exact E].
  Qed.
  Lemma fold_last : forall k l x o, last_with (fun e => key e = Some k) l x -> assoc k (fold_left f l o) = Some (val x).
  Proof.
    intros k l x o (l1 & l2 & -> & E & N). rewrite fold_left_app. cbn [fold_left]. rewrite fold_other by (intros e H; rewrite Forall_forall in N; apply N, H). rewrite F, E. apply assoc_set_same.
  Qed.
  Lemma fold_NoDup : forall l o, NoDup (map fst o) -> NoDup (map fst (fold_left f l o)).
  Proof. induction l as [|e l IH]; intros o N; [exact N|]. cbn [fold_left]. apply IH. rewrite F. destruct (key e); [apply set_key_NoDup|]; exact N. Qed.
  Lemma fold_values : forall (P : json -> Prop) l o, (forall e, In e l -> P (val e)) -> Forall (fun e : string * json => P (snd e)) o -> Forall (fun e : string * json => P (snd e)) (fold_left f l o).
  Proof.
    intros P l. induction l as [|e l IH]; intros o H G; [exact G|]. cbn [fold_left]. apply IH; [intros; apply H; right; assumption|]. rewrite F. destruct (key e) as [k|]; [|exact G]. assert (V : P (val e)) by (apply H; left; reflexivity). clear - G V.
    induction G as [|[k' v'] o X G IH]; [constructor; [exact V|constructor]|]. cbn [set_key]. destruct (String.eqb k k'); constructor; auto.
  Qed.
End Fold.
Lemma set_values : forall (P : json -> Prop) k v (o : obj), P v -> Forall (fun e : string * json => P (snd e)) o -> Forall (fun e : string * json => P (snd e)) (set_key k v o).
Proof. intros P k v o V G. induction G as [|[k' v'] o X G IH]; [constructor; [exact V|constructor]|]. cbn [set_key]. destruct (String.eqb k k'); constructor; auto. Qed.

Definition option_key (o : string * json) : option string := if String.eqb (fst o) "argv" then None else if js_in config_defs (Word (fst o)) then None else Some (subst_char "-" "_" (fst o)).
Lemma add_option_key : forall vs o, add_option vs o = match option_key o with Some k => set_key k (snd o) vs | None => vs end.
Proof. intros vs o. unfold add_option, option_key. destruct (String.eqb (fst o) "argv"); [reflexivity|]. destruct (js_in _ _); reflexivity. Qed.
Lemma option_key_spec : forall o k, option_key o = Some k <-> user_option (fst o) /\ turned "-" "_" (fst o) k.
Proof.
  intros o k. unfold option_key, user_option. rewrite turned_iff. destruct (String.eqb_spec (fst o) "argv") as [E|N]; [split; [discriminate|intros ((X & _) & _); contradiction]|].
  unfold js_in. cbn [key_of]. change inherited_names with everywhere. change config_defs with own_options. destruct (mem (fst o) own_options) eqn:M1; cbn [orb].
  - apply mem_In in M1. split; [discriminate|intros ((_ & X & _) & _); contradiction].
  - apply mem_false in M1. destruct (mem (fst o) everywhere) eqn:M2.
    + apply mem_In in M2. split; [discriminate|intros ((_ & _ & X) & _); contradiction].
    + apply mem_false in M2. split; [intros [= <-]; auto|intros (_ & ->); reflexivity].
Qed.
Definition env_key (e : string * string) : option string := match without_prefix "npm_config_" (fst e) with None => None | Some name => if String.eqb name "loglevel" then None else if String.eqb name "" then None else Some (subst_char "_" "-" name) end.
Lemma add_env_key : forall o e, add_env o e = match env_key e with Some k => set_key k (JStr (snd e)) o | None => o end.
Proof. intros o e. unfold add_env, env_key. destruct (without_prefix _ _) as [n|]; [|reflexivity]. destruct (String.eqb n "loglevel"); [reflexivity|]. destruct (String.eqb n ""); reflexivity. Qed.
Lemma env_key_spec : forall e k, env_key e = Some k <-> env_sets (fst e) k.
Proof.
  intros e k. unfold env_key, env_sets. split.
  - destruct (without_prefix _ _) as [n|] eqn:W; [|discriminate]. apply without_prefix_spec in W. destruct (String.eqb_spec n "loglevel") as [|N1]; [discriminate|]. destruct (String.eqb_spec n "") as [|N2]; [discriminate|]. intros [= <-]. exists n. rewrite turned_iff. auto.
  - intros (n & W & N1 & N2 & T). apply without_prefix_spec in W. rewrite W. rewrite (proj2 (String.eqb_neq _ _) N2), (proj2 (String.eqb_neq _ _) N1). apply turned_iff in T. subst k. reflexivity.
Qed.
Lemma last_with_iff : forall (A : Type) (P Q : A -> Prop) l x, (forall y, P y <-> Q y) -> last_with P l x -> last_with Q l x.
Proof. intros A P Q l x H (l1 & l2 & E & Px & N). exists l1, l2. split; [exact E|]. split; [apply H, Px|]. eapply Forall_impl; [|exact N]. cbn. intros y Ny Qy. apply Ny, H, Qy. Qed.

Lemma environment : forall cl env o,
  (forall e, last_with (fun e => env_sets (fst e) o) env e -> assoc o (options_of cl env) = Some (JStr (snd e))) /\
  ((forall e, In e env -> ~ env_sets (fst e) o) -> assoc o (options_of cl env) = assoc o cl).
Proof.
  intros cl env o. split.
  - intros e L. unfold options_of. apply (fold_last add_env env_key (fun e => JStr (snd e)) add_env_key). revert L. apply last_with_iff. intros y. symmetry. apply env_key_spec.
  - intros H. unfold options_of. apply (fold_other add_env env_key (fun e => JStr (snd e)) add_env_key). intros e I E. apply (H e I), env_key_spec, E.
Qed.

(** ** The configuration *)
Lemma truthy_given : forall o opts, NoDup (map fst opts) -> truthy (assoc o opts) = true <-> given o opts.
Proof.
  intros o opts N. unfold given. split.
  - intros T. destruct (assoc o opts) as [v|] eqn:A; [|discriminate]. exists v. split; [apply assoc_In, A|]. intros [<-|[<-|[<-|[<-|[]]]]]; discriminate.
  - intros (v & I & Nv). rewrite (In_assoc _ _ _ _ N I). destruct v as [| [|] | [| |] | [|] | |]; try reflexivity; destruct Nv; cbn; auto 6.
Qed.
Lemma source_base : forall sur opts nd b, NoDup (map fst opts) -> source sur opts nd b -> base_config sur opts nd = b.
Proof.
  intros sur opts nd b N S. unfold base_config. destruct S as [text v G NF ND H U W|ND|H|text H E|G1 G2 G3|F].
  - assert (X : truthy (assoc "nodedir" opts) || truthy (assoc "disturl" opts) || truthy (assoc "dist-url" opts) = true) by (rewrite !orb_true_iff; destruct G as [G|[G|G]]; apply truthy_given in G; auto).
    rewrite X. rewrite <- truthy_given in NF by exact N. apply not_true_iff_false in NF. rewrite NF, (proj2 (String.eqb_neq _ _) ND), H, (parse_plain v text U W). reflexivity.
  - rewrite ND. cbn [String.eqb negb]. rewrite andb_false_r. reflexivity.
  - rewrite H. destruct (_ && _); reflexivity.
  - rewrite H, E. destruct (_ && _); reflexivity.
  - rewrite <- truthy_given in G1, G2, G3 by exact N. apply not_true_iff_false in G1, G2, G3. rewrite G1, G2, G3. reflexivity.
  - apply truthy_given in F; [|exact N]. rewrite F. rewrite andb_false_r. reflexivity.
Qed.

Lemma holds_assoc : forall d k x, NoDup (map fst d) -> holds (JObj d) [k] x <-> assoc k d = Some x.
Proof.
  intros d k x N. split.
  - intros H. inversion H as [|d' k' y p x' I H']; subst. inversion H'; subst. apply In_assoc; assumption.
  - intros A. apply (ho_entry d k x [] x); [apply assoc_In, A|constructor].
Qed.
Lemma holds_two : forall d k k2 x, NoDup (map fst d) -> holds (JObj d) [k; k2] x <-> exists y, assoc k d = Some y /\ holds y [k2] x.
Proof.
  intros d k k2 x N. split.
  - intros H. inversion H as [|d' k' y p x' I H']; subst. exists y. split; [apply In_assoc; assumption|exact H'].
  - intros (y & A & H). apply (ho_entry d k y [k2] x); [apply assoc_In, A|exact H].
Qed.
Definition falsy (v : json) : Prop := In v [JNull; JBool false; JNum 0; JStr ""].
Lemma truthy_falsy : forall v, truthy (Some v) = false <-> falsy v.
Proof.
  intros v. unfold falsy. split.
  - destruct v as [| [|] | [| |] | [|] | |]; cbn; try discriminate; auto 6.
  - intros [<-|[<-|[<-|[<-|[]]]]]; reflexivity.
Qed.

Section Config.
  Variables (sur : surroundings) (opts : obj) (nd py : string) (vs : vs_info) (b : json).
  Hypothesis NO : NoDup (map fst opts).
  Hypothesis SB : base_config sur opts nd = b.
  Hypothesis UB : unique b.
  Hypothesis UO : Forall (fun e : string * json => unique (snd e)) opts.

  Definition config0 : obj := match b with JObj d => d | _ => [] end.
  Definition vars0 : obj := sub "variables" config0.
  Definition defs0 : obj := sub "target_defaults" config0.
  Lemma config0_unique : NoDup (map fst config0) /\ Forall (fun e : string * json => unique (snd e)) config0.
  Proof. unfold config0. destruct b; try (split; constructor). inversion UB; subst; auto. Qed.
  Lemma sub_unique : forall k, NoDup (map fst (sub k config0)) /\ Forall (fun e : string * json => unique (snd e)) (sub k config0).
  Proof.
    intros k. destruct config0_unique as [_ F]. unfold sub. destruct (assoc k config0) as [v|] eqn:A; [|split; constructor]. apply assoc_In in A. rewrite Forall_forall in F. apply F in A. cbn [snd] in A. destruct v; try (split; constructor). inversion A; subst; auto.
  Qed.
  Lemma holds_sub : forall k k2 x, holds b [k; k2] x <-> assoc k2 (sub k config0) = Some x.
  Proof.
    intros k k2 x. destruct config0_unique as [N0 _]. destruct (sub_unique k) as [NS _]. rewrite <- holds_assoc by exact NS. split.
    - intros H. inversion H as [|d' k' y p x' I H']; subst. inversion H' as [|d2 k3 y2 p2 x2 I2 H2]; subst. inversion H2; subst.
      assert (E : config0 = d') by (unfold config0; rewrite <- H0; reflexivity). rewrite E in *. unfold sub in *. rewrite (In_assoc _ _ _ _ N0 I) in *. exact H'.
    - intros H. unfold config0 in *. destruct b as [| | | | |d]; try (inversion H as [|d' k' y p x' I H']; destruct I). apply holds_two; [exact N0|]. unfold sub in *. destruct (assoc k d) as [y|]; [|inversion H as [|d' k' y p x' I H']; destruct I].
      exists y. split; [reflexivity|]. destruct y; try (inversion H as [|d' k' y p x' I H']; destruct I). exact H.
  Qed.

  Definition arch : json := arch_of sur opts.
  Lemma arch_target : forall v, target sur opts v <-> v = arch.
  Proof.
    intros v. unfold arch, arch_of. pose proof (truthy_given "arch" opts NO) as T. split.
    - intros [w I G|G P|G P].
      + rewrite (In_assoc _ _ _ _ NO I) in *. rewrite (proj2 T G). reflexivity.
      + destruct (assoc "arch" opts) as [w|]; [destruct (truthy (Some w)); [destruct G; apply T; reflexivity|]|]; rewrite (proj2 (String.eqb_neq _ _) P); reflexivity.
      + destruct (assoc "arch" opts) as [w|]; [destruct (truthy (Some w)); [destruct G; apply T; reflexivity|]|]; rewrite P; reflexivity.
    - intros ->. destruct (assoc "arch" opts) as [w|] eqn:A.
      + destruct (truthy (Some w)) eqn:TW; [apply ta_option; [apply assoc_In, A|apply T; reflexivity]|]. assert (G : ~ given "arch" opts) by (intros X; apply T in X; discriminate). destruct (String.eqb_spec (process_arch sur) ""); [apply ta_unknown|apply ta_running]; assumption.
      + assert (G : ~ given "arch" opts) by (intros X; apply T in X; discriminate). destruct (String.eqb_spec (process_arch sur) ""); [apply ta_unknown|apply ta_running]; assumption.
  Qed.
  Definition vars1 : obj := set_key "standalone_static_library" (JNum (if truthy (assoc "thin" opts) then 0 else 1)) (set_key "python" (JStr py) (set_key "nodedir" (JStr nd) (set_key "target_arch" arch vars0))).
  Definition vars2 : obj :=
    if is_win sur then
      let variables := set_key "msbuild_path" (JStr (ms_build vs)) vars1 in
      match assoc "clang" variables with Some (JNum 1) => set_key "clang" (JNum 0) variables | _ => variables end
    else vars1.
  Definition variables : obj := fold_left add_option opts vars2.
  Definition defs1 : obj := set_key "libraries" (JArr []) (set_key "include_dirs" (JArr []) (set_key "defines" (JArr []) (set_key "cflags" (JArr []) defs0))).
  Definition defs2 : obj := match assoc "debug" opts with Some v => set_key "default_configuration" (JStr (if truthy (Some v) then "Debug" else "Release")) defs1 | None => defs1 end.
  Definition defs3 : obj := if truthy (assoc "default_configuration" defs2) then defs2 else set_key "default_configuration" (JStr "Release") defs2.
  Definition defs4 : obj := if is_str "arm64" arch then set_key "xcode_configuration_platform" (JStr "arm64") (set_key "msvs_configuration_platform" (JStr "ARM64") defs3) else defs3.
  Definition defaults : obj :=
    if is_win sur then
      let defaults := set_key "msbuild_toolset" (JStr (toolset vs)) defs4 in
      let defaults := match sdk vs with Some s => if String.eqb s "" then defaults else set_key "msvs_windows_target_platform_version" (JStr s) defaults | None => defaults end in
      if is_str "arm64" arch then
        if Z.ltb 15 (version_major vs) || (Z.eqb (version_major vs) 15 && Z.leb 9 (version_major vs)) then set_key "msvs_enable_marmasm" (JNum 1) defaults else defaults
      else defaults
    else defs4.
  Definition config : obj := set_key "variables" (JObj variables) (set_key "target_defaults" (JObj defaults) config0).
  Lemma current_is : current_config sur opts nd py vs = config.
  Proof. unfold current_config. rewrite SB. reflexivity. Qed.

  Lemma unique_arch : unique arch.
  Proof. unfold arch, arch_of. destruct (assoc "arch" opts) as [w|] eqn:A; [destruct (truthy (Some w)); [apply assoc_In in A; rewrite Forall_forall in UO; apply UO in A; exact A|]|]; destruct (String.eqb _ _); constructor. Qed.
  Definition fine_obj (P : json -> Prop) (o : obj) : Prop := NoDup (map fst o) /\ Forall (fun e : string * json => P (snd e)) o.
  Lemma fine_set : forall (P : json -> Prop) k v o, P v -> fine_obj P o -> fine_obj P (set_key k v o).
  Proof. intros P k v o V [N F]. split; [apply set_key_NoDup, N|apply set_values; assumption]. Qed.
  Lemma all_fine : forall P : json -> Prop, (forall s, P (JStr s)) -> (forall z, P (JNum z)) -> P (JArr []) -> P arch -> (forall k, fine_obj P (sub k config0)) -> Forall (fun e : string * json => P (snd e)) opts -> fine_obj P variables /\ fine_obj P defaults.
  Proof.
    intros P PS PN PA AR S0 PO. split.
    - unfold variables. assert (F : fine_obj P vars2).
      { assert (F1 : fine_obj P vars1) by (unfold vars1, vars0; repeat apply fine_set; auto). unfold vars2. destruct (is_win sur); [|exact F1]. cbv zeta. assert (F2 : fine_obj P (set_key "msbuild_path" (JStr (ms_build vs)) vars1)) by (apply fine_set; auto).
        destruct (assoc "clang" _) as [[| |z| | |]|]; try exact F2. destruct z as [|[]|]; try exact F2. apply fine_set; auto. }
      destruct F as [N F]. split; [apply (fold_NoDup _ _ _ add_option_key), N|]. apply (fold_values _ _ _ add_option_key); [|exact F]. intros e I. rewrite Forall_forall in PO. apply PO, I.
    - assert (F1 : fine_obj P defs1) by (unfold defs1, defs0; repeat apply fine_set; auto). assert (F2 : fine_obj P defs2) by (unfold defs2; destruct (assoc "debug" opts); [apply fine_set; auto|exact F1]).
      assert (F3 : fine_obj P defs3) by (unfold defs3; destruct (truthy _); [exact F2|apply fine_set; auto]). assert (F4 : fine_obj P defs4) by (unfold defs4; destruct (is_str _ _); [repeat apply fine_set; auto|exact F3]).
      unfold defaults. destruct (is_win sur); [|exact F4]. cbv zeta. assert (F5 : fine_obj P (match sdk vs with Some s => if String.eqb s "" then set_key "msbuild_toolset" (JStr (toolset vs)) defs4 else set_key "msvs_windows_target_platform_version" (JStr s) (set_key "msbuild_toolset" (JStr (toolset vs)) defs4) | None => set_key "msbuild_toolset" (JStr (toolset vs)) defs4 end)).
      { destruct (sdk vs) as [s|]; [destruct (String.eqb s "")|]; repeat apply fine_set; auto. }
      destruct (is_str _ _); [|exact F5]. destruct (_ || _); [apply fine_set; auto|exact F5].
  Qed.
  Lemma config_fine : forall P : json -> Prop, (forall s, P (JStr s)) -> (forall z, P (JNum z)) -> P (JArr []) -> P arch -> (forall k, fine_obj P (sub k config0)) -> fine_obj P config0 -> Forall (fun e : string * json => P (snd e)) opts -> (forall d, fine_obj P d -> P (JObj d)) -> fine_obj P config.
  Proof. intros P PS PN PA AR S0 C0 PO PB. destruct (all_fine P PS PN PA AR S0 PO) as [V D]. unfold config. repeat apply fine_set; auto. Qed.
  Lemma config_unique : unique (JObj config).
  Proof.
    destruct (config_fine unique) as [N F]; try (intros; constructor; fail); [repeat constructor|apply unique_arch|apply sub_unique|apply config0_unique|exact UO| |constructor; assumption]. intros d [N F]. constructor; assumption.
  Qed.
  Lemma vars_fine : NoDup (map fst variables) /\ NoDup (map fst defaults).
  Proof. destruct (all_fine unique) as [[N _] [M _]]; try (intros; constructor; fail); [repeat constructor|apply unique_arch|apply sub_unique|exact UO|]. auto. Qed.
  Lemma config_NoDup : NoDup (map fst config).
  Proof. pose proof config_unique as U. inversion U; assumption. Qed.
  Lemma config_vars : forall k x, holds (JObj config) ["variables"; k] x <-> assoc k variables = Some x.
  Proof.
    intros k x. rewrite holds_two by apply config_NoDup. rewrite <- holds_assoc by apply vars_fine. unfold config. rewrite assoc_set_same. split; [intros (y & [= <-] & H); exact H|eauto].
  Qed.
  Lemma config_defs' : forall k x, holds (JObj config) ["target_defaults"; k] x <-> assoc k defaults = Some x.
  Proof.
    intros k x. rewrite holds_two by apply config_NoDup. rewrite <- holds_assoc by apply vars_fine. unfold config. rewrite assoc_set_other, assoc_set_same by discriminate. split; [intros (y & [= <-] & H); exact H|eauto].
  Qed.
  Lemma config_rest : forall k x, k <> "variables" -> k <> "target_defaults" -> holds (JObj config) [k] x <-> holds b [k] x.
  Proof.
    intros k x N1 N2. rewrite holds_assoc by apply config_NoDup. unfold config. rewrite !assoc_set_other by congruence. unfold config0. destruct config0_unique as [N _]. unfold config0 in N. destruct b as [| | | | |d]; try (split; [discriminate|intros H; inversion H]). rewrite holds_assoc by exact N. reflexivity.
  Qed.

  Lemma set_variable_iff : forall k x, set_variable sur opts nd py vs b k x -> assoc k vars2 = Some x.
  Proof.
    assert (M : forall k, k <> "msbuild_path" -> k <> "clang" -> assoc k vars2 = assoc k vars1).
    { intros k N1 N2. unfold vars2. destruct (is_win sur); [|reflexivity]. cbv zeta. destruct (assoc "clang" _) as [[| |z| | |]|]; try (apply assoc_set_other; congruence). destruct z as [|[]|]; try (apply assoc_set_other; congruence). rewrite !assoc_set_other by congruence. reflexivity. }
    pose proof (truthy_given "thin" opts NO) as T.
    intros k x [v H| | |G|G|W|W H]; try (rewrite M by discriminate; unfold vars1; rewrite ?assoc_set_other by discriminate).
    - rewrite assoc_set_same. apply arch_target in H. subst v. reflexivity.
    - apply assoc_set_same.
    - apply assoc_set_same.
    - rewrite assoc_set_same. rewrite (proj2 T G). reflexivity.
    - rewrite assoc_set_same. destruct (truthy (assoc "thin" opts)); [destruct G; apply T; reflexivity|reflexivity].
    - unfold vars2. rewrite W. cbv zeta. destruct (assoc "clang" _) as [[| |z| | |]|]; try apply assoc_set_same. destruct z as [|[]|]; try apply assoc_set_same. rewrite assoc_set_other by discriminate. apply assoc_set_same.
    - apply holds_sub in H. unfold vars2. rewrite W. cbv zeta. replace (assoc "clang" (set_key "msbuild_path" (JStr (ms_build vs)) vars1)) with (Some (JNum 1)); [apply assoc_set_same|]. unfold vars1. rewrite !assoc_set_other by discriminate. symmetry. exact H.
  Qed.
  Lemma set_variable_dec : forall k, (exists x, set_variable sur opts nd py vs b k x) \/ ((forall x, ~ set_variable sur opts nd py vs b k x) /\ assoc k vars2 = assoc k vars0).
  Proof.
    intros k. pose proof (truthy_given "thin" opts NO) as T.
    destruct (String.eqb_spec k "target_arch") as [-> |N1]; [left; exists arch; apply sv_arch, arch_target; reflexivity|].
    destruct (String.eqb_spec k "nodedir") as [-> |N2]; [left; eexists; apply sv_nodedir|].
    destruct (String.eqb_spec k "python") as [-> |N3]; [left; eexists; apply sv_python|].
    destruct (String.eqb_spec k "standalone_static_library") as [-> |N4].
    { left. destruct (truthy (assoc "thin" opts)) eqn:E; [eexists; apply sv_thin, T; reflexivity|]. eexists; apply sv_thick. intros G. apply T in G. discriminate. }
    assert (V : assoc k vars1 = assoc k vars0) by (unfold vars1; rewrite !assoc_set_other by congruence; reflexivity).
    destruct (is_win sur) eqn:W.
    - destruct (String.eqb_spec k "msbuild_path") as [-> |N5]; [left; eexists; apply sv_msbuild, W|]. destruct (String.eqb_spec k "clang") as [-> |N6].
      + assert (C : assoc "clang" (set_key "msbuild_path" (JStr (ms_build vs)) vars1) = assoc "clang" vars0) by (rewrite assoc_set_other by discriminate; exact V).
        assert (D : assoc "clang" vars0 = Some (JNum 1) \/ assoc "clang" vars0 <> Some (JNum 1) /\ assoc "clang" vars2 = assoc "clang" vars0).
        { unfold vars2. rewrite W. cbv zeta. rewrite C. destruct (assoc "clang" vars0) as [[| |[|[]|]| | |]|]; (left; reflexivity) || (right; split; [discriminate|exact C]). }
        destruct D as [D|[D1 D2]]; [left; eexists; apply sv_clang; [exact W|apply holds_sub, D]|]. right. split; [|exact D2]. intros x H. inversion H; subst. apply D1. apply holds_sub. assumption.
      + right. split; [intros x H; inversion H; congruence|]. unfold vars2. rewrite W. cbv zeta. destruct (assoc "clang" _) as [[| |z| | |]|]; try (rewrite assoc_set_other by congruence; exact V). destruct z as [|[]|]; try (rewrite assoc_set_other by congruence; exact V). rewrite !assoc_set_other by congruence. exact V.
    - right. split; [intros x H; inversion H; congruence|]. unfold vars2. rewrite W. exact V.
  Qed.
  Lemma last_dec : forall k, (exists o, last_with (fun e => option_key e = Some k) opts o) \/ (forall e, In e opts -> option_key e <> Some k).
  Proof.
    clear. intros k. induction opts as [|e l IH]; [right; intros e []|]. destruct IH as [(o & l1 & l2 & -> & P & N)|IH].
    - left. exists o, (e :: l1), l2. auto.
    - destruct (option_key e) as [k'|] eqn:E; [destruct (String.eqb_spec k' k) as [-> |NE]|].
      + left. exists e, [], l. split; [reflexivity|]. split; [exact E|]. apply Forall_forall. exact IH.
      + right. intros e' [<-|I]; [congruence|apply IH, I].
      + right. intros e' [<-|I]; [congruence|apply IH, I].
  Qed.
  Definition sets_k (k : string) (e : string * json) : Prop := user_option (fst e) /\ turned "-" "_" (fst e) k.
  Lemma variables_iff : forall k x, assoc k variables = Some x <->
    (exists o, last_with (sets_k k) opts (o, x)) \/
    (forall e, In e opts -> ~ sets_k k e) /\ (set_variable sur opts nd py vs b k x \/ (forall y, ~ set_variable sur opts nd py vs b k y) /\ holds b ["variables"; k] x).
  Proof.
    intros k x. assert (K : forall e, option_key e = Some k <-> sets_k k e) by (intros e; apply option_key_spec). destruct (last_dec k) as [((o & w) & L)|L].
    - pose proof (fold_last _ _ _ add_option_key k opts (o, w) vars2 L) as E. fold variables in E. cbn [snd] in E. rewrite E. split.
      + intros [= <-]. left. exists o. revert L. apply last_with_iff, K.
      + intros [(o' & L')|[N _]].
        * apply (last_with_iff _ _ (fun e => option_key e = Some k)) in L'; [|intros y; symmetry; apply K]. pose proof (fold_last _ _ _ add_option_key k opts (o', x) vars2 L') as E'. fold variables in E'. cbn [snd] in E'. congruence.
        * destruct L as (l1 & l2 & -> & P & _). exfalso. apply (N (o, w)); [apply in_or_app; right; left; reflexivity|apply K, P].
    - pose proof (fold_other _ _ _ add_option_key k opts vars2 L) as E. fold variables in E. rewrite E. destruct (set_variable_dec k) as [(w & S)|[S V]].
      + pose proof (set_variable_iff k w S) as A. rewrite A. split.
        * intros [= <-]. right. split; [intros e I X; apply (L e I), K, X|left; exact S].
        * intros [(o & l1 & l2 & X & P & _)|[_ [S'|[N _]]]]; [exfalso; apply (L (o, x)); [rewrite X; apply in_or_app; right; left; reflexivity|apply K, P]| |destruct (N w S)]. rewrite <- A. apply set_variable_iff, S'.
      + rewrite V. unfold vars0. rewrite <- holds_sub. split.
        * intros H. right. split; [intros e I X; apply (L e I), K, X|right; split; assumption].
        * intros [(o & l1 & l2 & X & P & _)|[_ [S'|[_ H]]]]; [exfalso; apply (L (o, x)); [rewrite X; apply in_or_app; right; left; reflexivity|apply K, P]|destruct (S x S')|exact H].
  Qed.

  Lemma is_str_arch : is_str "arm64" arch = true <-> target sur opts (JStr "arm64").
  Proof. rewrite arch_target. unfold is_str. destruct arch; try (split; [discriminate|intros [=]]). rewrite String.eqb_eq. split; [intros <-; reflexivity|intros [= <-]; reflexivity]. Qed.
  Lemma marmasm_cond : (Z.ltb 15 (version_major vs) || (Z.eqb (version_major vs) 15 && Z.leb 9 (version_major vs)))%bool = true <-> (15 <= version_major vs)%Z.
  Proof. rewrite orb_true_iff, andb_true_iff, Z.ltb_lt, Z.eqb_eq, Z.leb_le. lia. Qed.
  (** step by step *)
  Definition at_defs (k : string) : option json :=
    if mem k ["cflags"; "defines"; "include_dirs"; "libraries"] then Some (JArr []) else
    if String.eqb k "default_configuration" then
      match assoc "debug" opts with
      | Some v => Some (JStr (if truthy (Some v) then "Debug" else "Release"))
      | None => if truthy (assoc k defs0) then assoc k defs0 else Some (JStr "Release")
      end else
    if String.eqb k "msvs_configuration_platform" && is_str "arm64" arch then Some (JStr "ARM64") else
    if String.eqb k "xcode_configuration_platform" && is_str "arm64" arch then Some (JStr "arm64") else
    if String.eqb k "msbuild_toolset" && is_win sur then Some (JStr (toolset vs)) else
    if String.eqb k "msvs_windows_target_platform_version" && is_win sur && match sdk vs with Some s => negb (String.eqb s "") | None => false end then option_map JStr (sdk vs) else
    if String.eqb k "msvs_enable_marmasm" && is_win sur && is_str "arm64" arch && (Z.ltb 15 (version_major vs) || (Z.eqb (version_major vs) 15 && Z.leb 9 (version_major vs))) then Some (JNum 1) else
    assoc k defs0.
  Lemma defaults_at : forall k, assoc k defaults = at_defs k.
  Proof.
    assert (F1 : forall k, assoc k defs1 = if mem k ["cflags"; "defines"; "include_dirs"; "libraries"] then Some (JArr []) else assoc k defs0).
    { intros k. unfold defs1. rewrite !assoc_set. cbn [mem existsb]. rewrite !(String.eqb_sym k). destruct (String.eqb "libraries" k), (String.eqb "include_dirs" k), (String.eqb "defines" k), (String.eqb "cflags" k); reflexivity. }
    assert (DC : assoc "default_configuration" defs1 = assoc "default_configuration" defs0) by apply F1.
    assert (F3 : forall k, assoc k defs3 = if String.eqb k "default_configuration" then at_defs k else assoc k defs1).
    { intros k. destruct (String.eqb_spec k "default_configuration") as [-> |N].
      - unfold at_defs. cbn [mem existsb String.eqb Ascii.eqb Bool.eqb orb]. unfold defs3, defs2. destruct (assoc "debug" opts) as [v|].
        + rewrite assoc_set_same. destruct (truthy (Some v)); cbn [truthy String.eqb negb]; apply assoc_set_same.
        + rewrite DC. destruct (truthy (assoc "default_configuration" defs0)) eqn:T; [exact DC|apply assoc_set_same].
      - unfold defs3, defs2. destruct (assoc "debug" opts) as [v|]; destruct (truthy (assoc _ _)); rewrite ?assoc_set_other by congruence; reflexivity. }
    intros k. unfold defaults, defs4. unfold at_defs. destruct (String.eqb_spec k "default_configuration") as [-> |N0].
    { cbn [mem existsb String.eqb Ascii.eqb Bool.eqb orb]. specialize (F3 "default_configuration"). unfold at_defs in F3. cbn [mem existsb String.eqb Ascii.eqb Bool.eqb orb] in F3. destruct (is_win sur), (is_str "arm64" arch), (sdk vs) as [sd|]; cbv zeta; try destruct (String.eqb sd ""); try destruct (_ || _); rewrite ?assoc_set_other by discriminate; exact F3. }
    specialize (F3 k). rewrite (proj2 (String.eqb_neq _ _) N0) in F3. rewrite F1 in F3. destruct (mem k ["cflags"; "defines"; "include_dirs"; "libraries"]) eqn:M.
    { apply mem_In in M. cbn in M. destruct (is_win sur), (is_str "arm64" arch), (sdk vs) as [sd|]; cbv zeta; try destruct (String.eqb sd ""); try destruct (_ || _); rewrite ?assoc_set_other by (intros X; subst k; clear - M; intuition discriminate); exact F3. }
    clear M. destruct (is_win sur), (is_str "arm64" arch), (sdk vs) as [sd|]; cbv zeta; try destruct (String.eqb sd "") eqn:ES; try destruct (Z.ltb 15 (version_major vs) || _); rewrite ?assoc_set, ?(String.eqb_sym _ k), F3; cbn [negb]; rewrite ?andb_true_r, ?andb_false_r;
      destruct (String.eqb_spec k "msvs_configuration_platform") as [-> |]; try reflexivity; destruct (String.eqb_spec k "xcode_configuration_platform") as [-> |]; try reflexivity; destruct (String.eqb_spec k "msbuild_toolset") as [-> |]; try reflexivity;
      destruct (String.eqb_spec k "msvs_windows_target_platform_version") as [-> |]; try reflexivity; destruct (String.eqb_spec k "msvs_enable_marmasm") as [-> |]; reflexivity.
  Qed.
  Lemma debug_given : given "debug" opts <-> exists v, assoc "debug" opts = Some v /\ truthy (Some v) = true.
  Proof. rewrite <- truthy_given by exact NO. destruct (assoc "debug" opts) as [v|]; [split; [eauto|intros (w & [= <-] & T); exact T]|split; [discriminate|intros (w & [=] & _)]]. Qed.
  Lemma set_default_at : forall k x, set_default sur opts vs b k x -> at_defs k = Some x.
  Proof.
    intros k x S. pose proof is_str_arch as A. pose proof debug_given as DG. unfold at_defs. destruct S as [k I|G|v I G|D H|T|T|W|sd W E NE|W T V]; cbn [mem existsb String.eqb Ascii.eqb Bool.eqb orb andb].
    - repeat (destruct I as [<-|I]; [reflexivity|]). destruct I.
    - apply DG in G. destruct G as (v & -> & ->). reflexivity.
    - apply (In_assoc _ _ _ _ NO) in I. rewrite I. destruct (truthy (Some v)) eqn:T; [destruct G; apply DG; eauto|reflexivity].
    - destruct (assoc "debug" opts) as [v|] eqn:E; [destruct (D v); apply assoc_In, E|]. destruct (assoc "default_configuration" defs0) as [v|] eqn:F; [|reflexivity]. apply holds_sub, H, truthy_falsy in F. rewrite F. reflexivity.
    - apply A in T. rewrite T. reflexivity.
    - apply A in T. rewrite T. reflexivity.
    - rewrite W. reflexivity.
    - rewrite W, E. rewrite (proj2 (String.eqb_neq _ _) NE). reflexivity.
    - apply A in T. rewrite W, T, (proj2 marmasm_cond V). reflexivity.
  Qed.
  Lemma at_default_set : forall k, (exists x, set_default sur opts vs b k x) \/ (forall x, ~ set_default sur opts vs b k x) /\ at_defs k = assoc k defs0.
  Proof.
    intros k. pose proof is_str_arch as A. pose proof debug_given as DG. destruct (mem k ["cflags"; "defines"; "include_dirs"; "libraries"]) eqn:M; [left; eexists; apply sd_none, mem_In, M|].
    unfold at_defs. rewrite M. destruct (String.eqb_spec k "default_configuration") as [-> |N0].
    { destruct (assoc "debug" opts) as [v|] eqn:D.
      - left. destruct (truthy (Some v)) eqn:T; eexists; [apply sd_debug, DG; eauto|]. apply (sd_release _ _ _ _ v); [apply assoc_In, D|]. intros G. apply DG in G. destruct G as (w & [= <-] & X). congruence.
      - assert (ND : forall v, ~ In ("debug", v) opts) by (intros v I; apply (In_assoc _ _ _ _ NO) in I; congruence). destruct (truthy (assoc "default_configuration" defs0)) eqn:T.
        + right. split; [|reflexivity]. intros x S. inversion S as [k I| |w I G|D' H| | | | |]; subst.
          * apply mem_In in I. discriminate.
          * match goal with G : given _ _ |- _ => apply DG in G; destruct G as (w & [=] & _) end.
          * apply (ND w I).
          * destruct (assoc "default_configuration" defs0) as [v|] eqn:F; [|discriminate]. apply holds_sub, H, truthy_falsy in F. congruence.
        + left. eexists. apply sd_default; [exact ND|]. intros v H. apply holds_sub in H. unfold defs0 in T. rewrite H in T. apply truthy_falsy, T. }
    assert (Z : forall x, set_default sur opts vs b k x -> In (k, true) [("msvs_configuration_platform", is_str "arm64" arch); ("xcode_configuration_platform", is_str "arm64" arch); ("msbuild_toolset", is_win sur);
      ("msvs_windows_target_platform_version", is_win sur && match sdk vs with Some s => negb (String.eqb s "") | None => false end); ("msvs_enable_marmasm", is_win sur && is_str "arm64" arch && (Z.ltb 15 (version_major vs) || (Z.eqb (version_major vs) 15 && Z.leb 9 (version_major vs))))]%bool).
    { intros x S. destruct S as [k I|G|v I G|D H|T|T|W|sd W E NE|W T V]; try (destruct (N0 eq_refl)).
      - apply mem_In in I. congruence.
      - apply A in T. rewrite T. cbn; auto 8.
      - apply A in T. rewrite T. cbn; auto 8.
      - rewrite W. cbn; auto 8.
      - rewrite W, E, (proj2 (String.eqb_neq _ _) NE). cbn; auto 8.
      - apply A in T. rewrite W, T, (proj2 marmasm_cond V). cbn; auto 8. }
    destruct (String.eqb k "msvs_configuration_platform" && is_str "arm64" arch) eqn:B1.
    { apply andb_true_iff in B1. destruct B1 as [B1 B2]. apply String.eqb_eq in B1. subst k. left. eexists. apply sd_msvs, A, B2. }
    destruct (String.eqb k "xcode_configuration_platform" && is_str "arm64" arch) eqn:B2.
    { apply andb_true_iff in B2. destruct B2 as [B2 B3]. apply String.eqb_eq in B2. subst k. left. eexists. apply sd_xcode, A, B3. }
    destruct (String.eqb k "msbuild_toolset" && is_win sur) eqn:B3.
    { apply andb_true_iff in B3. destruct B3 as [B3 B4]. apply String.eqb_eq in B3. subst k. left. eexists. apply sd_toolset, B4. }
    destruct (String.eqb k "msvs_windows_target_platform_version" && is_win sur && match sdk vs with Some s => negb (String.eqb s "") | None => false end) eqn:B4.
    { apply andb_true_iff in B4. destruct B4 as [B4 B6]. apply andb_true_iff in B4. destruct B4 as [B4 B5]. apply String.eqb_eq in B4. subst k. destruct (sdk vs) as [sd|] eqn:SD; [|discriminate]. left. exists (JStr sd). apply sd_sdk; [exact B5|exact SD|]. intros ->. discriminate. }
    destruct (String.eqb k "msvs_enable_marmasm" && is_win sur && is_str "arm64" arch && (Z.ltb 15 (version_major vs) || (Z.eqb (version_major vs) 15 && Z.leb 9 (version_major vs)))) eqn:B5.
    { rewrite !andb_true_iff in B5. destruct B5 as [[[B5 B6] B7] B8]. apply String.eqb_eq in B5. subst k. left. eexists. apply sd_marmasm; [exact B6|apply A, B7|apply marmasm_cond, B8]. }
    right. split; [|reflexivity]. intros x S. specialize (Z x S). rewrite <- !andb_assoc in B4, B5. cbn [In] in Z. destruct Z as [Z|[Z|[Z|[Z|[Z|[]]]]]]; injection Z as <- Z; rewrite ?String.eqb_refl in *; cbn [andb] in *; rewrite <- ?andb_assoc in *; congruence.
  Qed.
  Lemma defaults_iff : forall k x, assoc k defaults = Some x <-> set_default sur opts vs b k x \/ (forall y, ~ set_default sur opts vs b k y) /\ holds b ["target_defaults"; k] x.
  Proof.
    intros k x. rewrite defaults_at. destruct (at_default_set k) as [(w & S)|[N E]].
    - pose proof (set_default_at k w S) as A. rewrite A. split; [intros [= <-]; left; exact S|]. intros [S'|[N _]]; [|destruct (N w S)]. rewrite <- A. apply set_default_at, S'.
    - rewrite E, holds_sub. split; [intros H; right; auto|]. intros [S|[_ H]]; [destruct (N x S)|exact H].
  Qed.
End Config.

(** ** From the environment to gyp *)
Lemma stands_holds : forall v path x, holds v path x -> forall v', stands_for v v' -> exists x', holds v' path x' /\ stands_for x x'.
Proof.
  induction 1 as [v|d k y path x I H IH]; intros v' S; [exists v'; split; [constructor|exact S]|]. inversion S as [| | | | | |d0 d' F]; subst.
  assert (X : exists y', In (k, y') d' /\ stands_for y y').
  { clear - F I. induction F as [|[k1 v1] [k2 v2] l l' [E S] F IH]; [destruct I|]. cbn [fst snd] in *. destruct I as [[= -> ->]|I]; [subst k2; exists v2; split; [left; reflexivity|exact S]|]. destruct (IH I) as (y' & I' & S'). exists y'. split; [right; exact I'|exact S']. }
  destruct X as (y' & I' & S'). destruct (IH y' S') as (x' & H' & Sx). exists x'. split; [apply (ho_entry d' k y' path x' I' H')|exact Sx].
Qed.
Lemma subst_there : forall x, subst_char "_" "-" (subst_char "-" "_" x) = subst_char "_" "-" x.
Proof. induction x as [|c x IH]; [reflexivity|]. cbn [subst_char]. rewrite IH. f_equal. destruct (Ascii.eqb_spec c "-") as [-> |N]; [reflexivity|reflexivity]. Qed.
Lemma subst_back : forall x, subst_char "-" "_" (subst_char "_" "-" x) = subst_char "-" "_" x.
Proof. induction x as [|c x IH]; [reflexivity|]. cbn [subst_char]. rewrite IH. f_equal. destruct (Ascii.eqb_spec c "_") as [-> |N]; [reflexivity|reflexivity]. Qed.
Lemma subst_nil : forall a b x, subst_char a b x = "" -> x = "".
Proof. intros a b [|c x]; [reflexivity|discriminate]. Qed.
Lemma options_from : forall cl env e, In e (options_of cl env) -> In e cl \/ exists n s, In (n, s) env /\ env_sets n (fst e) /\ snd e = JStr s.
Proof.
  intros cl env. revert cl. induction env as [|[n s] env IH]; intros cl e I; [left; exact I|]. unfold options_of in I. cbn [fold_left] in I. fold (options_of (add_env cl (n, s)) env) in I. apply IH in I. destruct I as [I|(n' & s' & I & X)]; [|right; exists n', s'; split; [right; exact I|exact X]].
  rewrite add_env_key in I. destruct (env_key (n, s)) as [k|] eqn:K; [|left; exact I]. apply env_key_spec in K. cbn [fst snd] in *.
  assert (Y : In e cl \/ e = (k, JStr s)). { clear - I. induction cl as [|[k' v'] cl IH]; [destruct I as [<-|[]]; auto|]. cbn [set_key] in I. destruct (String.eqb_spec k k') as [EK|N]; [destruct I as [<-|I]; [right; reflexivity|left; right; exact I]|]. destruct I as [<-|I]; [left; left; reflexivity|]. destruct (IH I); [left; right; assumption|right; assumption]. }
  destruct Y as [Y| ->]; [left; exact Y|]. right. exists n, s. split; [left; reflexivity|]. auto.
Qed.
Lemma options_NoDup : forall cl env, NoDup (map fst cl) -> NoDup (map fst (options_of cl env)).
Proof. intros cl env N. apply (fold_NoDup _ _ _ add_env_key), N. Qed.
Lemma options_values : forall (P : json -> Prop) cl env, (forall s, P (JStr s)) -> Forall (fun e : string * json => P (snd e)) cl -> Forall (fun e : string * json => P (snd e)) (options_of cl env).
Proof. intros P cl env S F. apply (fold_values _ _ _ add_env_key); auto. Qed.
Lemma no_null_obj : forall d, Forall (fun e : string * json => ~ within JNull (snd e)) d -> ~ within JNull (JObj d).
Proof. intros d F H. inversion H as [| |k y d' I H']; subst. rewrite Forall_forall in F. apply F in I. contradiction. Qed.
Lemma no_null_in : forall d, ~ within JNull (JObj d) -> Forall (fun e : string * json => ~ within JNull (snd e)) d.
Proof. intros d H. apply Forall_forall. intros [k y] I X. apply H. apply (in_obj _ k y); assumption. Qed.

Theorem environment_reaches : forall sur cl env node_dir python vs base k n val,
  NoDup (map fst cl) -> Forall (fun e => unique (snd e) /\ ~ within JNull (snd e)) cl ->
  source sur (options_of cl env) node_dir base -> unique base -> ~ within JNull base ->
  (forall o, turned "_" "-" k o -> user_option o) ->
  (forall e, In e cl -> turned "-" "_" (fst e) k -> turned "_" "-" k (fst e)) ->
  last_with (fun e => exists x, fst e = "npm_config_" ++ x /\ x <> "" /\ turned "-" "_" x k) env (n, val) ->
  exists v, py_eval (config_file (JObj (current_config sur (options_of cl env) node_dir python vs))) = Some v /\ holds v ["variables"; k] (JStr val).
Proof.
  intros sur cl env nd py vs b k n val N F S U NB UO OC L. set (o := subst_char "_" "-" k). assert (TO : turned "_" "-" k o) by (apply turned_iff; reflexivity). specialize (UO o TO).
  assert (BO : subst_char "-" "_" o = k). { destruct L as (l1 & l2 & _ & (x & _ & _ & T) & _). apply turned_iff in T. unfold o. rewrite T, subst_there, subst_back. reflexivity. }
  assert (LE : last_with (fun e => env_sets (fst e) o) env (n, val)).
  { destruct L as (l1 & l2 & E & (x & X1 & X2 & X3) & M). exists l1, l2. split; [exact E|]. split.
    - exists x. cbn [fst] in *. split; [exact X1|]. split; [exact X2|]. apply turned_iff in X3. split; [intros ->; destruct UO as (_ & UO & _); apply UO; unfold o; rewrite X3; cbn; auto 20|]. apply turned_iff. unfold o. rewrite X3, subst_there. reflexivity.
    - eapply Forall_impl; [|exact M]. intros [n' s']. cbn [fst]. intros ME (x' & Y1 & Y2 & Y3 & Y4). apply ME. exists x'. split; [exact Y1|]. split; [exact Y2|]. apply turned_iff. apply turned_iff in Y4. rewrite <- BO, Y4. apply subst_back. }
  set (opts := options_of cl env) in *. assert (NO : NoDup (map fst opts)) by (apply options_NoDup, N). assert (SB := source_base _ _ _ _ NO S).
  assert (FU : Forall (fun e : string * json => unique (snd e)) opts) by (apply options_values; [intros; constructor|eapply Forall_impl; [|exact F]; intros e [X _]; exact X]).
  assert (FN : Forall (fun e : string * json => ~ within JNull (snd e)) opts) by (apply (options_values (fun v => ~ within JNull v)); [intros s H; inversion H|eapply Forall_impl; [|exact F]; intros e [_ X]; exact X]).
  assert (A : assoc o opts = Some (JStr val)) by (apply (proj1 (environment cl env o) (n, val) LE)).
  assert (K : assoc k (variables sur opts nd py vs b) = Some (JStr val)).
  { apply variables_iff; try assumption. left. exists o. apply assoc_In in A. apply in_split in A. destruct A as (l1 & l2 & E). exists l1, l2. split; [exact E|]. split; [split; [exact UO|apply turned_iff; symmetry; exact BO]|].
    apply Forall_forall. intros e I [UE TE]. assert (IE : In e opts) by (rewrite E; apply in_or_app; right; right; exact I). assert (EO : fst e = o).
    { destruct (options_from _ _ _ IE) as [I'|(n' & s' & _ & (x' & _ & _ & _ & T') & _)]; [apply OC in I'; [|exact TE]; apply turned_iff in I'; exact I'|]. apply turned_iff in T'. apply turned_iff in TE. unfold o. rewrite TE, T', subst_back, subst_there. reflexivity. }
    rewrite E, map_app in NO. apply NoDup_remove_2 in NO. apply NO. apply in_or_app. right. cbn [fst]. rewrite <- EO. apply in_map, I. }
  rewrite (current_is sur opts nd py vs b SB). set (c := config sur opts nd py vs b). assert (UC : unique (JObj c)) by (apply config_unique; assumption).
  assert (NC : ~ within JNull (JObj c)).
  { apply no_null_obj. assert (AR : ~ within JNull (arch sur opts)). { unfold arch, arch_of. destruct (assoc "arch" opts) as [w|] eqn:AA; [destruct (truthy (Some w)); [apply assoc_In in AA; rewrite Forall_forall in FN; apply FN in AA; exact AA|]|]; destruct (String.eqb _ _); intros H; inversion H. }
    assert (C0 : fine_obj (fun v => ~ within JNull v) (config0 b)) by (split; [apply (config0_unique sur opts nd b SB U)|unfold config0; destruct b; try constructor; apply no_null_in, NB]).
    apply (config_fine sur opts nd py vs b (fun v => ~ within JNull v)); try assumption; try (intros; intros H; inversion H; fail).
    - intros H. inversion H as [|y l I|]. destruct I.
    - intros k'. split; [apply (sub_unique sur opts nd b SB U)|]. destruct C0 as [_ C0]. unfold sub. destruct (assoc k' (config0 b)) as [w|] eqn:AA; [|constructor]. apply assoc_In in AA. rewrite Forall_forall in C0. apply C0 in AA. destruct w; try constructor. apply no_null_in, AA.
    - intros d [_ D]. apply no_null_obj, D. }
  destruct (gyp_reads (JObj c) UC NC) as (v & P & SF). exists v. split; [exact P|]. assert (H : holds (JObj c) ["variables"; k] (JStr val)) by (apply config_vars; assumption).
  destruct (stands_holds _ _ _ H v SF) as (x' & H' & Sx). inversion Sx as [| | | |s E1 E2| |]. rewrite E2. exact H'.
Qed.

(** ** Where it goes wrong *)
Definition linux : surroundings := {| process_config := JObj [("variables", JObj [("napi_build_version", JStr "9")])]; is_win := false; process_arch := "x64"; header_config := None |}.
Definition windows : surroundings := {| process_config := JObj []; is_win := true; process_arch := "arm64"; header_config := None |}.
Definition vs2017 : vs_info := {| toolset := "v141"; sdk := None; version_major := 15; version_minor := 0; ms_build := "MSBuild.exe" |}.
Lemma debug_false : holds (JObj (current_config linux (options_of [] [("npm_config_debug", "false")]) "" "python3" vs2017)) ["target_defaults"; "default_configuration"] (JStr "Debug").
Proof. vm_compute. repeat (econstructor; [solve [repeat (first [left; reflexivity|right])]|]). constructor. Qed.
Lemma marmasm_old : holds (JObj (current_config windows [] "" "python3" vs2017)) ["target_defaults"; "msvs_enable_marmasm"] (JNum 1).
Proof. vm_compute. repeat (econstructor; [solve [repeat (first [left; reflexivity|right])]|]). constructor. Qed.
Lemma underscore_wins : holds (JObj (current_config linux (options_of [("a-b", JStr "1"); ("a_b", JStr "2")] [("npm_config_a_b", "3")]) "" "python3" vs2017)) ["variables"; "a_b"] (JStr "2").
Proof. vm_compute. repeat (econstructor; [solve [repeat (first [left; reflexivity|right])]|]). constructor. Qed.
Lemma inherited_dropped : forall v, ~ holds (JObj (current_config linux (options_of [] [("npm_config_constructor", "1")]) "" "python3" vs2017)) ["variables"; "constructor"] v.
Proof.
  intros v H. vm_compute in H. inversion H as [|d k y p x I H']; subst. repeat (destruct I as [I|I]; [first [discriminate I|injection I as <-]|]); [|destruct I]. inversion H' as [|d k y p x I H2]; subst. repeat (destruct I as [I|I]; [discriminate I|]). destruct I.
Qed.
