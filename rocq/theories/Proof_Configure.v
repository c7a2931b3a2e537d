(** What configure hands to gyp. *)
From Coq Require Import ZArith Lia.
From Verif Require Import Lib Str LibFacts StrFacts Model_Path Model_Args Spec_Args Proof_Args Proof_Args2 Model_Configure Spec_Configure.
Local Open Scope string_scope.

Lemma find_first : forall p d c f, find_accessible p d c = Some f <-> first_readable p d c f.
Proof.
  intros p d c f. unfold find_accessible, first_readable. induction c as [|n c IH]; cbn [map find]; [split; [discriminate|intros (a & x & b & E & _); destruct a; discriminate]|]. destruct (readable p (resolve p d n)) eqn:R.
  - split.
    + intros [= <-]. exists [], n, c. split; [reflexivity|]. split; [reflexivity|]. split; [exact R|intros y []].
    + intros (a & x & b & E & -> & _ & N). destruct a as [|y a]; [injection E as -> ->; reflexivity|]. injection E as -> ->. rewrite (N y (or_introl eq_refl)) in R. discriminate.
  - rewrite IH. split.
    + intros (a & x & b & -> & -> & Q & N). exists (n :: a), x, b. split; [reflexivity|]. split; [reflexivity|]. split; [exact Q|]. intros y [<-|I]; auto.
    + intros (a & x & b & E & -> & Q & N). destruct a as [|y a]; [injection E as -> ->; congruence|]. injection E as -> ->. exists a, x, b. split; [reflexivity|]. split; [reflexivity|]. split; [exact Q|]. intros z I. apply N. right. exact I.
Qed.
Lemma given_iff : forall o s, given_text o = Some s <-> not_empty o s.
Proof. intros [[|a s]|] t; cbn [given_text]; unfold not_empty; split; try discriminate; try (intros [E N]; congruence). intros E. injection E as <-. split; [reflexivity|discriminate]. Qed.
Lemma empty_iff : forall o, given_text o = None <-> empty o.
Proof.
  intros o. unfold empty. split; [intros H s N; apply given_iff in N; congruence|]. intros H. destruct (given_text o) eqn:E; [|reflexivity]. apply given_iff in E. destruct (H _ E).
Qed.
Lemma exports_iff : forall p f, exports_platform p = true -> (exports_file p = Some f <-> exports_of p f).
Proof.
  intros p f X. unfold exports_platform in X. unfold exports_file, exports_of. destruct (String.eqb_spec (platform p) "os390") as [E|N].
  - rewrite find_first, E. intuition discriminate.
  - rewrite orb_false_r in X. apply orb_true_iff in X. rewrite !String.eqb_eq in X. rewrite find_first. intuition.
Qed.
Lemma no_exports : forall p f, exports_platform p = false -> ~ exports_of p f.
Proof.
  intros p f X. unfold exports_platform in X. apply orb_false_iff in X. destruct X as [X Z]. apply orb_false_iff in X. destruct X as [X Y]. apply String.eqb_neq in X, Y, Z. unfold exports_of. intuition.
Qed.
Lemma zoslib_iff : forall p f, platform p = "os390" -> (zoslib_header p = Some f <-> zoslib_of p f).
Proof.
  intros p f E. unfold zoslib_header, zoslib_of. destruct (given_text (zoslib_includes p)) as [d|] eqn:G.
  - rewrite find_first. pose proof (proj1 (given_iff _ _) G) as N. split; [intros H; split; [exact E|]; left; exists d; auto|]. intros [_ [(d' & N' & H)|[M _]]]; [|destruct (M _ N)]. destruct N, N'. congruence.
  - rewrite find_first. pose proof (proj1 (empty_iff _) G) as N. split; [intros H; split; [exact E|right; auto]|]. intros [_ [(d' & N' & H)|[M H]]]; [destruct (N _ N')|exact H].
Qed.
Lemma doubled_iff : forall s t, doubled s t <-> double_backslashes s = t.
Proof.
  intros s t. split.
  - induction 1 as [|s t H IH|a s t N H IH]; cbn [double_backslashes]; [reflexivity|rewrite IH; reflexivity|]. apply Ascii.eqb_neq in N. rewrite N, IH. reflexivity.
  - intros <-. induction s as [|a s IH]; cbn [double_backslashes]; [constructor|]. destruct (Ascii.eqb_spec a "\") as [->|N]; constructor; assumption.
Qed.

(** The variables that are defined. *)
Definition pairs (p : place) (extra : list (string * string)) : list (string * string) :=
  ([("library", "shared_library"); ("visibility", "default"); ("node_root_dir", node_dir p)] ++ extra
   ++ [("node_gyp_dir", own_dir p); ("node_lib_file", lib_file p); ("module_root_dir", cwd p);
       ("node_engine", match given_text (node_engine p) with Some e => e | None => match given_text (js_engine p) with Some e => e | None => "v8" end end)])%list.
Definition item (e : string * string) : string := fst e ++ "=" ++ snd e.
Definition extras (p : place) (extra : list (string * string)) : Prop :=
  (forall k t, In (k, t) extra <-> (k = "node_exp_file" /\ exports_of p t) \/ (k = "zoslib_include_dir" /\ exists h, zoslib_of p h /\ dirname p h <> "" /\ t = dirname p h)) /\ NoDup (map fst extra).
Lemma lib_iff : forall p t, configured p "node_lib_file" t <-> t = lib_file p.
Proof.
  intros p t. unfold lib_file. unfold win. split.
  - intros H. inversion H as [| | | | | |a N A E|a u W A D E| |].
    + apply String.eqb_neq in N. rewrite N. destruct A as [[M ->]|[[d M] ->]]; [apply empty_iff in M; rewrite M; reflexivity|apply given_iff in M; rewrite M; reflexivity].
    + apply String.eqb_eq in W. rewrite W. apply doubled_iff in D. destruct A as [[M ->]|[[d M] ->]]; [apply empty_iff in M; rewrite M; symmetry; exact D|apply given_iff in M; rewrite M; symmetry; exact D].
  - intros ->. assert (A : arch_part p (match given_text (nodedir p) with Some _ => "$(Configuration)" | None => "<(target_arch)" end)).
    { unfold arch_part. destruct (given_text (nodedir p)) as [d|] eqn:G; [right; split; [exists d; apply given_iff; exact G|reflexivity]|left; split; [apply empty_iff; exact G|reflexivity]]. }
    destruct (String.eqb_spec (platform p) "win32") as [W|N].
    + apply (cf_lib_windows p _ _ W A). apply doubled_iff. reflexivity.
    + apply (cf_lib p _ N A).
Qed.
Lemma engine_iff : forall p t, engine_of p t <-> t = match given_text (node_engine p) with Some e => e | None => match given_text (js_engine p) with Some e => e | None => "v8" end end.
Proof.
  intros p t. unfold engine_of. destruct (given_text (node_engine p)) as [e|] eqn:G.
  - apply given_iff in G. split; [intros [N|[N _]]; [destruct G, N; congruence|destruct (N _ G)]|intros ->; left; exact G].
  - apply empty_iff in G. destruct (given_text (js_engine p)) as [e|] eqn:J.
    + apply given_iff in J. split; [intros [N|[_ [N|[N _]]]]; [destruct (G _ N)|destruct J, N; congruence|destruct (N _ J)]|intros ->; right; auto].
    + apply empty_iff in J. split; [intros [N|[_ [N|[_ N]]]]; [destruct (G _ N)|destruct (J _ N)|exact N]|intros ->; right; auto].
Qed.
Lemma configured_iff : forall p extra k t, extras p extra -> (configured p k t <-> In (k, t) (pairs p extra)).
Proof.
  intros p extra k t [X _]. unfold pairs. rewrite !in_app_iff, X. cbn [In]. split.
  - intros H. destruct H as [| | |f H|h H N| |a N A|a u W A D| |e H]; try (intuition; fail).
    + right. left. right. split; [reflexivity|]. exists h. auto.
    + right. right. right. left. f_equal. symmetry. apply lib_iff. apply (cf_lib p a N A).
    + right. right. right. left. f_equal. symmetry. apply lib_iff. apply (cf_lib_windows p a u W A D).
    + right. right. right. right. right. left. f_equal. symmetry. apply engine_iff. exact H.
  - intros [[E|[E|[E|[]]]]|[[[-> H]|[-> (h & H & N & ->)]]|[E|[E|[E|[E|[]]]]]]].
    + injection E as <- <-. apply cf_library.
    + injection E as <- <-. apply cf_visibility.
    + injection E as <- <-. apply cf_headers.
    + apply cf_exports, H.
    + apply cf_zoslib; assumption.
    + injection E as <- <-. apply cf_own_dir.
    + injection E as <- <-. apply lib_iff. reflexivity.
    + injection E as <- <-. apply cf_module.
    + injection E as <- <-. apply cf_engine, engine_iff. reflexivity.
Qed.
Lemma pairs_keys : forall p extra, extras p extra -> NoDup (map fst (pairs p extra)).
Proof.
  intros p extra [X D]. unfold pairs. rewrite !map_app. cbn [map fst].
  assert (K : forall k, In k (map fst extra) -> k = "node_exp_file" \/ k = "zoslib_include_dir").
  { intros k I. apply in_map_iff in I. destruct I as ((k' & t) & <- & I). apply X in I. cbn. destruct I as [[-> _]|[-> _]]; auto. }
  cbn [app]. repeat (constructor; [intros I; cbn [In] in I; rewrite in_app_iff in I; repeat (destruct I as [I|I]; try discriminate I); try contradiction; try (apply K in I; destruct I; discriminate); cbn [In] in I; intuition discriminate|]).
  induction (map fst extra) as [|k l IH]; cbn [app].
  - repeat constructor; cbn; intuition discriminate.
  - inversion D as [|x y N D']; subst. constructor; [|apply IH; [exact D'|intros; apply K; right; assumption]]. rewrite in_app_iff. intros [I|I]; [exact (N I)|]. cbn [In] in I. destruct (K k (or_introl eq_refl)) as [-> | ->]; intuition discriminate.
Qed.
Lemma pairs_plain : forall p extra k t, extras p extra -> In (k, t) (pairs p extra) -> has_char "=" k = false.
Proof. intros p extra k t X I. apply (configured_iff p extra k t X) in I. destruct I; reflexivity. Qed.

(** A list of definitions with one for each name. *)
Lemma item_defines : forall k t k' v, has_char "=" k = false -> defines_as (item (k, t)) k' v -> k' = k.
Proof.
  intros k t k' v N H. apply defines_means in H. unfold item_means, item in H. cbn [fst snd] in H. rewrite (proj2 (split1_Some "=" (k ++ "=" ++ t) k t)) in H by auto. congruence.
Qed.
Lemma item_defined : forall k t, has_char "=" k = false -> exists v, defines_as (item (k, t)) k v.
Proof.
  intros k t N. unfold item. cbn [fst snd]. destruct (py_int t) as [n|] eqn:P; [exists (Number n); apply da_number; [exact N|apply py_int_iff; exact P]|exists (Text t); apply da_text; [exact N|]]. intros n W. apply py_int_iff in W. congruence.
Qed.
Lemma last_items : forall a l k v, (forall k t, In (k, t) l -> has_char "=" k = false) -> NoDup (map fst l) ->
  (last_says (a ++ map item l) k v <-> (exists t, In (k, t) l /\ defines_as (item (k, t)) k v) \/ ((forall t, ~ In (k, t) l) /\ last_says a k v)).
Proof.
  intros a l k v Q D. rewrite last_app. split.
  - intros [(x & i & y & E & H & N)|[H N]].
    + left. assert (I : In i (map item l)) by (rewrite E; apply in_elt). apply in_map_iff in I. destruct I as ((k' & t) & <- & I). pose proof (item_defines _ _ _ _ (Q _ _ I) H) as ->. exists t. auto.
    + right. split; [|exact H]. intros t I. destruct (item_defined k t (Q _ _ I)) as (w & W). exact (N _ w (in_map item _ _ I) W).
  - intros [(t & I & H)|[N H]].
    + left. apply in_split in I. destruct I as (x & y & ->). rewrite map_app in *. cbn [map fst] in *. exists (map item x), (item (k, t)), (map item y). split; [reflexivity|]. split; [exact H|]. intros i w J W. apply in_map_iff in J. destruct J as ((k' & t') & <- & J).
      assert (k = k') as -> by (apply (item_defines k' t' k w); [apply (Q k' t'); apply in_or_app; right; right; exact J|exact W]). apply NoDup_remove_2 in D. apply D. apply in_or_app. right. apply in_map_iff. exists (k', t'). auto.
    + right. split; [exact H|]. intros i w J W. apply in_map_iff in J. destruct J as ((k' & t') & <- & J). pose proof (item_defines _ _ _ _ (Q _ _ J) W) as ->. exact (N _ J).
Qed.

(** What the arguments say. *)
Lemma parse_attached : forall c o a v ws, In (c, o) short_options -> ~ In o switches -> ~ In o enders -> a <> "="%char ->
  parse (String "-" (String c (String a v)) :: ws) = also (Given o (String a v)) (parse ws).
Proof.
  intros c o a v ws I S E N. cbn [parse]. assert (O : option_word (String "-" (String c (String a v))) o (Some (String a v))) by (apply ow_attached; assumption). pose proof (option_not_dashes _ _ _ O) as ND. apply (option_class _ _ _ ND) in O. apply String.eqb_neq in ND. rewrite ND, O, (proj2 (value_iff o) (conj S E)). reflexivity.
Qed.
Lemma full_value : forall v, full v -> value_word v.
Proof.
  intros v (a & t & -> & N). assert (ND : ~ dashed (String a t)) by (intros (b & u & E); congruence). apply value_class. assert (NE : String a t <> "--") by congruence. split; [exact NE|]. apply (proj1 (proj2 (proj2 (proj2 (classify_sort _ NE))))). exact ND.
Qed.
Lemma parse_after : forall w o v ws, option_word w o None -> ~ In o switches -> ~ In o enders -> full v -> parse (w :: v :: ws) = also (Given o v) (parse ws).
Proof.
  intros w o v ws O S E F. apply full_value, value_class in F. destruct F as [NV C]. pose proof (option_not_dashes _ _ _ O) as ND. apply (option_class _ _ _ ND) in O. cbn [parse]. apply String.eqb_neq in ND, NV. rewrite ND, O, (proj2 (value_iff o) (conj S E)), NV, C. reflexivity.
Qed.
Lemma include_word : option_word "-I" Include None.
Proof. apply (ow_short "I" Include). cbn. intuition. Qed.
Lemma parse_includes : forall l ws, Forall full l -> parse (flat_map (fun c => ["-I"; c]) l ++ ws) = option_map (app (map (Given Include) l)) (parse ws).
Proof.
  intros l ws F. induction F as [|c l H F IH]; cbn [flat_map app map]; [destruct (parse ws); reflexivity|]. rewrite (parse_after "-I" Include c _ include_word) by (cbn; intuition discriminate || exact H). rewrite IH. apply also_app.
Qed.
Lemma parse_defines : forall l ws, (forall k t, In (k, t) l -> exists a r, k = String a r /\ a <> "="%char) ->
  parse (map (fun e => ("-D" ++ item e)%string) l ++ ws) = option_map (app (map (fun e => Given Define (item e)) l)) (parse ws).
Proof.
  intros l ws. induction l as [|(k, t) l IH]; intros Q; cbn [map app]; [destruct (parse ws); reflexivity|]. destruct (Q k t (or_introl eq_refl)) as (a & r & -> & N). change ("-D" ++ item (String a r, t)) with (String "-" (String "D" (String a (r ++ "=" ++ t)))). rewrite (parse_attached "D" Define) by (cbn; intuition discriminate || exact N). rewrite IH by (intros k' t' I; apply (Q k' t'); right; exact I). rewrite also_app. reflexivity.
Qed.

Definition rest_events (p : place) (argv : list string) (extra : list (string * string)) : list event :=
  (map (Given Format) (if mem "-f" argv || mem "--format" argv then [] else [if win p then "msvs" else "make"])
   ++ map (Given Include) (package_configs p ++ [resolve p (own_dir p) "addon.gypi"; common_gypi p])
   ++ map (fun e => Given Define (item e)) (pairs p extra)
   ++ [Given Depth "."; On No_parallel; Given Output (if win p then resolve p (cwd p) "build" else "build"); Given Flag "output_dir=."])%list.
Lemma configure_arguments_are : forall p argv args, configure_arguments p argv = Some args ->
  exists extra, extras p extra /\
    args = (("binding.gyp" :: argv) ++ format_arguments p argv ++ flat_map (fun c => ["-I"; c]) (package_configs p ++ [resolve p (own_dir p) "addon.gypi"; common_gypi p])
            ++ map (fun e => ("-D" ++ item e)%string) (pairs p extra) ++ ["--depth=."; "--no-parallel"; "--generator-output"; if win p then resolve p (cwd p) "build" else "build"; "-Goutput_dir=."])%list.
Proof.
  intros p argv args H. unfold configure_arguments in H.
  assert (G : exists extra, extras p extra /\ args = (("binding.gyp" :: argv) ++ format_arguments p argv ++ flat_map (fun c => ["-I"; c]) (package_configs p)
      ++ own_arguments p (map (fun e => ("-D" ++ item e)%string) extra) [])%list).
  { destruct (exports_platform p) eqn:X.
    - destruct (exports_file p) as [f|] eqn:F; [|discriminate]. pose proof (proj1 (exports_iff p f X) F) as EF. assert (U : forall t, exports_of p t -> t = f) by (intros t T; apply (exports_iff p t X) in T; congruence).
      assert (SE : forall t, exports_of p t <-> t = f) by (intros t; split; [apply U|intros ->; exact EF]).
      destruct (String.eqb_spec (platform p) "os390") as [E|N].
      + destruct (zoslib_header p) as [h|] eqn:Z.
        * assert (SZ : forall g, zoslib_of p g <-> g = h) by (intros g; rewrite <- (zoslib_iff p g E), Z; split; congruence).
          destruct (given_text (Some (dirname p h))) as [d|] eqn:DD.
          -- injection H as <-. apply given_iff in DD. destruct DD as [DD ND]. injection DD as DD. exists [("node_exp_file", f); ("zoslib_include_dir", d)]. split; [|reflexivity]. split; [|repeat constructor; cbn; intuition discriminate].
             intros k t. cbn [In]. rewrite SE. split.
             ++ intros [K|[K|[]]]; injection K as <- <-; [left; auto|right; split; [reflexivity|]]. exists h. split; [apply SZ; reflexivity|]. rewrite DD. auto.
             ++ intros [[-> ->]|[-> (g & Hg & Ng & ->)]]; [auto|]. apply SZ in Hg. subst g. rewrite DD. auto.
          -- injection H as <-. apply empty_iff in DD. exists [("node_exp_file", f)]. split; [|reflexivity]. split; [|repeat constructor; cbn; intuition discriminate].
             intros k t. cbn [In]. rewrite SE. split.
             ++ intros [K|[]]. injection K as <- <-. auto.
             ++ intros [[-> ->]|[-> (g & Hg & Ng & ->)]]; [auto|]. apply SZ in Hg. subst g. destruct (DD (dirname p h)). split; [reflexivity|exact Ng].
        * destruct (major_16 p); [discriminate|]. injection H as <-. exists [("node_exp_file", f)]. split; [|reflexivity]. split; [|repeat constructor; cbn; intuition discriminate].
          intros k t. cbn [In]. rewrite SE. split.
          -- intros [K|[]]. injection K as <- <-. auto.
          -- intros [[-> ->]|[-> (g & Hg & Ng & ->)]]; [auto|]. apply (zoslib_iff p g E) in Hg. congruence.
      + injection H as <-. exists [("node_exp_file", f)]. split; [|reflexivity]. split; [|repeat constructor; cbn; intuition discriminate].
        intros k t. cbn [In]. rewrite SE. split.
        * intros [K|[]]. injection K as <- <-. auto.
        * intros [[-> ->]|[-> (g & Hg & Ng & ->)]]; [auto|]. destruct Hg as [Hg _]. contradiction.
    - injection H as <-. exists []. split; [|reflexivity]. split; [|constructor]. intros k t. cbn [In]. split; [intros []|]. intros [[-> H]|[-> (g & [E _] & _)]]; [exact (no_exports p t X H)|]. unfold exports_platform in X. rewrite E in X. discriminate. }
  destruct G as (extra & X & ->). exists extra. split; [exact X|]. unfold own_arguments, pairs. rewrite flat_map_app, !map_app. cbn [flat_map map app]. rewrite <- !app_assoc. reflexivity.
Qed.
Lemma configure_says : forall p argv args es, says argv es -> ~ In "--" argv -> (forall d f, full (resolve p d f)) -> full (config_gypi p) -> configure_arguments p argv = Some args ->
  exists extra, extras p extra /\ parse args = Some (Left "binding.gyp" :: es ++ rest_events p argv extra)%list.
Proof.
  intros p argv args es S N R C H. apply configure_arguments_are in H. destruct H as (extra & X & ->). exists extra. split; [exact X|]. apply parse_iff in S.
  assert (B : parse ("binding.gyp" :: argv) = Some (Left "binding.gyp" :: es)%list) by (change (parse ("binding.gyp" :: argv)) with (also (Left "binding.gyp") (parse argv)); rewrite S; reflexivity).
  rewrite (parse_app _ _ _ _ (le_n _) B) by (intros [E|I]; [discriminate|exact (N I)]).
  assert (T : parse ["--depth=."; "--no-parallel"; "--generator-output"; if win p then resolve p (cwd p) "build" else "build"; "-Goutput_dir=."]
      = Some [Given Depth "."; On No_parallel; Given Output (if win p then resolve p (cwd p) "build" else "build"); Given Flag "output_dir=."]).
  { assert (F : full (if win p then resolve p (cwd p) "build" else "build")) by (destruct (win p); [apply R|exists "b"%char, "uild"; split; [reflexivity|discriminate]]).
    set (o := if win p then _ else _) in *. change (also (Given Depth ".") (also (On No_parallel) (parse ["--generator-output"; o; "-Goutput_dir=."])) = Some [Given Depth "."; On No_parallel; Given Output o; Given Flag "output_dir=."]).
    rewrite (parse_after "--generator-output" Output o); [reflexivity| |cbn; intuition discriminate|cbn; intuition discriminate|exact F]. apply (ow_long "generator-output" Output); [reflexivity|discriminate|]. left. cbn. intuition. }
  assert (PI : Forall full (package_configs p ++ [resolve p (own_dir p) "addon.gypi"; common_gypi p])%list).
  { apply Forall_forall. intros x I. apply in_app_or in I. unfold package_configs in I. destruct I as [[<-|I]|[<-|[<-|[]]]]; [exact C| |apply R|unfold common_gypi; destruct (exists_file p _); apply R]. apply filter_In in I. destruct I as [I _]. apply in_map_iff in I. destruct I as (y & <- & _). apply R. }
  assert (PD : forall k t, In (k, t) (pairs p extra) -> exists a r, k = String a r /\ a <> "="%char).
  { intros k t I. apply (configured_iff p extra k t X) in I. destruct I; eexists _, _; (split; [reflexivity|discriminate]). }
  assert (M : parse (flat_map (fun c => ["-I"; c]) (package_configs p ++ [resolve p (own_dir p) "addon.gypi"; common_gypi p])
            ++ map (fun e => ("-D" ++ item e)%string) (pairs p extra) ++ ["--depth=."; "--no-parallel"; "--generator-output"; if win p then resolve p (cwd p) "build" else "build"; "-Goutput_dir=."])%list
      = Some (map (Given Include) (package_configs p ++ [resolve p (own_dir p) "addon.gypi"; common_gypi p])
   ++ map (fun e => Given Define (item e)) (pairs p extra)
   ++ [Given Depth "."; On No_parallel; Given Output (if win p then resolve p (cwd p) "build" else "build"); Given Flag "output_dir=."])%list).
  { rewrite (parse_includes _ _ PI), (parse_defines _ _ PD), T. reflexivity. }
  unfold rest_events, format_arguments. destruct (mem "-f" argv || mem "--format" argv); cbn [app map].
  - rewrite M. reflexivity.
  - rewrite (parse_after "-f" Format); [rewrite M; reflexivity| |cbn; intuition discriminate|cbn; intuition discriminate|].
    + apply (ow_short "f" Format). cbn. intuition.
    + destruct (win p); eexists _, _; (split; [reflexivity|discriminate]).
Qed.

Lemma given_map : forall {A} o o' (f : A -> string) l, given o (map (fun e => Given o' (f e)) l) = if opt_beq o o' then map f l else [].
Proof. intros A o o' f l. induction l as [|x l IH]; cbn [map given]; [destruct (opt_beq o o'); reflexivity|]. rewrite IH. destruct (opt_beq o o'); reflexivity. Qed.
Lemma given_map1 : forall o o' l, given o (map (Given o') l) = if opt_beq o o' then l else [].
Proof. intros o o' l. induction l as [|x l IH]; cbn [map given]; [destruct (opt_beq o o'); reflexivity|]. rewrite IH. destruct (opt_beq o o'); reflexivity. Qed.
Lemma left_map : forall {A} o (f : A -> string) l, left_over (map (fun e => Given o (f e)) l) = [].
Proof. intros A o f l. induction l as [|x l IH]; [reflexivity|exact IH]. Qed.
Lemma on_map : forall {A} o o' (f : A -> string) l, is_on o (map (fun e => Given o' (f e)) l) = false.
Proof. intros A o o' f l. induction l as [|x l IH]; [reflexivity|exact IH]. Qed.
Lemma asked_format : forall argv es, says argv es -> ~ In "--" argv -> In "-f" argv \/ In "--format" argv -> values Format es <> [].
Proof.
  assert (F : option_word "-f" Format None) by (apply (ow_short "f" Format); cbn; intuition).
  assert (G : option_word "--format" Format None) by (apply (ow_long "format" Format); [reflexivity|discriminate|left; cbn; intuition]).
  assert (U : forall w o v, w = "-f" \/ w = "--format" -> option_word w o v -> o = Format /\ v = None).
  { intros w o v Hw O. assert (ND : w <> "--") by (intros ->; destruct Hw; discriminate). apply (option_class w o v ND) in O. assert (option_word w Format None) as O' by (destruct Hw as [-> | ->]; assumption). apply (option_class _ _ _ ND) in O'. rewrite O' in O. injection O as <- <-. auto. }
  assert (V : forall w, w = "-f" \/ w = "--format" -> ~ other_word w) by (intros w Hw (_ & O & _); apply (O Format None); destruct Hw as [-> | ->]; assumption).
  intros argv es S N. induction S as [|ws|w ws es O H IH|w o v ws es O N1 N2 H IH|w o v ws es O N1 N2 VW H IH|w o ws es O Sw H IH]; intros I.
  - destruct I as [[]|[]].
  - destruct N. left. reflexivity.
  - assert (I' : (w = "-f" \/ w = "--format") \/ (In "-f" ws \/ In "--format" ws)) by (cbn [In] in I; intuition). destruct I' as [I'|I']; [destruct (V w I' O)|]. exact (IH (fun X => N (or_intror X)) I').
  - assert (I' : (w = "-f" \/ w = "--format") \/ (In "-f" ws \/ In "--format" ws)) by (cbn [In] in I; intuition). unfold values in *. cbn [flat_map]. destruct I' as [I'|I']; [destruct (U w _ _ I' O); discriminate|]. intros E. apply app_eq_nil in E. destruct E as [_ E]. exact (IH (fun X => N (or_intror X)) I' E).
  - unfold values in *. cbn [flat_map]. assert (I' : (w = "-f" \/ w = "--format") \/ (v = "-f" \/ v = "--format") \/ (In "-f" ws \/ In "--format" ws)) by (cbn [In] in I; intuition). destruct I' as [I'|[I'|I']].
    + destruct (U w _ _ I' O) as [-> _]. destruct (opt_eq_dec Format Format); [discriminate|congruence].
    + destruct VW as [VW _]. destruct (V v I' VW).
    + intros E. apply app_eq_nil in E. destruct E as [_ E]. exact (IH (fun X => N (or_intror (or_intror X))) I' E).
  - assert (I' : (w = "-f" \/ w = "--format") \/ (In "-f" ws \/ In "--format" ws)) by (cbn [In] in I; intuition). unfold values in *. cbn [flat_map app]. destruct I' as [I'|I']; [|exact (IH (fun X => N (or_intror X)) I')]. destruct (U w _ _ I' O) as [-> _]. cbn in Sw. intuition discriminate.
Qed.

Theorem configure_handed : forall p f env argv args es r0,
  says argv es -> ~ In "--" argv -> gyp f env argv = Some r0 -> (forall d f, full (resolve p d f)) -> full (config_gypi p) -> configure_arguments p argv = Some args ->
  exists r, gyp f env args = Some r /\ handed p argv es r0 r.
Proof.
  intros p f env argv args es r0 S N G R C H. destruct (configure_says p argv args es S N R C H) as (extra & X & P). unfold gyp. rewrite P. eexists. split; [reflexivity|].
  unfold gyp in G. rewrite (proj2 (parse_iff argv es) S) in G. injection G as <-.
  change (Left "binding.gyp" :: es ++ rest_events p argv extra)%list with (([Left "binding.gyp"] ++ es) ++ rest_events p argv extra)%list. set (T := rest_events p argv extra).
  assert (GT : forall o, given o T = (match o with Format => if mem "-f" argv || mem "--format" argv then [] else [if win p then "msvs" else "make"]
      | Include => package_configs p ++ [resolve p (own_dir p) "addon.gypi"; common_gypi p] | Define => map item (pairs p extra)
      | Depth => ["."] | Output => [if win p then resolve p (cwd p) "build" else "build"] | Flag => ["output_dir=."] | _ => [] end)%list).
  { intros o. unfold T, rest_events. rewrite !given_app, (given_map o Define item), !given_map1. destruct o; cbn [opt_beq given app]; rewrite ?app_nil_r; reflexivity. }
  assert (LT : left_over T = []).
  { unfold T, rest_events. rewrite !left_app, (left_map Define item), (left_map Format (fun x => x)), (left_map Include (fun x => x)). reflexivity. }
  assert (OT : forall o, is_on o T = opt_beq o No_parallel).
  { intros o. unfold T, rest_events. rewrite !on_app, (on_map o Define item), (on_map o Format (fun x => x)), (on_map o Include (fun x => x)). cbn [is_on existsb orb]. apply orb_false_r. }
  assert (GE : forall o, given o (([Left "binding.gyp"] ++ es) ++ T)%list = (given o es ++ given o T)%list) by (intros o; rewrite !given_app; reflexivity).
  assert (SE : forall o, stored o (([Left "binding.gyp"] ++ es) ++ T)%list = match rev (given o T) with v :: _ => Some v | [] => stored o es end) by (intros o; unfold stored; rewrite GE, rev_app_distr; destruct (rev (given o T)); reflexivity).
  assert (OE : forall o, is_on o (([Left "binding.gyp"] ++ es) ++ T)%list = is_on o es || opt_beq o No_parallel) by (intros o; rewrite !on_app, OT; reflexivity).
  assert (FO : forall q, full q -> truth (Some q) = Some q) by (intros q (a & t & -> & _); reflexivity).
  unfold handed, run_of, complete, options_of; cbn [run_files run_formats run_config_dir run_output run_depth run_toplevel run_defines run_flags run_includes run_parallel run_circular_check run_check run_debug run_suffix run_roots run_configs configs check config_dir debug defines depth formats flags output use_environment includes circular_check parallel suffix toplevel_dir root_targets].
  assert (LE : left_over (([Left "binding.gyp"] ++ es) ++ T)%list = "binding.gyp" :: left_over es) by (rewrite !left_app, LT, app_nil_r; reflexivity).
  rewrite LE, !SE, !OE, !GE, !GT. cbn [opt_beq rev app]. rewrite ?app_nil_r, ?orb_false_r, ?orb_true_r.
  repeat match goal with |- _ /\ _ => split end; try reflexivity.
  - intros A. pose proof (asked_format argv es S N A) as NE. assert (M : mem "-f" argv || mem "--format" argv = true) by (apply orb_true_iff; rewrite !mem_In; exact A). rewrite M, app_nil_r. reflexivity.
  - intros A. assert (M : mem "-f" argv || mem "--format" argv = false) by (apply not_true_iff_false; intros M; apply orb_true_iff in M; rewrite !mem_In in M; exact (A M)). rewrite M, <- given_values. unfold win. split; intros W; [apply String.eqb_eq in W|apply String.eqb_neq in W]; rewrite W; destruct (given Format es); reflexivity.
  - exists (package_configs p), (common_gypi p). split; [|split; [|reflexivity]].
    + unfold package_files, package_configs. cbn [map filter]. eexists (if exists_file p (resolve p (cwd p) "config.gypi") then [_] else []), (if exists_file p (resolve p (cwd p) "common.gypi") then [_] else []). split; [destruct (exists_file p (resolve p (cwd p) "config.gypi")), (exists_file p (resolve p (cwd p) "common.gypi")); reflexivity|]. repeat split; intros ->; reflexivity.
    + unfold headers_gypi, common_gypi. destruct (exists_file p (resolve p (node_dir p) "include/node/common.gypi")); auto.
  - intros k v. rewrite name_value_iff, app_assoc, (last_items _ (pairs p extra)); [|intros k' t' I; exact (pairs_plain p extra k' t' X I)|exact (pairs_keys p extra X)]. rewrite <- name_value_iff. split.
    + intros [(t & I & D)|[A B]]; [left; exists t; split; [apply (configured_iff p extra k t X); exact I|exact D]|right; split; [intros t I; apply (configured_iff p extra k t X) in I; exact (A t I)|exact B]].
    + intros [(t & I & D)|[A B]]; [left; exists t; split; [apply (configured_iff p extra k t X); exact I|exact D]|right; split; [intros t I; apply (configured_iff p extra k t X) in I; exact (A t I)|exact B]].
  - intros k v. rewrite name_value_iff, app_assoc. change ["output_dir=."] with (map item [("output_dir", ".")]). rewrite last_items; [|intros k' t' [E|[]]; injection E as <- <-; reflexivity|repeat constructor; intros []]. rewrite <- name_value_iff. split.
    + intros [(t & [I|[]] & D)|[A B]].
      * injection I as <- <-. left. split; [reflexivity|]. apply defines_means in D. vm_compute in D. injection D as <-. reflexivity.
      * right. split; [|exact B]. intros ->. apply (A "."). left. reflexivity.
    + intros [[-> ->]|[A B]].
      * left. exists ".". split; [left; reflexivity|]. apply defines_means. reflexivity.
      * right. split; [|exact B]. intros t [I|[]]. congruence.
  - intros t Ct. apply chosen_iff in Ct. rewrite Ct. exact Ct.
  - intros Ct. apply none_chosen in Ct. rewrite Ct. reflexivity.
  - intros W. apply String.eqb_eq in W. unfold win. rewrite W, (FO _ (R _ _)). apply FO, R.
  - intros W. apply String.eqb_neq in W. unfold win. rewrite W. reflexivity.
Qed.
Theorem configure_stops : forall p argv, configure_arguments p argv = None <-> cannot_configure p.
Proof.
  intros p argv. unfold configure_arguments, cannot_configure. destruct (exports_platform p) eqn:X.
  - assert (I : In (platform p) ["aix"; "os400"; "os390"]) by (unfold exports_platform in X; rewrite !orb_true_iff, !String.eqb_eq in X; cbn; intuition).
    destruct (exports_file p) as [f|] eqn:F.
    + pose proof (proj1 (exports_iff p f X) F) as EF. destruct (String.eqb_spec (platform p) "os390") as [E|NE].
      * destruct (zoslib_header p) as [h|] eqn:Z.
        -- split; [discriminate|]. intros [[_ Q]|[_ [_ Q]]]; [destruct (Q _ EF)|]. apply (zoslib_iff p h E) in Z. destruct (Q _ Z).
        -- destruct (major_16 p) eqn:M.
           ++ split; [intros _|reflexivity]. right. split; [exact E|]. split; [reflexivity|]. intros g Hg. apply (zoslib_iff p g E) in Hg. congruence.
           ++ split; [discriminate|]. intros [[_ Q]|[_ [Q _]]]; [destruct (Q _ EF)|discriminate].
      * split; [discriminate|]. intros [[_ Q]|[Q _]]; [destruct (Q _ EF)|contradiction].
    + split; [intros _; left; split; [exact I|]; intros f Hf; apply (exports_iff p f X) in Hf; congruence|reflexivity].
  - split; [discriminate|]. unfold exports_platform in X. intros [[I _]|[E _]]; [cbn in I; destruct I as [I|[I|[I|[]]]]; rewrite <- I in X; discriminate|rewrite E in X; discriminate].
Qed.

Lemma says_unique : forall args es es', says args es -> says args es' -> es = es'.
Proof. intros args es es' A B. apply parse_iff in A, B. congruence. Qed.
Lemma unknown_option : ~ (forall default_format env args r w, gyp default_format env args = Some r -> In w args -> dashed w -> ~ In w (run_files r)).
Proof. intros H. refine (H "make" no_environment ["--frmat"] _ "--frmat" eq_refl _ _ _); [left; reflexivity|eexists _, _; reflexivity|left; reflexivity]. Qed.
Lemma number_text :
  ~ (forall default_format env k t t' r r', has_char "=" k = false -> t <> t' ->
       gyp default_format env ["-D"; k ++ "=" ++ t] = Some r -> gyp default_format env ["-D"; k ++ "=" ++ t'] = Some r' ->
       assoc k (run_defines r) <> assoc k (run_defines r')).
Proof. intros H. refine (H "make" no_environment "x" "007" "0_7" _ _ eq_refl _ eq_refl eq_refl _); [discriminate|reflexivity]. Qed.
Definition example_place : place :=
  {| platform := "linux"; resolve := fun d f => "/" ++ d ++ "/" ++ f; join := fun l => String.concat "/" l; dirname := fun f => f;
     exists_file := fun f => negb (String.eqb f "//mod/config.gypi"); readable := fun _ => true; node_dir := "/headers"; nodedir := None; node_engine := None; js_engine := None;
     release_name := "node"; major_16 := true; zoslib_includes := None; node_root := "/node"; cwd := "/mod"; own_dir := "/gyp"; config_gypi := "/mod/build/config.gypi" |}.
Definition aix_place : place :=
  {| platform := "aix"; resolve := fun d f => "/" ++ d ++ "/" ++ f; join := fun l => String.concat "/" l; dirname := fun f => f;
     exists_file := fun _ => true; readable := fun _ => false; node_dir := "/headers"; nodedir := None; node_engine := None; js_engine := None;
     release_name := "node"; major_16 := true; zoslib_includes := None; node_root := "/node"; cwd := "/mod"; own_dir := "/gyp"; config_gypi := "/mod/build/config.gypi" |}.
Lemma example_full : (forall d f, full (resolve example_place d f)) /\ full (config_gypi example_place).
Proof. split; [intros d f|]; eexists _, _; (split; [reflexivity|discriminate]). Qed.
Lemma stops_example : cannot_configure aix_place /\ ~ cannot_configure example_place.
Proof. split; [apply (configure_stops aix_place []); reflexivity|]. intros H. apply (configure_stops example_place []) in H. discriminate. Qed.
Lemma format_overlooked :
  ~ (forall p default_format env argv args es r, says argv es -> ~ In "--" argv -> (forall d f, full (resolve p d f)) -> full (config_gypi p) ->
       configure_arguments p argv = Some args -> gyp default_format env args = Some r -> values Format es <> [] -> run_formats r = values Format es).
Proof.
  intros H. assert (X : ["ninja"; "make"] = ["ninja"]); [|discriminate].
  refine (H example_place "make" no_environment ["--format=ninja"] _ [Given Format "ninja"] _ _ _ (proj1 example_full) (proj2 example_full) eq_refl eq_refl _).
  - apply parse_iff. reflexivity.
  - intros [E|[]]. discriminate.
  - discriminate.
Qed.
Lemma dashes_hide :
  ~ (forall p default_format env argv args r, (forall d f, full (resolve p d f)) -> full (config_gypi p) ->
       configure_arguments p argv = Some args -> gyp default_format env args = Some r -> assoc "node_root_dir" (run_defines r) <> None).
Proof. intros H. refine (H example_place "make" no_environment ["--"] _ _ (proj1 example_full) (proj2 example_full) eq_refl eq_refl _). reflexivity. Qed.
