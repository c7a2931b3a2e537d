(** C61-C63: how a configuration is handed on. *)
From Coq Require Import ZArith.
From Verif Require Import Lib Str Spec_Cli Spec_Text Model_Json Model_Gypi Spec_Gypi Proof_Json Proof_Gypi Proof_Gypi2 Proof_Gypi3.
Local Open Scope string_scope.

(** C61: the build step reads from build/config.gypi the configuration that
    configure has written, true and false as strings. *)
Theorem C61_build : forall v, unique v -> exists v', load_config (config_file v) = Some v' /\ stands_for v v'.
Proof. exact build_reads. Qed.
Print Assumptions C61_build.

(** and gyp, which reads it as Python, reads the same. *)
Theorem C61_gyp : forall v, unique v -> ~ within JNull v -> exists v', py_eval (config_file v) = Some v' /\ stands_for v v'.
Proof. exact gyp_reads. Qed.
Print Assumptions C61_gyp.

Definition sample : json := JObj [("variables", JObj [("it's", JStr "a ""b"" \ # {"); ("on", JBool true)]); ("libs", JArr [JNum (-3); JArr []; JObj []; JStr ""])].
Example C61_witness : unique sample /\ ~ within JNull sample /\ (exists v', stands_for sample v' /\ load_config (config_file sample) = Some v' /\ v' <> sample).
Proof.
  split; [|split].
  - unfold sample. constructor; [cbn; constructor; [cbn; intuition discriminate|constructor; [intros []|constructor]]|]. constructor; [|constructor; [|constructor]]; cbn [snd].
    + constructor; [cbn; constructor; [cbn; intuition discriminate|constructor; [intros []|constructor]]|repeat constructor].
    + repeat constructor.
  - unfold sample. apply no_null_obj. repeat (apply Forall_cons || apply Forall_nil); cbn [snd].
    + apply no_null_obj. repeat (apply Forall_cons || apply Forall_nil); cbn [snd]; intros H; inversion H.
    + intros H. inversion H as [|y l I H'|]; subst. repeat (destruct I as [<-|I]; [inversion H' as [|? ? I' |? ? ? I']; destruct I'|]). destruct I.
  - exists (bools_to_string sample). split; [apply bools_stand|]. split; [vm_compute; reflexivity|discriminate].
Qed.

(** Not so with a null, which is written as a word that Python does not know. *)
Theorem C61_null_refuted : ~ forall v, unique v -> exists v', py_eval (config_file v) = Some v'.
Proof. intros H. destruct null_fails as (v & U & E & _). destruct (H v U) as (v' & E'). congruence. Qed.
Print Assumptions C61_null_refuted.

(** C62: of a header config.gypi in the plain style, node-gyp reads what Python
    reads. *)
Theorem C62_same : forall v text, unique v -> writes_file v text -> parse_config_gypi text = Some v /\ py_eval text = Some v.
Proof. intros v text U W. split; [apply parse_plain|apply python_plain]; assumption. Qed.
Print Assumptions C62_same.

Example C62_witness : exists v text, unique v /\ writes_file v text /\ text = "# Do not" ++ newline ++ "{'a': 'b c'" ++ newline ++ "   'd', # 'x'" ++ newline ++ "'n': [ -12 , 0]}" /\ v = JObj [("a", JStr "b cd"); ("n", JArr [JNum (-12); JNum 0])].
Proof.
  eexists. eexists. split; [|split; [|split; reflexivity]].
  - constructor; [cbn; constructor; [cbn; intuition discriminate|constructor; [intros []|constructor]]|repeat constructor].
  - assert (P : forall p, (forall a, has_char a p = true -> In a ["a"; "b"; " "; "c"; "d"; "n"]%char) -> plain p).
    { intros p H a Ha. specialize (H a Ha). repeat (destruct H as [<-|H]; [split; [discriminate|cbn; intuition discriminate]|]). destruct H. }
    assert (Q : forall p l, (forall a, has_char a p = true -> In a l) -> forall c, In c l -> forall a, has_char a (String c p) = true -> In a l).
    { intros p l H c I a Ha. rewrite has_cons in Ha. apply Bool.orb_true_iff in Ha. destruct Ha as [Ha|Ha]; [apply Ascii.eqb_eq in Ha; subst; exact I|apply H, Ha]. }
    assert (B : forall l a, has_char a "" = true -> In a l) by discriminate.
    assert (G1 : gap " ") by (apply (gap_space " " ""); [cbn; auto|constructor]).
    exists ("# Do not" ++ newline), ("{" ++ ("" ++ "'a'" ++ "" ++ ":" ++ " " ++ ("'" ++ "b c" ++ "'" ++ newline ++ "   " ++ "'d'") ++ "" ++ "," ++ (" # 'x'" ++ newline ++ "") ++ "'n'" ++ "" ++ ":" ++ " " ++ ("[" ++ (" " ++ rendering (-12) ++ " " ++ "," ++ (" " ++ rendering 0 ++ "")) ++ "]") ++ "") ++ "}"), "".
    split; [apply (gap_comment " Do not" ""); [reflexivity|reflexivity|constructor]|]. split; [constructor|]. split; [|vm_compute; reflexivity].
    apply wr_obj. apply we_more; [constructor|constructor|exact G1|constructor|apply (ws_one "a"); apply P; repeat (apply Q; [|cbn; auto 8]); apply B| |].
    + apply wr_str. apply (ws_more "b c" "   " "d" "'d'"); [apply P; repeat (apply Q; [|cbn; auto 8]); apply B| |apply (ws_one "d"); apply P; repeat (apply Q; [|cbn; auto 8]); apply B].
      intros a Ha. left. revert a Ha. assert (X : forall a, has_char a "   " = true -> In a [" "%char]) by (repeat (apply Q; [|cbn; auto]); apply B). intros a Ha. destruct (X a Ha) as [<-|[]]. reflexivity.
    + apply (we_last "n" _ "'n'" _ (" # 'x'" ++ newline ++ "") "" " " ""); [apply (gap_space " "); [cbn; auto|]; apply (gap_comment " 'x'" ""); [reflexivity|reflexivity|constructor]|constructor|exact G1|constructor|apply (ws_one "n"); apply P; repeat (apply Q; [|cbn; auto 8]); apply B|].
      apply wr_arr. apply wi_more; [exact G1|exact G1|apply wr_num|]. apply wi_last; [exact G1|constructor|apply wr_num].
Qed.

(** Texts that Python reads and node-gyp cannot, or reads differently. *)
Theorem C62_apostrophe_refuted : ~ forall text v, py_eval text = Some v -> exists v', parse_config_gypi text = Some v'.
Proof. intros H. destruct apostrophe_fails as (text & v & P & N). destruct (H text v P). congruence. Qed.
Print Assumptions C62_apostrophe_refuted.
Theorem C62_hash_refuted : ~ forall text v v', py_eval text = Some v -> parse_config_gypi text = Some v' -> v = v'.
Proof. intros H. destruct hash_differs as (text & v & v' & P & Q & N). apply N. eapply H; eassumption. Qed.
Print Assumptions C62_hash_refuted.

(** C63: an option has the value of the last npm_config_ variable for it, or
    the one from the command line. *)
Theorem C63_options : forall command_line env o,
  (forall e, last_with (fun e => env_sets (fst e) o) env e -> assoc o (options_of command_line env) = Some (JStr (snd e))) /\
  ((forall e, In e env -> ~ env_sets (fst e) o) -> assoc o (options_of command_line env) = assoc o command_line).
Proof. exact environment. Qed.
Print Assumptions C63_options.

(** The variables for gyp are the options that are not node-gyp's own, the ones
    node-gyp sets, and those of the configuration it starts from. *)
Theorem C63_variables : forall sur opts node_dir python vs base k x,
  NoDup (map fst opts) -> Forall (fun e => unique (snd e)) opts -> source sur opts node_dir base -> unique base ->
  let sets e := user_option (fst e) /\ turned "-" "_" (fst e) k in
  holds (JObj (current_config sur opts node_dir python vs)) ["variables"; k] x <->
  (exists o, last_with sets opts (o, x)) \/
  (forall e, In e opts -> ~ sets e) /\
  (set_variable sur opts node_dir python vs base k x \/ (forall y, ~ set_variable sur opts node_dir python vs base k y) /\ holds base ["variables"; k] x).
Proof.
  intros sur opts nd py vs b k x N F S U. assert (SB := source_base _ _ _ _ N S). cbv zeta. rewrite (current_is sur opts nd py vs b SB), config_vars by assumption. apply variables_iff; assumption.
Qed.
Print Assumptions C63_variables.

(** The same for the defaults of targets. *)
Theorem C63_defaults : forall sur opts node_dir python vs base k x,
  NoDup (map fst opts) -> Forall (fun e => unique (snd e)) opts -> source sur opts node_dir base -> unique base ->
  holds (JObj (current_config sur opts node_dir python vs)) ["target_defaults"; k] x <->
  set_default sur opts vs base k x \/ (forall y, ~ set_default sur opts vs base k y) /\ holds base ["target_defaults"; k] x.
Proof.
  intros sur opts nd py vs b k x N F S U. assert (SB := source_base _ _ _ _ N S). rewrite (current_is sur opts nd py vs b SB), config_defs' by assumption. eapply defaults_iff; eassumption.
Qed.
Print Assumptions C63_defaults.

(** Everything else is as in the configuration it starts from. *)
Theorem C63_rest : forall sur opts node_dir python vs base k x,
  NoDup (map fst opts) -> Forall (fun e => unique (snd e)) opts -> source sur opts node_dir base -> unique base -> k <> "variables" -> k <> "target_defaults" ->
  holds (JObj (current_config sur opts node_dir python vs)) [k] x <-> holds base [k] x.
Proof.
  intros sur opts nd py vs b k x N F S U N1 N2. assert (SB := source_base _ _ _ _ N S). rewrite (current_is sur opts nd py vs b SB). apply config_rest; assumption.
Qed.
Print Assumptions C63_rest.

(** What an npm_config_ variable says reaches gyp, through the file. *)
Theorem C63_environment : forall sur command_line env node_dir python vs base k n val,
  NoDup (map fst command_line) -> Forall (fun e => unique (snd e) /\ ~ within JNull (snd e)) command_line ->
  source sur (options_of command_line env) node_dir base -> unique base -> ~ within JNull base ->
  (forall o, turned "_" "-" k o -> user_option o) ->
  (forall e, In e command_line -> turned "-" "_" (fst e) k -> turned "_" "-" k (fst e)) ->
  last_with (fun e => exists x, fst e = "npm_config_" ++ x /\ x <> "" /\ turned "-" "_" x k) env (n, val) ->
  exists v, py_eval (config_file (JObj (current_config sur (options_of command_line env) node_dir python vs))) = Some v /\ holds v ["variables"; k] (JStr val).
Proof. exact environment_reaches. Qed.
Print Assumptions C63_environment.

Example C63_witness : exists command_line env base k n val,
  NoDup (map fst command_line) /\ Forall (fun e => unique (snd e) /\ ~ within JNull (snd e)) command_line /\
  source linux (options_of command_line env) "" base /\ unique base /\ ~ within JNull base /\
  (forall o, turned "_" "-" k o -> user_option o) /\
  (forall e, In e command_line -> turned "-" "_" (fst e) k -> turned "_" "-" k (fst e)) /\
  last_with (fun e => exists x, fst e = "npm_config_" ++ x /\ x <> "" /\ turned "-" "_" x k) env (n, val) /\ k = "with_x" /\ val = "2" /\ length env = 3.
Proof.
  exists [("with-x", JBool true); ("jobs", JStr "max")], [("npm_config_with_x", "1"); ("npm_config_with-x", "2"); ("HOME", "/")], (process_config linux), "with_x", "npm_config_with-x", "2".
  split; [cbn; constructor; [cbn; intuition discriminate|constructor; [intros []|constructor]]|]. split; [repeat constructor; intros H; inversion H|]. split; [apply so_none; reflexivity|].
  split; [cbn; constructor; [cbn; constructor; [intros []|constructor]|]; constructor; [|constructor]; cbn [snd]; constructor; [cbn; constructor; [intros []|constructor]|repeat constructor]|].
  split; [cbn; repeat (apply no_null_obj; constructor; [cbn [snd]|constructor]); intros H; inversion H|].
  split; [intros o T; apply turned_iff in T; subst o; vm_compute; intuition discriminate|].
  split; [intros e I T; apply turned_iff; apply turned_iff in T; repeat (destruct I as [<-|I]; [first [reflexivity|discriminate T]|]); destruct I|].
  split; [|auto]. exists [("npm_config_with_x", "1")], [("HOME", "/")]. split; [reflexivity|]. split; [exists "with-x"; split; [reflexivity|]; split; [discriminate|apply turned_iff; reflexivity]|]. constructor; [|constructor]. intros (x & E & _). discriminate.
Qed.

(** npm_config_debug=false asks for a debug build. *)
Theorem C63_debug_refuted : ~ forall sur env node_dir python vs, In ("npm_config_debug", "false") env ->
  ~ holds (JObj (current_config sur (options_of [] env) node_dir python vs)) ["target_defaults"; "default_configuration"] (JStr "Debug").
Proof. intros H. apply (H linux [("npm_config_debug", "false")] "" "python3" vs2017); [left; reflexivity|exact debug_false]. Qed.
Print Assumptions C63_debug_refuted.
(** A variable is lost when the command line has both spellings of the option. *)
Theorem C63_spelling_refuted : ~ forall sur command_line env node_dir python vs val, env = [("npm_config_a_b", val)] ->
  forall x, holds (JObj (current_config sur (options_of command_line env) node_dir python vs)) ["variables"; "a_b"] x -> x = JStr val.
Proof. intros H. specialize (H linux [("a-b", JStr "1"); ("a_b", JStr "2")] _ "" "python3" vs2017 "3" eq_refl _ underscore_wins). discriminate. Qed.
Print Assumptions C63_spelling_refuted.
(** and when its name is one that every object has. *)
Theorem C63_inherited_refuted : ~ forall sur env node_dir python vs val, env = [("npm_config_constructor", val)] ->
  exists x, holds (JObj (current_config sur (options_of [] env) node_dir python vs)) ["variables"; "constructor"] x.
Proof. intros H. destruct (H linux _ "" "python3" vs2017 "1" eq_refl) as (x & X). exact (inherited_dropped x X). Qed.
Print Assumptions C63_inherited_refuted.
(** Assembly for ARM64 is switched on for Visual Studio before 15.9 too. *)
Theorem C63_marmasm_refuted : ~ forall sur opts node_dir python vs,
  holds (JObj (current_config sur opts node_dir python vs)) ["target_defaults"; "msvs_enable_marmasm"] (JNum 1) ->
  (15 < version_major vs \/ version_major vs = 15 /\ 9 <= version_minor vs)%Z.
Proof. intros H. specialize (H windows [] "" "python3" vs2017 marmasm_old). cbn in H. lia. Qed.
Print Assumptions C63_marmasm_refuted.
