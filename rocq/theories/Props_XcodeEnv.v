(** C95: the variables of Xcode on macOS. *)
From Coq Require Import Relations Lia.
From Verif Require Import Lib Str Model_XcodeEnv Spec_XcodeEnv Proof_XcodeEnv Proof_XcodeEnv2.
Local Open Scope string_scope.

(** C95.  A reference in any of its three forms, ${X}, $(X) and $X, becomes ${X}, and all
    else stays. *)
Theorem C95_normal : forall ps, fine ps -> normalize (text ps) = text (map normal ps).
Proof. exact normalize_text. Qed.
Print Assumptions C95_normal.
Definition sample : list piece := [Text "-L"; Parens "BUILT_PRODUCTS_DIR"; Text "/lib"; Bare "PRODUCT_NAME"; Text ".dylib "; Braces "X-1"].
Ltac chars := intros c I; cbn in I; repeat (destruct I as [<-|I]; [cbn; tauto|]); destruct I.
Ltac a_name := split; [discriminate|chars].
Ltac an_identifier := eexists _, _; split; [reflexivity|split; [cbn; tauto|chars]].
Ltac fine_all := repeat (apply Forall_cons; [cbn [fine_piece]; first [reflexivity|a_name|an_identifier]|]); apply Forall_nil.
Lemma ends_step p ps : match p with Bare _ => match text ps with String c _ => ~ In c (list_ascii_of_string name_chars) | "" => True end | _ => True end -> ends_names ps -> ends_names (p :: ps).
Proof. intros H E [|q a] n b X; injection X as -> ->; [exact H|exact (E a n b eq_refl)]. Qed.
Lemma ends_nil : ends_names [].
Proof. intros a n b X. destruct a; discriminate X. Qed.
Ltac ends_all := repeat (apply ends_step; [first [exact I|let H := fresh in intros H; cbn in H; repeat (destruct H as [H|H]; [discriminate H|]); exact H]|]); apply ends_nil.
Example C95_normal_witness : fine sample /\ normalize "-L$(BUILT_PRODUCTS_DIR)/lib$PRODUCT_NAME.dylib ${X-1}" = "-L${BUILT_PRODUCTS_DIR}/lib${PRODUCT_NAME}.dylib ${X-1}".
Proof.
  split; [|vm_compute; reflexivity]. split.
  - fine_all.
  - ends_all.
Qed.
(** C95.  Of the variables, those that are always set and the target's settings, a list is
    made in which every variable has its own text and stands behind all that its text
    refers to; there is one exactly if no variable refers to itself, directly or
    indirectly, and else an error. *)
Theorem C95_order : forall in_order, (forall l x, In x (in_order l) <-> In x l) -> forall own given, fine_defs own given ->
  (~ (exists x, clos_trans string (depends own given) x x) /\ exists l, sorted_env in_order (raw_own own) (raw_given given) = Some l /\ NoDup (map fst l) /\
     (forall k v, In (k, v) l <-> exists ps, defined own given k = Some ps /\ v = text (map normal ps)) /\ (forall x y, depends own given x y -> before y x (map fst l))) \/
  ((exists x, clos_trans string (depends own given) x x) /\ sorted_env in_order (raw_own own) (raw_given given) = None).
Proof. exact order_spec. Qed.
Print Assumptions C95_order.
(** C95.  With this list, every text in which variables are written ${X} or $(X) becomes
    what it stands for, through any number of definitions; variables that are not
    defined are left. *)
Theorem C95_expand : forall in_order, (forall l x, In x (in_order l) <-> In x l) -> forall own given, fine_defs own given ->
  forall l ps, sorted_env in_order (raw_own own) (raw_given given) = Some l -> Forall fine_piece ps -> in_brackets ps ->
  means (defined own given) ps (expand (text ps) l) /\ forall s, means (defined own given) ps s -> s = expand (text ps) l.
Proof. exact expand_spec. Qed.
Print Assumptions C95_expand.
Definition own_1 : list (string * told) :=
  [("OTHER_FLAGS", A_list [[Text "-L"; Parens "LIB_DIR"]; [Text "-l"; Bare "PRODUCT_NAME"]]); ("LIB_DIR", A_text [Braces "SRCROOT"; Text "/lib"]); ("SRCROOT", A_text [Text "/elsewhere"])].
Definition given_1 : list (string * list piece) := [("PRODUCT_NAME", [Text "a"]); ("SRCROOT", [Text "/src"]); ("SOURCE_ROOT", [Braces "SRCROOT"]); ("TEMP_DIR", [Braces "TMPDIR"])].
Lemma no_bare ps : in_brackets ps -> ends_names ps.
Proof. intros B a n b ->. destruct (B n). apply in_or_app. right. left. reflexivity. Qed.
Ltac bare_free := intros n I; cbn in I; repeat (destruct I as [I|I]; [discriminate I|]); exact I.
Example C95_witness : fine_defs own_1 given_1 /\ Forall fine_piece [Parens "SOURCE_ROOT"; Text " "; Braces "OTHER_FLAGS"; Braces "TEMP_DIR"] /\
  exists l, sorted_env (fun l => l) (raw_own own_1) (raw_given given_1) = Some l /\ expand "$(SOURCE_ROOT) ${OTHER_FLAGS}${TEMP_DIR}" l = "/src -L/src/lib -la${TMPDIR}" /\
  sorted_env (fun l => l) (raw_own (("TMPDIR", A_text [Bare "TEMP_DIR"]) :: own_1)) (raw_given given_1) = None.
Proof.
  split; [|split].
  - split; [|split; [|split]].
    + repeat constructor; cbn; intros H; repeat (destruct H as [H|H]; [discriminate H|]); exact H.
    + repeat constructor; cbn; intros H; repeat (destruct H as [H|H]; [discriminate H|]); exact H.
    + intros k t I. cbn [own_1 In] in I. destruct I as [E|[E|[E|[]]]]; injection E as <- <-; (split; [a_name|]).
      * split; [fine_all|]. cbn [pieces spaced app].
        ends_all.
      * split; [fine_all|]. apply no_bare. bare_free.
      * split; [fine_all|]. apply no_bare. bare_free.
    + intros k ps I. cbn [given_1 In] in I. destruct I as [E|[E|[E|[E|[]]]]]; injection E as <- <-; (split; [a_name|]); (split; [fine_all|apply no_bare; bare_free]).
  - fine_all.
  - eexists. split; [vm_compute; reflexivity|]. split; vm_compute; reflexivity.
Qed.

(** ExpandEnvVars replaces $X wherever it stands (xcode_emulation.py:1848), also where
    the name goes on: with CONFIGURATION set, $CONFIGURATION_BUILD_DIR, which is another
    variable, becomes Release_BUILD_DIR.  The doc string promises to expand
    $VARIABLES. *)
Theorem C95_bare_refuted : (forall k v rest, name k -> has_char "$" v = false -> has_char "$" rest = false -> expand ("$" ++ k ++ rest) [(k, v)] = v ++ rest) /\
  expand "$CONFIGURATION_BUILD_DIR/x" [("CONFIGURATION", "Release"); ("CONFIGURATION_BUILD_DIR", "/out")] = "/out/x" /\
  expand "$CONFIGURATION_BUILD_DIR/x" [("CONFIGURATION_BUILD_DIR", "/out"); ("CONFIGURATION", "Release")] = "Release_BUILD_DIR/x".
Proof. split; [exact bare_prefix|split; vm_compute; reflexivity]. Qed.
Print Assumptions C95_bare_refuted.
