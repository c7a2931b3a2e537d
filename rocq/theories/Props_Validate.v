(** Property C100. *)
From Verif Require Import Lib Str Model_Value Model_Validate Spec_Validate Proof_Validate.
Local Open Scope string_scope.

(** C100: of a target whose values have the right types, a valid one passes and
    each rule gets the sources it applies to; an invalid one is refused with a
    message that names it. *)
Theorem C100_verdict : forall show build_file extra target d, shaped extra d ->
  (valid d -> exists d', validate_target show build_file extra target d = Val d' /\ completed extra d d') /\
  (~ valid d -> exists m n, validate_target show build_file extra target d = Exn (GypError m) /\ In n [target; show_at show "target_name" d] /\ mentions m n).
Proof.
  intros show build_file extra target d S. destruct (target_verdict show build_file extra target d S) as [(O & d' & R & C)|(O & m & n & R & I & M)]; split; intros V; try contradiction; [exists d'; auto|exists m, n; auto].
Qed.
Print Assumptions C100_verdict.

(** C100: no source is given to two rules. *)
Theorem C100_one_rule : forall extra d rs rs' sources, shaped extra d -> valid d -> dicts_at "rules" d rs -> Forall2 (with_sources sources) rs rs' ->
  forall i j r1 r2 l1 l2 s, nth_error rs' i = Some r1 -> nth_error rs' j = Some r2 ->
  assoc "rule_sources" r1 = Some (VList l1) -> assoc "rule_sources" r2 = Some (VList l2) -> In (VStr s) l1 -> In (VStr s) l2 -> i = j.
Proof.
  intros extra d rs rs' sources ((rs0 & ns & es & R0 & N & E) & _) (_ & V & _) R W. rewrite (dicts_fun _ _ _ _ R0 R) in *. exact (one_rule d rs ns es rs' sources V R N E W).
Qed.
Print Assumptions C100_one_rule.

(** C100: of all targets, in order, either every one is valid and passes, or the
    first that is not valid is refused. *)
Theorem C100_all : forall show build_file extra targets, Forall (fun e => shaped extra (snd e)) targets ->
  (Forall (fun e => valid (snd e)) targets /\ exists out, validate show build_file extra targets = Val out /\ Forall2 (fun e e' => fst e' = fst e /\ completed extra (snd e) (snd e')) targets out) \/
  (exists before t d after m n, targets = (before ++ (t, d) :: after)%list /\ Forall (fun e => valid (snd e)) before /\ ~ valid d /\
    validate show build_file extra targets = Exn (GypError m) /\ In n [t; show_at show "target_name" d] /\ mentions m n).
Proof. exact all_verdict. Qed.
Print Assumptions C100_all.

(** Not so for a rule without a name: the program stops with a KeyError and no
    word about the target (input.py:2736), although an action without a name is
    told (input.py:2825-2829). *)
Theorem C100_nameless_rule_refuted : ~ (forall show build_file extra target d rs, dicts_at "rules" d rs ->
  (exists d', validate_target show build_file extra target d = Val d') \/ (exists m, validate_target show build_file extra target d = Exn (GypError m))).
Proof.
  intros H. destruct (H (fun _ => "") (fun s => s) [] "a.gyp:a#target" [("type", VStr "none"); ("rules", VList [VDict [("extension", VStr "x")]])] [[("extension", VStr "x")]] (or_intror eq_refl)) as [(d' & E)|(m & E)]; vm_compute in E; discriminate.
Qed.
Print Assumptions C100_nameless_rule_refuted.

(** Two actions of one target may have the same name (input.py:2819-2835 look at
    each action by itself), although two rules may not. *)
Theorem C100_action_names_refuted : ~ (forall show build_file extra target d d' l, dicts_at "actions" d l ->
  validate_target show build_file extra target d = Val d' -> NoDup (map (assoc "action_name") l)).
Proof.
  intros H. set (a := [("action_name", VStr "gen"); ("inputs", VList []); ("action", VList [VStr "touch"; VStr "x"])]).
  assert (N := H (fun _ => "") (fun s => s) [] "a.gyp:a#target" [("type", VStr "none"); ("actions", VList [VDict a; VDict a])] _ [a; a] (or_intror eq_refl) eq_refl).
  cbn in N. apply NoDup_cons_iff in N. apply (proj1 N). left. reflexivity.
Qed.
Print Assumptions C100_action_names_refuted.

(** A valid target with two rules, and two that are refused. *)
Definition example_target : dict :=
  [("target_name", VStr "lib"); ("type", VStr "static_library"); ("standalone_static_library", VInt 1); ("sources", VList [VStr "a.y"; VStr "d.x/b"; VStr "sub/c.y"; VStr ".y"; VStr "l.tar.l"]);
   ("rules", VList [VDict [("rule_name", VStr "yacc"); ("extension", VStr ".y")]; VDict [("rule_name", VStr "lex"); ("extension", VStr "l")]; VDict [("rule_name", VStr "none"); ("extension", VStr "z")]]);
   ("actions", VList [VDict [("action_name", VStr "gen"); ("inputs", VList []); ("action", VList [VStr "touch"])]])].
Example C100_witness : shaped [] example_target /\ valid example_target /\
  (exists d', validate_target (fun _ => "?") (fun s => s) [] "x.gyp:lib#target" example_target = Val d' /\
    assoc "rules" d' = Some (VList [VDict [("rule_name", VStr "yacc"); ("extension", VStr ".y"); ("rule_sources", VList [VStr "a.y"; VStr "sub/c.y"])];
      VDict [("rule_name", VStr "lex"); ("extension", VStr "l"); ("rule_sources", VList [VStr "l.tar.l"])]; VDict [("rule_name", VStr "none"); ("extension", VStr "z")]])) /\
  validate_target (fun _ => "?") (fun s => s) [] "x.gyp:lib#target" [("type", VStr "libary")] = Exn (GypError "Target x.gyp:lib#target has an invalid target type '?'.  Must be one of executable/loadable_module/static_library/shared_library/mac_kernel_extension/none/windows_driver.") /\
  validate_target (fun _ => "?") (fun s => s) [] "x.gyp:lib#target" [("type", VStr "none"); ("rules", VList [VDict [("rule_name", VStr "a"); ("extension", VStr "y")]; VDict [("rule_name", VStr "b"); ("extension", VStr ".y")]])]
    = Exn (GypError "extension y associated with multiple rules, target x.gyp:lib#target rules ? and ?").
Proof.
  assert (S : shaped [] example_target).
  { split; [|split].
    - eexists [_; _; _], [VStr "yacc"; VStr "lex"; VStr "none"], ["y"; "l"; "z"]. split; [right; reflexivity|]. split.
      + repeat apply Forall2_cons; try apply Forall2_nil; (split; [reflexivity|left; eexists; reflexivity]).
      + apply Forall2_cons; [left; reflexivity|]. repeat apply Forall2_cons; try apply Forall2_nil; right; (split; [reflexivity|discriminate]).
    - intros k [<-|[]]. exists ["a.y"; "d.x/b"; "sub/c.y"; ".y"; "l.tar.l"]. right. reflexivity.
    - eexists [_]. split; [right; reflexivity|]. constructor; [|constructor]. intros v E. vm_compute in E. injection E as <-. right. eexists. reflexivity. }
  split; [exact S|]. split.
  - destruct (target_verdict (fun _ => "?") (fun s => s) [] "x.gyp:lib#target" example_target S) as [(V & _)|(_ & m & n & R & _)]; [exact V|vm_compute in R; discriminate].
  - split; [eexists; split; vm_compute; reflexivity|]. split; vm_compute; reflexivity.
Qed.
