(** Consequences, and where the expansion is not what one would expect. *)
From Coq Require Import ZArith DecimalString.
From Verif Require Import Lib LibFacts Str StrFacts Model_Value Model_Text Spec_Text Proof_Text Model_Quote Model_Cond Model_Expand Spec_Expand Proof_Expand Proof_Expand2 Proof_Expand3.
Local Open Scope string_scope.

Lemma phase_char_ok : forall ph, phase_symbol (phase_char ph).
Proof. intros [| |]; unfold phase_symbol; cbn; auto. Qed.
Lemma as_value_inj : forall s s', as_value s = as_value s' -> s = s'.
Proof. intros s s' H. rewrite <- (py_str_as_value (fun _ => "") s), <- (py_str_as_value (fun _ => "") s'), H. reflexivity. Qed.
Lemma values_of : forall ss, Forall2 value_of ss (map as_value ss).
Proof. induction ss as [|s ss IH]; constructor; [apply as_value_spec|exact IH]. Qed.

Lemma trim_id : forall s, match s with String a _ => is_space a | _ => false end = false -> match last_char s with Some a => is_space a | _ => false end = false -> trimmed s s.
Proof.
  intros s H1 H2. exists "", "". split; [cbn; symmetry; apply append_nil_r|]. split; [intros a [H|H]; discriminate|]. split.
  - intros a u -> HW. apply is_space_iff in HW. congruence.
  - intros a u -> HW. rewrite last_char_app in H2. apply is_space_iff in HW. congruence.
Qed.
Theorem unambiguous : forall ph vars command i t t' s s' n n', evals (phase_char ph) vars command i t s n -> evals (phase_char ph) vars command i t' s' n' -> render (phase_char ph) t = render (phase_char ph) t' -> s = s'.
Proof.
  intros ph vars command i t t' s s' n n' H H' E. apply as_value_inj.
  pose proof (expand_evals (phase_char ph) (phase_char_ok ph) command (fun _ => Val "") (fun d => Val d) (fun _ => "") (fun _ => Val []) (fun _ _ => Val true) (Model_Merge.mk_ctx (fun x => x) [] "" "") ph vars n i t s H (S (n + n')) ltac:(lia)) as A.
  pose proof (expand_evals (phase_char ph) (phase_char_ok ph) command (fun _ => Val "") (fun d => Val d) (fun _ => "") (fun _ => Val []) (fun _ _ => Val true) (Model_Merge.mk_ctx (fun x => x) [] "" "") ph vars n' i t' s' H' (S (n + n')) ltac:(lia)) as B.
  rewrite E in A. congruence.
Qed.

Section Findings.
Variable command : option string -> bool -> string -> result string.
Variable list_file : list string -> result string.
Variable filters : dict -> result dict.
Variable repr : value -> string.
Variable shlex : string -> result (list string).
Variable eval : dict -> value -> result bool.
Variable c : Model_Merge.ctx.
Notation E := (expand "<" command list_file filters repr shlex eval c Early).

Lemma numeric_name : forall f, E (S (S f)) [("1", VStr "one")] (VStr "<(1)") = Exn AttributeError.
Proof. intros f. reflexivity. Qed.
Lemma bracket_name : forall f, E (S (S f)) [("x[", VStr "v")] (VStr "<(x[)") = Exn (GypError "Undefined variable <(x").
Proof. intros f. reflexivity. Qed.
Lemma context_list : forall f x, E (S (S (S f))) [("a", VList [VStr "p"]); ("b", VStr "")] (VStr "<@(a)<(b)") = Val x -> x = VList [VStr "p"].
Proof. intros f x H. cbn in H. injection H as <-. reflexivity. Qed.

(** a variable that refers to itself *)
Lemma marks_lits : forall p b pos ms, marks "<" b pos (lits p) ms -> ms = [].
Proof. induction p as [|a p IH]; intros b pos ms H; inversion H; subst; [reflexivity|]. eapply IH. eassumption. Qed.
Lemma marks_lits_app : forall p u pos ms, marks "<" true pos (tapp (lits p) u) ms -> marks "<" true (pos + String.length p) u ms.
Proof. induction p as [|a p IH]; intros u pos ms H; cbn [lits tapp] in H; [cbn; rewrite Nat.add_0_r; exact H|]. inversion H; subst. cbn [String.length]. replace (pos + S (String.length p)) with (S pos + String.length p) by lia. apply IH. assumption. Qed.
Lemma self : forall f p, has_char "<" p = false -> E f [("x", VStr "a<(x)")] (VStr (p ++ "<(x)")) = Exn NoFuel.
Proof.
  induction f as [|f IH]; intros p HP; [reflexivity|].
  set (t := tapp (lits p) (Ref false (Lit "x" Stop) Stop)).
  assert (R : render "<" t = p ++ "<(x)") by (unfold t; rewrite render_app, render_lits; reflexivity).
  assert (Wx : well_formed "<" true (Lit "x" Stop)). { repeat constructor; try discriminate. unfold bracket. cbn. intuition discriminate. }
  assert (W : well_formed "<" false t). { apply wf_app; [|repeat constructor; try discriminate; unfold bracket; cbn; intuition discriminate]. clear - HP. induction p as [|a p IHp]; [constructor|]. cbn [has_char] in HP. destruct (Ascii.eqb_spec a "<"); [discriminate|]. constructor; [split; [assumption|discriminate]|apply IHp, HP]. }
  destruct (find_all "<" (or_introl eq_refl) false t W) as (ms & M & F). rewrite R in F. apply marks_lits_app in M. cbn [Nat.add] in M. assert (HM : exists arr, ms = [reference false arr (String.length p)]).
  { clear F. inversion M as [| | |? ? ? ? arr ms1 ms2 HA M1 M2|]; subst. inversion M1 as [|? ? ? ? ? M1'| | |]; subst. inversion M1'; subst. inversion M2; subst. exists arr. reflexivity. }
  destruct HM as (arr & ->).
  assert (HS : has_char "<" (p ++ "<(x)") = true) by (rewrite has_char_app; apply orb_true_r).
  rewrite expand_unfold; [|destruct (is_str_canonical_int _) eqn:X; [apply (canonical_no_symbol "<" (or_introl eq_refl)) in X; congruence|reflexivity]|exact HS|rewrite F; discriminate].
  rewrite F. cbn [rev app]. destruct f as [|f].
  - change (p ++ "<(x)") with (p ++ String "<" (mark false ++ render "<" (Lit "x" Stop) ++ String ")" "")). erewrite ra_fails; [reflexivity|exact (or_introl eq_refl)|exact Wx|reflexivity].
  - change (p ++ "<(x)") with (p ++ String "<" (mark false ++ render "<" (Lit "x" Stop) ++ String ")" "")) at 1. erewrite ra_ref; [|exact (or_introl eq_refl)|exact Wx|reflexivity]. cbn [text_for py_str append replace_all rbind].
    replace (p ++ "a<(x)") with ((p ++ "a") ++ "<(x)") by (apps; reflexivity). destruct (String.eqb_spec ((p ++ "a") ++ "<(x)") (p ++ "<(x)")) as [EQ|_].
    + exfalso. apply (f_equal String.length) in EQ. rewrite !length_app in EQ. cbn in EQ. lia.
    + rewrite IH; [reflexivity|]. rewrite has_char_app, HP. reflexivity.
Qed.
Lemma self_reference : forall f, E f [("x", VStr "a<(x)")] (VStr "<(x)") = Exn NoFuel.
Proof. intros f. apply (self f ""). reflexivity. Qed.
End Findings.

(** a space before a command *)
Lemma leading_space : exists command list_file filters repr shlex eval c f,
  expand "<" command list_file filters repr shlex eval c Early f [] (VStr "<!(pwd)") = Val (VStr "/src") /\
  expand "<" command list_file filters repr shlex eval c Early f [] (VStr "<!( pwd)") = Exn (GypError "NameError").
Proof.
  exists (fun (_ : option string) (b : bool) (_ : string) => if b then Exn (GypError "NameError") else Val "/src"), (fun _ : list string => Val ""), (fun d : dict => Val d), (fun _ : value => ""), (fun _ : string => Val (@nil string)), (fun (_ : dict) (_ : value) => Val true), (Model_Merge.mk_ctx (fun x => x) [] "" ""), 5. split; reflexivity.
Qed.
(** the same text is a list or a string, depending on an unrelated variable *)
Lemma context : exists command list_file filters repr shlex eval c f,
  expand "<" command list_file filters repr shlex eval c Early f [("a", VList [VStr "p"]); ("b", VStr "")] (VStr "<@(a)<(b)") = Val (VList [VStr "p"]) /\
  expand "<" command list_file filters repr shlex eval c Early f [("a", VList [VStr "p"]); ("b", VStr "q")] (VStr "<@(a)<(b)") = Val (VStr "pq").
Proof.
  exists (fun (_ : option string) (b : bool) (_ : string) => Val ""), (fun _ : list string => Val ""), (fun d : dict => Val d), (fun _ : value => ""), (fun _ : string => Val (@nil string)), (fun (_ : dict) (_ : value) => Val true), (Model_Merge.mk_ctx (fun x => x) [] "" ""), 5. split; reflexivity.
Qed.

Lemma sign_of : phase_char = sign.
Proof. reflexivity. Qed.
Lemma sign_ok : forall ph, phase_symbol (sign ph).
Proof. exact phase_char_ok. Qed.
