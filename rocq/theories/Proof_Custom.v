(** The scripts of custom builds. *)
From Verif Require Import Lib LibFacts Str StrFacts Model_Vcxproj Spec_Vcxproj Spec_Custom Proof_Vcxproj Proof_Vcxproj2 Proof_Vcxproj4.
Local Open Scope string_scope.

(** ** reading the text *)
Lemma unescape_plain : forall a s, has_char "%" a = false -> unescape (a ++ s) = a ++ unescape s.
Proof.
  induction a as [|x a IH]; intros s H; [reflexivity|]. cbn [has_char] in H. destruct (Ascii.eqb x "%") eqn:E; [discriminate|]. cbn [append]. rewrite <- (IH s H). cbn [unescape]. rewrite E. destruct (a ++ s) as [|b [|c r]]; reflexivity.
Qed.
Lemma unescape_check : forall r, r = "" \/ (exists t, r = crlf ++ t) -> unescape (check ++ r) = check ++ unescape r.
Proof. intros r [->|(t & ->)]; reflexivity. Qed.
Lemma feeds_line : forall a s, has_char "010" a = false -> feeds (a ++ String "010" s) = a :: feeds s.
Proof.
  induction a as [|x a IH]; intros s H; cbn [append feeds]; [reflexivity|]. cbn [has_char] in H. destruct (Ascii.eqb x "010"); [discriminate|]. rewrite (IH s H). reflexivity.
Qed.
Lemma feeds_none : forall a, has_char "010" a = false -> feeds a = [a].
Proof. induction a as [|x a IH]; intros H; cbn [feeds]; [reflexivity|]. cbn [has_char] in H. destruct (Ascii.eqb x "010"); [discriminate|]. rewrite (IH H). reflexivity. Qed.
Lemma uncarriage_end : forall a, uncarriage (a ++ String "013" "") = a.
Proof. induction a as [|x a IH]; [reflexivity|]. cbn [append uncarriage]. rewrite IH. destruct (a ++ String "013" "") eqn:E; [destruct a; discriminate|reflexivity]. Qed.
Lemma uncarriage_none : forall a, has_char "013" a = false -> uncarriage a = a.
Proof.
  induction a as [|x a IH]; intros H; [reflexivity|]. cbn [has_char] in H. destruct (Ascii.eqb x "013") eqn:E; [discriminate|]. cbn [uncarriage]. rewrite (IH H), E. destruct a; reflexivity.
Qed.
Lemma lines_crlf : forall a s, has_char "010" a = false -> lines (a ++ crlf ++ s) = a :: lines s.
Proof.
  intros a s H. unfold lines. assert (E : a ++ crlf ++ s = (a ++ String "013" "") ++ String "010" s) by (rewrite append_assoc; reflexivity). rewrite E, feeds_line by (rewrite has_char_app, H; reflexivity). cbn [map]. rewrite uncarriage_end. reflexivity.
Qed.
Lemma concat_cons : forall sep a l, String.concat sep (a :: l) = match l with [] => a | _ => a ++ sep ++ String.concat sep l end.
Proof. intros sep a [|b l]; reflexivity. Qed.
Definition two (j : job) : list string := ["call " ++ job_line j; check].
Lemma script_text : forall j l, script (j :: l) = ("call " ++ job_line j) ++ crlf ++ check ++ match l with [] => "" | _ => crlf ++ script l end.
Proof.
  intros j l. unfold script. cbn [map]. rewrite concat_cons. destruct l as [|k l]; cbn [map]; [rewrite append_nil_r, !append_assoc; reflexivity|]. rewrite !append_assoc. reflexivity.
Qed.
Lemma script_lines : forall l, l <> [] -> Forall (fun j => plain_line (job_line j)) l -> unescape (script l) = script l /\ lines (script l) = flat_map two l.
Proof.
  induction l as [|j l IH]; intros N F; [contradiction|]. inversion F as [|? ? (P1 & P2 & P3) F2]; subst. rewrite script_text. assert (A : has_char "%" ("call " ++ job_line j) = false) by (rewrite has_char_app, P3; reflexivity). assert (B : has_char "010" ("call " ++ job_line j) = false) by (rewrite has_char_app, P1; reflexivity).
  rewrite unescape_plain by exact A. rewrite unescape_plain by reflexivity. rewrite lines_crlf by exact B. cbn [flat_map two app]. destruct l as [|k l].
  - rewrite append_nil_r. split; reflexivity.
  - destruct (IH ltac:(discriminate) F2) as (IH1 & IH2). rewrite unescape_check by (right; eexists; reflexivity). rewrite unescape_plain by reflexivity. rewrite IH1. split; [reflexivity|]. rewrite lines_crlf by reflexivity. rewrite IH2. reflexivity.
Qed.
Lemma after_app : forall w s, after w (w ++ s) = Some s.
Proof. induction w as [|a w IH]; intros s; [reflexivity|]. cbn [append after]. rewrite Ascii.eqb_refl. apply IH. Qed.
Lemma after_Some : forall w s r, after w s = Some r -> s = w ++ r.
Proof. induction w as [|a w IH]; intros s r; cbn [after append]; [intros H; injection H as ->; reflexivity|]. destruct s as [|b s]; [discriminate|]. destruct (Ascii.eqb_spec a b) as [->|]; [|discriminate]. intros H. rewrite (IH _ _ H). reflexivity. Qed.
Lemma commands_script : forall l, Forall (fun j => plain_line (job_line j)) l -> flat_map (fun s => match after "call " s with Some r => [r] | None => [] end) (lines (unescape (script l))) = map job_line l.
Proof.
  intros l F. destruct l as [|j l]; [reflexivity|]. destruct (script_lines (j :: l)) as (A & B); [discriminate|exact F|]. rewrite A, B. clear A B F. generalize (j :: l). clear. intros l. induction l as [|j l IH]; [reflexivity|]. cbn [flat_map two map app]. rewrite after_app. change (after "call " check) with (@None string). cbn [app]. rewrite IH. reflexivity.
Qed.

(** ** running it *)
Lemma strip_call : forall s, strip s <> "" -> strip ("call " ++ s) = "call " ++ rstrip_ws s.
Proof.
  intros s N. unfold strip in *. change (lstrip_ws ("call " ++ s)) with ("call " ++ s). assert (A : forall a b, rstrip_ws b <> "" -> rstrip_ws (a ++ b) = a ++ rstrip_ws b).
  { clear. induction a as [|x a IH]; intros b B; [reflexivity|]. cbn [append rstrip_ws]. rewrite (IH b B). destruct (a ++ rstrip_ws b) eqn:E; [destruct a; cbn in E; [contradiction|discriminate]|reflexivity]. }
  apply A. intros E. apply N. assert (B : forall s, rstrip_ws s = "" -> rstrip_ws (lstrip_ws s) = "").
  { clear. induction s as [|a s IH]; intros E; [reflexivity|]. cbn [lstrip_ws]. destruct (is_space a) eqn:S; [|exact E]. apply IH. cbn [rstrip_ws] in E. destruct (rstrip_ws s); [reflexivity|discriminate]. }
  apply B. exact E.
Qed.
Lemma rstrip_idem : forall s, rstrip_ws (rstrip_ws s) = rstrip_ws s.
Proof.
  induction s as [|a s IH]; [reflexivity|]. cbn [rstrip_ws]. destruct (rstrip_ws s) as [|b r] eqn:E.
  - destruct (is_space a) eqn:S; [reflexivity|]. cbn [rstrip_ws]. rewrite S. reflexivity.
  - change (rstrip_ws (String a (String b r))) with (match rstrip_ws (String b r) with "" => if is_space a then "" else String a "" | t => String a t end). rewrite IH. reflexivity.
Qed.
Lemma strip_rstrip : forall s, strip (rstrip_ws s) = strip s.
Proof.
  unfold strip. induction s as [|a s IH]; [reflexivity|]. cbn [lstrip_ws]. destruct (is_space a) eqn:S.
  - cbn [rstrip_ws]. destruct (rstrip_ws s) as [|b r] eqn:E.
    + rewrite S. cbn. symmetry. rewrite <- IH. reflexivity.
    + cbn [lstrip_ws]. rewrite S. exact IH.
  - change (rstrip_ws (String a s)) with (match rstrip_ws s with "" => if is_space a then "" else String a "" | t => String a t end). destruct (rstrip_ws s) as [|b r] eqn:E.
    + rewrite S. cbn [lstrip_ws]. rewrite S. cbn [rstrip_ws]. rewrite S. reflexivity.
    + cbn [lstrip_ws]. rewrite S. change (rstrip_ws (String a (String b r))) with (match rstrip_ws (String b r) with "" => if is_space a then "" else String a "" | t => String a t end). rewrite <- E, rstrip_idem, E. reflexivity.
Qed.
Lemma strip_length : forall s, String.length (strip s) <= String.length s.
Proof.
  intros s. unfold strip. assert (A : forall s, String.length (rstrip_ws s) <= String.length s).
  { clear. induction s as [|a s IH]; [cbn; lia|]. cbn [rstrip_ws]. destruct (rstrip_ws s); [destruct (is_space a); cbn; lia|cbn in *; lia]. }
  assert (B : forall s, String.length (lstrip_ws s) <= String.length s) by (clear; induction s as [|a s IH]; [cbn; lia|]; cbn [lstrip_ws]; destruct (is_space a); cbn in *; lia). specialize (A (lstrip_ws s)). specialize (B s). lia.
Qed.
Lemma uncall_fuel : forall n m s, String.length s <= n -> String.length s <= m -> uncall n s = uncall m s.
Proof.
  induction n as [|n IH]; intros m s L M.
  - destruct s; [|cbn in L; lia]. destruct m; reflexivity.
  - destruct m as [|m]; [destruct s; [reflexivity|cbn in M; lia]|]. cbn [uncall]. destruct (after "call " s) as [r|] eqn:E; [|reflexivity]. apply after_Some in E. subst s. rewrite slen_app in L, M. pose proof (strip_length r). cbn [String.length] in L, M. apply IH; lia.
Qed.
Lemma simple_call : forall s, strip s <> "" -> simple ("call " ++ s) = simple s.
Proof.
  intros s N. unfold simple. cbn zeta. rewrite (strip_call s N). remember (String.length ("call " ++ rstrip_ws s)) as n eqn:E. rewrite slen_app in E. cbn [String.length] in E. destruct n as [|n]; [lia|]. cbn [uncall]. rewrite after_app, strip_rstrip. apply uncall_fuel; [|lia].
  rewrite <- (strip_rstrip s). pose proof (strip_length (rstrip_ws s)). lia.
Qed.
Lemma simple_blank : forall s, simple s <> "" -> strip s <> "".
Proof. intros s N E. apply N. unfold simple. rewrite E. reflexivity. Qed.
Lemma parts_call : forall s c l, parts false s = c :: l -> parts false ("call " ++ s) = ("call " ++ c) :: l.
Proof. intros s c l E. change (parts false ("call " ++ s)) with (match match match match match parts false s with x :: l => String " " x :: l | [] => [] end with x :: l => String "l" x :: l | [] => [] end with x :: l => String "l" x :: l | [] => [] end with x :: l => String "a" x :: l | [] => [] end with x :: l => String "c" x :: l | [] => [] end). rewrite E. reflexivity. Qed.

Section Run.
Variables (W : Type) (tool : string -> list string -> W -> W * nat).
Lemma run_call : forall s st, (exists c l, parts false s = c :: l /\ simple c <> "") -> run_line W tool ("call " ++ s) st = run_line W tool s st.
Proof.
  intros s st (c & l & E & N). unfold run_line. rewrite (parts_call s c l E), E. apply simple_blank in N. cbn [run_parts]. assert (C : c <> "") by (intros ->; exact (N eq_refl)). destruct (String.eqb_spec c ""); [contradiction|]. change (String.eqb ("call " ++ c) "") with false. cbn iota. rewrite (simple_call c N). reflexivity.
Qed.
Lemma run_simple_variable : forall c st, (forall v, c <> "set ERRORLEVEL=" ++ v) -> variable (run_simple W tool c st) = variable st.
Proof.
  intros c st N. unfold run_simple. destruct (after "set ERRORLEVEL=" c) as [v|] eqn:E; [apply after_Some in E; exfalso; exact (N v E)|]. destruct (after "cd " c) as [q|]; [destruct (in_quotes q); reflexivity|]. destruct (tool c _ _). reflexivity.
Qed.
Lemma run_parts_variable : forall l b st, (forall c v, In c l -> simple c <> "set ERRORLEVEL=" ++ v) -> variable (run_parts W tool b l st) = variable st.
Proof.
  induction l as [|c l IH]; intros b st N; [reflexivity|]. cbn [run_parts]. destruct (String.eqb c ""); [apply IH; intros d v I; apply N; right; exact I|]. rewrite IH by (intros d v I; apply N; right; exact I). destruct b; [reflexivity|]. apply run_simple_variable. intros v. apply N. left. reflexivity.
Qed.
Lemma run_script : forall l st, variable st = None -> Forall (fun j => no_variable (job_line j)) l -> run_batch W tool (flat_map two l) st = one_by_one W tool (map job_line l) st.
Proof.
  induction l as [|j l IH]; intros st V F; [reflexivity|]. inversion F as [|? ? (NB & NV) F2]; subst. cbn [flat_map two map one_by_one app run_batch]. assert (E : String.eqb ("call " ++ job_line j) "if %errorlevel% neq 0 exit /b %errorlevel%" = false) by reflexivity. rewrite E. change (String.eqb check "if %errorlevel% neq 0 exit /b %errorlevel%") with true. cbn iota.
  rewrite run_call by exact NB. set (st' := run_line W tool (job_line j) st). assert (V' : variable st' = None) by (unfold st', run_line; rewrite run_parts_variable; [exact V|exact NV]). unfold failed. rewrite V'. destruct (Nat.eqb (level st') 0); cbn [negb]; [exact (IH st' V' F2)|reflexivity].
Qed.
End Run.
