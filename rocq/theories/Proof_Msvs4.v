(** The conversion of Visual Studio settings: what is in the project. *)
From Coq Require Import ZArith HexadecimalString HexadecimalFacts HexadecimalN.
From Verif Require Import Lib LibFacts Str StrFacts Model_Tools Spec_Tools Model_Msvs Spec_Msvs Proof_Tools Proof_Tools2 Proof_Tools3 Proof_Msvs Proof_Msvs2 Proof_Msvs3.
From Verif Require Model_Args Spec_Args Proof_Args Proof_Vcxproj4.
Local Open Scope string_scope.

Lemma steps_own : forall pre t c defs f, Forall (fun s => In (step_setting s) set_by_generator) (steps pre t c defs f).
Proof.
  intros pre t c defs f. unfold steps. destruct (get_include_dirs pre c) as [[i m] r]. destruct (output_file t) as [o ot].
  assert (Q : forall name, mem name set_by_generator = true -> In name set_by_generator) by (intros name H; apply mem_In; exact H).
  repeat first [apply Forall_cons; [apply Q; reflexivity|] | apply Forall_app; split | apply Forall_nil
    | match goal with |- Forall _ (match precompiled_header c with _ => _ end) => destruct (precompiled_header c) as [[|? ?]|] | |- Forall _ (if ?x then _ else _) => destruct x end].
Qed.
Lemma written_as : forall pre b user t c out mt mn v, finalize pre b user t c = inl out -> mt <> "" -> ~ In mn set_by_generator -> found user mt mn = Some v -> written (sections out) mt mn = Some (formatted mt mn v).
Proof.
  intros pre b user t c out mt mn v E N O F. destruct (finalize_steps _ _ _ _ _ _ E) as (f & R). apply written_lookup; [exact N|]. rewrite (steps_other _ _ _ mt mn R); [rewrite <- found_lookup; exact F|]. eapply Forall_impl; [|apply steps_own]. intros s I. right. intros ->. contradiction.
Qed.
Lemma written_text : forall pre b user t c out mt mn s, finalize pre b user t c = inl out -> mt <> "" -> ~ In mn set_by_generator -> found user mt mn = Some (Text s) -> has_char "$" s = false -> written (sections out) mt mn = Some s.
Proof. intros pre b user t c out mt mn s E N O F M. rewrite (written_as pre b user t c out mt mn (Text s) E N O F). cbn [formatted]. rewrite (convert_none s M). reflexivity. Qed.
Lemma goes_iff : forall r t n, In (t, n) (targets r) <-> goes_to r t n.
Proof.
  intros [a b ty| |a b|a f|a] t n; cbn [targets goes_to In].
  - split; [intros [E|[]]; injection E as -> ->; auto|intros (-> & ->); auto].
  - split; contradiction.
  - split; [intros [E|[]]; injection E as -> ->; auto|intros (-> & ->); auto].
  - split; [intros [E|[]]; injection E as -> <-; auto|intros (-> & ->); auto].
  - split; [intros [E|[E|[]]]; injection E as -> <-; auto|intros (-> & [->| ->]); auto].
Qed.
(** A setting is in the output, or there is a reason why it is not. *)
Lemma silent : forall d out ws tool name v, convert d = Some (out, ws) -> given_as d tool name v ->
  In (Unknown_tool tool) ws \/ In (Unknown_setting tool name) ws \/ In (Bad_value tool name) ws \/
  (exists root r, name = root ++ "_excluded" /\ says tool root r) \/ says tool name Ignored \/ (v <> Text "true" /\ exists t f, says tool name (Flag t f)) \/
  exists r mt mn, says tool name r /\ goes_to r mt mn /\ found out mt mn <> None.
Proof.
  intros d out ws tool name v C G. assert (K : In tool (map fst d)) by (destruct G as (l & G1 & _); apply in_map_iff; exists (tool, l); auto). destruct (in_dec string_dec tool (map fst renamed_tools)) as [T|T]; [|left; apply (warnings_reason d out ws _ C); split; assumption]. right.
  destruct (rule_of tool name) as [r|] eqn:R.
  - assert (S := proj2 (says_rule _ _ _) R). right. assert (NC : forall r', says tool name r' -> ~ misplaced r' v) by (intros r' S' M; assert (X : convert d = None) by (apply crash_iff; exists tool, name, v, r'; auto); congruence).
    assert (B : In (Bad_value tool name) ws \/ fits r v). { destruct (translate r v []) as [[o b]|] eqn:TR; [|apply translate_none in TR; destruct (NC r S TR)]. pose proof (translate_bad r v [] o b TR) as B. destruct b; [left; apply (warnings_reason d out ws _ C); exists v, r; split; [exact G|]; split; [exact S|apply B; reflexivity]|right]. clear - TR B.
      destruct r as [rt rn ty| |rt rn|rt rf|rt]; [|exact I|exact I|exact I|].
      - cbn [translate] in TR. destruct ty as [| | |hex|l], v as [s|items]; cbn [convert_value fits] in *; try exact I; try discriminate.
        + apply in_switch. destruct (mem s _); [reflexivity|discriminate].
        + destruct (Model_Args.py_int s) as [z|] eqn:P; [|discriminate]. exists s, z. split; [reflexivity|]. apply Proof_Args.py_int_iff. exact P.
        + destruct (Model_Args.py_int s) as [z|] eqn:P; [|discriminate]. destruct (Z.ltb_spec z 0); [discriminate|]. destruct (Z.leb_spec (Z.of_nat (length l)) z); [discriminate|]. cbn [orb] in TR. destruct (nth_error l (Z.to_nat z)) as [[y|]|] eqn:N; [|discriminate..]. exists s, (Z.to_nat z), y. rewrite Z2Nat.id by assumption. split; [reflexivity|]. split; [apply Proof_Args.py_int_iff; exact P|exact N].
      - destruct (preprocessed_text rt v []) as [Q|(_ & _ & _ & Q)]; [exact Q|]. rewrite Q in TR. discriminate. }
    destruct B as [B|B]; [left; exact B|]. right. right. destruct r as [rt rn ty| |rt rn|rt rf|rt]; [|left; exact S| | |].
    + right. right. exists (Becomes rt rn ty), rt, rn. split; [exact S|]. split; [split; reflexivity|]. apply (kept d out ws tool name v _ rt rn C G S B ltac:(discriminate)). left. reflexivity.
    + right. right. exists (As_is rt rn), rt, rn. split; [exact S|]. split; [split; reflexivity|]. apply (kept d out ws tool name v _ rt rn C G S B ltac:(discriminate)). left. reflexivity.
    + right. destruct (flag_text rt rf v []) as [->|F].
      * right. exists (Flag rt rf), rt, "AdditionalOptions". split; [exact S|]. split; [split; reflexivity|]. apply (kept d out ws tool name _ _ rt "AdditionalOptions" C G S B ltac:(reflexivity)). left. reflexivity.
      * left. split; [|exists rt, rf; exact S]. intros ->. discriminate F.
    + right. right. exists (Preprocessed rt), rt, "PreprocessToFile". split; [exact S|]. split; [split; [reflexivity|left; reflexivity]|]. apply (kept d out ws tool name v _ rt "PreprocessToFile" C G S B ltac:(discriminate)). left. reflexivity.
  - assert (NS : forall r, ~ says tool name r) by (intros r S; apply says_rule in S; congruence).
    assert (X : (exists root r, name = root ++ "_excluded" /\ says tool root r) \/ forall root r, name = root ++ "_excluded" -> ~ says tool root r).
    { destruct (without_excluded name) as [root|] eqn:W.
      - destruct (rule_of tool root) as [r|] eqn:R'; [left; exists root, r; split; [apply excluded_iff; exact W|apply says_rule; exact R']|right]. intros root' r E S. apply excluded_iff in E. assert (root' = root) by congruence. subst root'. apply says_rule in S. congruence.
      - right. intros root r E. apply excluded_iff in E. congruence. }
    destruct X as [X|X]; [right; right; left; exact X|left]. apply (warnings_reason d out ws _ C). split; [exists v; exact G|]. split; [exact T|]. auto.
Qed.
Lemma only_given : forall d out ws t n v, convert d = Some (out, ws) -> found out t n = Some v -> exists tool name v' r, given_as d tool name v' /\ says tool name r /\ fits r v' /\ goes_to r t n.
Proof. intros d out ws t n v C F. destruct (only d out ws t n v C F) as (tool & name & v' & r & G & S & FI & I). exists tool, name, v', r. split; [exact G|]. split; [exact S|]. split; [exact FI|]. apply goes_iff. exact I. Qed.

(** ** hexadecimal numbers *)
Lemma zeros_length : forall n, String.length (zeros n) = n.
Proof. induction n as [|n IH]; [reflexivity|]. cbn [zeros String.length]. rewrite IH. reflexivity. Qed.
Lemma zeros_read : forall n u, u <> Hexadecimal.Nil -> exists u', HexadecimalString.NilZero.uint_of_string (zeros n ++ HexadecimalString.NilZero.string_of_uint u) = Some u' /\ N.of_hex_uint u' = N.of_hex_uint u.
Proof.
  intros n u N. assert (Z : HexadecimalString.NilZero.string_of_uint u = HexadecimalString.NilEmpty.string_of_uint u) by (destruct u; [contradiction|reflexivity..]). rewrite Z.
  assert (E : forall n, HexadecimalString.NilEmpty.uint_of_string (zeros n ++ HexadecimalString.NilEmpty.string_of_uint u) = Some (Nat.iter n Hexadecimal.D0 u)).
  { clear n. induction n as [|n IH]; [apply HexadecimalString.NilEmpty.usu|]. cbn [zeros append HexadecimalString.NilEmpty.uint_of_string]. rewrite IH. reflexivity. }
  exists (Nat.iter n Hexadecimal.D0 u). split.
  - rewrite <- E. destruct (zeros n ++ HexadecimalString.NilEmpty.string_of_uint u) as [|a s] eqn:Q; [|reflexivity]. exfalso. destruct n; [destruct u; [contradiction|discriminate Q..]|discriminate Q].
  - clear E Z N. induction n as [|n IH]; [reflexivity|exact IH].
Qed.
Lemma culture : forall d out ws s z, dictionary d -> convert d = Some (out, ws) -> given_as d "VCResourceCompilerTool" "Culture" (Text s) -> Spec_Args.whole_number s z -> (0 <= z)%Z ->
  exists digits, found out "ResourceCompile" "Culture" = Some (Text ("0x" ++ digits)) /\ 4 <= String.length digits /\ hexadecimal digits = Some z.
Proof.
  intros d out ws s z D C G W Z. exists (hex4 z). split; [|].
  - apply (becomes d out ws "VCResourceCompilerTool" "Culture" (Text s) "ResourceCompile" "Culture" (Integer true) _ D C G); [eexists; split; reflexivity|split; [discriminate|]; split; [discriminate|]; split; discriminate|]. cbn [convert_value]. apply Proof_Args.py_int_iff in W. rewrite W. reflexivity.
  - unfold hex4. rewrite (proj2 (Z.ltb_ge z 0) Z). set (u := N.to_hex_uint (Z.abs_N z)). assert (N : u <> Hexadecimal.Nil) by (unfold u; destruct (Z.abs_N z); [discriminate|apply HexadecimalPos.Unsigned.to_uint_nonnil]). cbn [append String.length]. split.
    + rewrite Proof_Vcxproj4.slen_app, zeros_length. lia.
    + unfold hexadecimal. destruct (zeros_read (4 - 0 - String.length (HexadecimalString.NilZero.string_of_uint u)) u N) as (u' & E & V). rewrite E. cbn [option_map]. rewrite V. unfold u. rewrite HexadecimalN.Unsigned.of_to. f_equal. rewrite N2Z.inj_abs_N. lia.
Qed.
