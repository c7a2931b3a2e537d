(** The conversion of Visual Studio settings: values and warnings. *)
From Coq Require Import ZArith DecimalString DecimalFacts DecimalZ DecimalPos.
From Verif Require Import Lib LibFacts Str StrFacts Model_Tools Model_Msvs Spec_Msvs Proof_Tools Proof_Tools2 Proof_Msvs.
From Verif Require Model_Args Spec_Args Proof_Args Model_Text Proof_Merge2 Proof_Commands.
Local Open Scope string_scope.

(** ** numbers *)
Lemma digits_acc : forall d acc, Model_Args.py_digits true (Zpos acc) (NilEmpty.string_of_uint d) = Some (Zpos (Pos.of_uint_acc d acc)).
Proof.
  induction d as [|d IH|d IH|d IH|d IH|d IH|d IH|d IH|d IH|d IH|d IH]; intros acc; [reflexivity|..]; cbn [NilEmpty.string_of_uint Model_Args.py_digits Pos.of_uint_acc];
    match goal with |- (if ?c then _ else _) = _ => change c with true end; cbv iota; (match goal with |- context [(Z.of_N (N_of_ascii ?c) - 48)%Z] => let v := eval vm_compute in (Z.of_N (N_of_ascii c) - 48)%Z in change (Z.of_N (N_of_ascii c) - 48)%Z with v end); match goal with |- Model_Args.py_digits true ?x _ = Some (Zpos (Pos.of_uint_acc d ?y)) => replace x with (Zpos y) by lia end; apply IH.
Qed.
Lemma digits_of : forall d b, d <> Decimal.Nil \/ b = true -> Model_Args.py_digits b 0 (NilEmpty.string_of_uint d) = Some (Z.of_N (Pos.of_uint d)).
Proof.
  assert (P : forall d, Model_Args.py_digits true 0 (NilEmpty.string_of_uint d) = Some (Z.of_N (Pos.of_uint d))).
  { induction d as [|d IH|d IH|d IH|d IH|d IH|d IH|d IH|d IH|d IH|d IH]; [reflexivity|exact IH|..]; cbn [NilEmpty.string_of_uint Model_Args.py_digits Pos.of_uint Z.of_N];
      match goal with |- (if ?c then _ else _) = _ => change c with true end; cbv iota; match goal with |- Model_Args.py_digits true ?x _ = Some (Zpos (Pos.of_uint_acc d ?y)) => change x with (Zpos y) end; apply digits_acc. }
  intros d b [N| ->]; [|apply P]. destruct b; [apply P|]. destruct d as [|d|d|d|d|d|d|d|d|d|d]; [contradiction|..]; rewrite <- P; reflexivity.
Qed.
Lemma uint_read : forall d, d <> Decimal.Nil -> Spec_Args.digits_read 0 (NilZero.string_of_uint d) (Z.of_N (Pos.of_uint d)).
Proof. intros d N. apply Proof_Args.py_digits_start. replace (NilZero.string_of_uint d) with (NilEmpty.string_of_uint d) by (destruct d; [contradiction|reflexivity..]). apply digits_of. auto. Qed.
Lemma decimal_number : forall z, Spec_Args.whole_number (decimal z) z.
Proof.
  intros z. unfold decimal. destruct z as [|p|p]; cbn [Z.to_int].
  - rewrite <- (append_nil_r (NilZero.string_of_int _)). apply (Spec_Args.wn_plain "" _ ""); [exact I|exact I|]. apply (uint_read (Decimal.D0 Decimal.Nil)). discriminate.
  - cbn [NilZero.string_of_int]. rewrite <- (append_nil_r (NilZero.string_of_uint _)). apply (Spec_Args.wn_plain "" _ ""); [exact I|exact I|]. replace (Zpos p) with (Z.of_N (Pos.of_uint (Pos.to_uint p))) by (rewrite DecimalPos.Unsigned.of_to; reflexivity). apply uint_read. apply DecimalPos.Unsigned.to_uint_nonnil.
  - cbn [NilZero.string_of_int]. rewrite <- (append_nil_r (NilZero.string_of_uint _)). change (Zneg p) with (- Zpos p)%Z. apply (Spec_Args.wn_minus "" _ ""); [exact I|exact I|]. replace (Zpos p) with (Z.of_N (Pos.of_uint (Pos.to_uint p))) by (rewrite DecimalPos.Unsigned.of_to; reflexivity). apply uint_read. apply DecimalPos.Unsigned.to_uint_nonnil.
Qed.

(** ** when there is a warning, and an exception *)
Lemma in_switch : forall s, mem s ["true"; "false"] = true <-> switch (Text s).
Proof.
  intros s. rewrite mem_In. unfold switch. cbn [In]. split; [intros [<-|[<-|[]]]; auto|intros [E|E]; injection E as ->; auto].
Qed.
Lemma value_misplaced : forall ty v a b, convert_value ty v = Crash <-> misplaced (Becomes a b ty) v.
Proof.
  intros ty v a b. destruct ty as [| | |hex|l], v as [s|items]; cbn [convert_value misplaced]; try solve [split; [discriminate|contradiction] | split; auto].
  - rewrite <- mem_In. destruct (mem "$" items); split; congruence.
  - destruct (mem s _); split; [discriminate|contradiction|discriminate|contradiction].
  - destruct (Model_Args.py_int s); split; [discriminate|contradiction|discriminate|contradiction].
  - destruct (Model_Args.py_int s) as [z|]; [|split; [discriminate|contradiction]]. destruct (_ || _)%bool; [split; [discriminate|contradiction]|]. destruct (nth_error l _) as [[x|]|]; split; [discriminate|contradiction|discriminate|contradiction|discriminate|contradiction].
Qed.
Lemma value_fits : forall ty v a b, convert_value ty v <> Crash -> (convert_value ty v = Invalid <-> ~ fits (Becomes a b ty) v).
Proof.
  intros ty v a b NC. destruct ty as [| | |hex|l], v as [s|items]; cbn [convert_value fits] in *; try solve [split; [discriminate|intros F; destruct (F I)] | congruence].
  - destruct (mem "$" items); [congruence|]. split; [discriminate|intros F; destruct (F I)].
  - rewrite <- in_switch. destruct (mem s _); split; congruence.
  - clear NC. split.
    + intros E (s' & z & E' & W). injection E' as <-. apply Proof_Args.py_int_iff in W. rewrite W in E. discriminate.
    + intros F. destruct (Model_Args.py_int s) as [z|] eqn:E; [|reflexivity]. destruct F. exists s, z. split; [reflexivity|]. apply Proof_Args.py_int_iff. exact E.
  - clear NC. split.
    + intros E (s' & k & w & E' & W & N). injection E' as <-. apply Proof_Args.py_int_iff in W. rewrite W in E. assert (L : k < length l) by (apply nth_error_Some; congruence). rewrite (proj2 (Z.ltb_ge (Z.of_nat k) 0)), (proj2 (Z.leb_gt _ (Z.of_nat k))) in E by lia. cbn [orb] in E. rewrite Nat2Z.id, N in E. discriminate.
    + intros F. destruct (Model_Args.py_int s) as [z|] eqn:E; [|reflexivity]. destruct (Z.ltb_spec z 0); [reflexivity|]. destruct (Z.leb_spec (Z.of_nat (length l)) z); [reflexivity|]. cbn [orb]. destruct (nth_error l (Z.to_nat z)) as [[x|]|] eqn:N; [|reflexivity..]. destruct F. exists s, (Z.to_nat z), x. rewrite Z2Nat.id by assumption. split; [reflexivity|]. split; [apply Proof_Args.py_int_iff; exact E|exact N].
Qed.
Lemma flag_text : forall t f v out, v = Text "true" \/ translate (Flag t f) v out = Some (out, false).
Proof. intros t f [s|l] out; [|right; reflexivity]. destruct (string_dec s "true") as [->|N]; [left; reflexivity|right]. cbn [translate]. repeat (destruct s as [|[[] [] [] [] [] [] [] []] s]; try reflexivity). congruence. Qed.
Lemma preprocessed_text : forall t v out, (v = Text "0" \/ v = Text "1" \/ v = Text "2") \/ (v <> Text "0" /\ v <> Text "1" /\ v <> Text "2" /\ translate (Preprocessed t) v out = Some (touch t out, true)).
Proof.
  intros t [s|l] out; [|right; split; [discriminate|]; split; [discriminate|]; split; [discriminate|reflexivity]]. destruct (string_dec s "0") as [->|N0]; [auto|]. destruct (string_dec s "1") as [->|N1]; [auto|]. destruct (string_dec s "2") as [->|N2]; [auto|]. right. split; [congruence|]. split; [congruence|]. split; [congruence|]. cbn [translate].
  repeat (destruct s as [|[[] [] [] [] [] [] [] []] s]; try reflexivity); congruence.
Qed.
Lemma translate_bad : forall r v out out' b, translate r v out = Some (out', b) -> (b = true <-> ~ fits r v).
Proof.
  intros [a n ty| |a n|a f|a] v out out' b E.
  - cbn [translate] in E. pose proof (value_fits ty v a n) as F. destruct (convert_value ty v); injection E as <- <- || discriminate; (rewrite <- F by discriminate; split; congruence).
  - injection E as _ <-. split; [discriminate|intros F; destruct (F I)].
  - injection E as _ <-. split; [discriminate|intros F; destruct (F I)].
  - split; [|intros F; destruct (F I)]. intros ->. exfalso. destruct (flag_text a f v out) as [->|Q]; [injection E; discriminate|congruence].
  - destruct (preprocessed_text a v out) as [P|(N0 & N1 & N2 & Q)].
    + split; [intros ->; exfalso; destruct P as [->|[->| ->]]; injection E; discriminate|intros F; destruct (F P)].
    + rewrite Q in E. injection E as _ <-. split; [intros _ [P|[P|P]]; congruence|reflexivity].
Qed.
Lemma translate_none : forall r v out, translate r v out = None <-> misplaced r v.
Proof.
  intros [a n ty| |a n|a f|a] v out.
  - rewrite <- value_misplaced. cbn [translate]. destruct (convert_value ty v); split; congruence.
  - split; [discriminate|contradiction].
  - split; [discriminate|contradiction].
  - split; [|contradiction]. intros E. exfalso. destruct (flag_text a f v out) as [->|Q]; [discriminate E|congruence].
  - split; [|contradiction]. intros E. exfalso. destruct (preprocessed_text a v out) as [[->|[->| ->]]|(_ & _ & _ & Q)]; [discriminate E..|congruence].
Qed.
Lemma says_rule : forall t n r, says t n r <-> rule_of t n = Some r.
Proof.
  intros t n r. unfold says, rule_of. split; [intros (rs & -> & E); exact E|]. destruct (assoc t rules) as [rs|]; [|discriminate]. intros E. exists rs. auto.
Qed.
Lemma crash_iff : forall d, convert d = None <-> exists tool name v r, given_as d tool name v /\ says tool name r /\ misplaced r v.
Proof.
  intros d. pose proof (convert_run d [] []) as E. unfold convert. replace (convert_tools d [] [] = None) with (convert_tools d [] [] = None) by reflexivity. assert (H : convert_tools d [] [] = None <-> run (flat d) [] = None) by (rewrite <- E; destruct (convert_tools d [] []); cbn; split; congruence). rewrite H. clear H E.
  assert (G : forall l out, run l out = None <-> exists t n v r, In (t, n, v) l /\ rule_of t n = Some r /\ misplaced r v).
  { induction l as [|[[t n] v] l IH]; intros out; cbn [run]; [split; [discriminate|intros (? & ? & ? & ? & [] & _)]|]. destruct (rule_of t n) as [r|] eqn:R.
    - destruct (translate r v out) as [[o b]|] eqn:T.
      + rewrite IH. split; intros (t' & n' & v' & r' & J & K); exists t', n', v', r'; [split; [right; exact J|exact K]|]. destruct J as [J|J]; [|auto]. injection J as <- <- <-. destruct K as (K1 & K2). assert (r' = r) by congruence. subst r'. apply (translate_none r v out) in K2. congruence.
      + split; [intros _|reflexivity]. exists t, n, v, r. split; [left; reflexivity|]. split; [exact R|]. apply (translate_none r v out). exact T.
    - rewrite IH. split; intros (t' & n' & v' & r' & J & K); exists t', n', v', r'; [split; [right; exact J|exact K]|]. destruct J as [J|J]; [|auto]. injection J as <- <- <-. destruct K; congruence. }
  rewrite G. split; intros (t & n & v & r & A & B & C); exists t, n, v, r; (split; [apply flat_In; exact A|split; [apply says_rule; exact B|exact C]]).
Qed.

(** ** the warnings *)
Lemma excluded_iff : forall s root, without_excluded s = Some root <-> s = root ++ "_excluded".
Proof.
  intros s root. unfold without_excluded. split.
  - intros E. destruct (rev (list_ascii_of_string s)) as [|d1 [|e1 [|d2 [|u [|l [|c [|x [|e2 [|us rest]]]]]]]]] eqn:R; try discriminate. destruct (list_eq_dec _ _ _) as [Q|]; [|discriminate]. injection E as <-. rewrite <- (string_of_list_ascii_of_string s). rewrite <- (rev_involutive (list_ascii_of_string s)), R. change (d1 :: e1 :: d2 :: u :: l :: c :: x :: e2 :: us :: rest) with (app [d1; e1; d2; u; l; c; x; e2; us] rest). rewrite Q, rev_app_distr. clear. induction (rev rest) as [|a r IH]; [reflexivity|]. cbn [app string_of_list_ascii append]. rewrite IH. reflexivity.
  - intros ->. rewrite Proof_Commands.list_ascii_app, rev_app_distr. change (rev (list_ascii_of_string "_excluded")) with ["d"; "e"; "d"; "u"; "l"; "c"; "x"; "e"; "_"]%char. cbn [app]. destruct (list_eq_dec _ _ _) as [_|N]; [|destruct N; reflexivity]. rewrite rev_involutive, string_of_list_ascii_of_string. reflexivity.
Qed.
Lemma exclusion_iff : forall name known, exclusion name known = true <-> exists root, name = root ++ "_excluded" /\ In root known.
Proof.
  intros name known. unfold exclusion. destruct (without_excluded name) as [root|] eqn:E.
  - rewrite mem_In. split; [intros H; exists root; split; [apply excluded_iff; exact E|exact H]|]. intros (r & E' & H). apply excluded_iff in E'. congruence.
  - split; [discriminate|]. intros (r & E' & _). apply excluded_iff in E'. congruence.
Qed.
Lemma tool_names : map fst rules = map fst renamed_tools.
Proof. reflexivity. Qed.
(** One setting gives a warning. *)
Definition warns (i : item) (w : warning) : Prop :=
  let '(t, n, v) := i in
  match w with
  | Unknown_tool _ => False
  | Unknown_setting t' n' => t' = t /\ n' = n /\ exists rs, assoc t rules = Some rs /\ assoc n rs = None /\ exclusion n (map fst rs) = false
  | Bad_value t' n' => t' = t /\ n' = n /\ exists r, says t n r /\ ~ fits r v
  end.
Lemma settings_warn : forall tool rs l out ws out' ws', assoc tool rules = Some rs -> convert_settings tool rs l out ws = Some (out', ws') ->
  forall w, In w ws' <-> In w ws \/ exists n v, In (n, v) l /\ warns (tool, n, v) w.
Proof.
  intros tool rs l out ws out' ws' A. revert out ws. induction l as [|[n v] l IH]; intros out ws E w; cbn [convert_settings] in E.
  - injection E as _ <-. split; [auto|intros [H|(? & ? & [] & _)]; exact H].
  - assert (K : forall ws1, (In w ws1 <-> In w ws \/ warns (tool, n, v) w) -> ((In w ws1 \/ exists n0 v0, In (n0, v0) l /\ warns (tool, n0, v0) w) <-> (In w ws \/ exists n0 v0, In (n0, v0) ((n, v) :: l) /\ warns (tool, n0, v0) w))).
    { intros ws1 K. rewrite K. split.
      - intros [[H|H]|(n0 & v0 & H1 & H2)]; [auto|right; exists n, v; split; [left; reflexivity|exact H]|right; exists n0, v0; split; [right; exact H1|exact H2]].
      - intros [H|(n0 & v0 & [H1|H1] & H2)]; [auto|injection H1 as <- <-; auto|right; exists n0, v0; auto]. }
    destruct (assoc n rs) as [r|] eqn:R.
    + destruct (translate r v out) as [[o b]|] eqn:T; [|discriminate]. rewrite (IH _ _ E w). apply K. pose proof (translate_bad r v out o b T) as B. destruct b.
      * rewrite in_app_iff. cbn [In]. split; [intros [H|[<-|[]]]; [auto|right]; split; [reflexivity|]; split; [reflexivity|]; exists r; split; [exists rs; auto|apply B; reflexivity]|]. intros [H|H]; [auto|]. right. left. destruct w as [t' n'|t' n'|t']; cbn [warns] in H; [destruct H as (-> & -> & _); reflexivity| |contradiction]. destruct H as (_ & _ & rs' & H1 & H2 & _). congruence.
      * split; [auto|]. intros [H|H]; [exact H|]. exfalso. destruct w as [t' n'|t' n'|t']; cbn [warns] in H; [|destruct H as (_ & _ & rs' & H1 & H2 & _); congruence|contradiction]. destruct H as (_ & _ & r' & (rs' & H1 & H2) & F). assert (r' = r) by congruence. subst r'. apply B in F. discriminate.
    + rewrite (IH _ _ E w). apply K. destruct (exclusion n (map fst rs)) eqn:X.
      * split; [auto|]. intros [H|H]; [exact H|]. exfalso. destruct w as [t' n'|t' n'|t']; cbn [warns] in H; [destruct H as (_ & _ & r' & (rs' & H1 & H2) & F); congruence|destruct H as (_ & _ & rs' & H1 & H2 & H3); congruence|contradiction].
      * rewrite in_app_iff. cbn [In]. split; [intros [H|[<-|[]]]; [auto|right]; split; [reflexivity|]; split; [reflexivity|]; exists rs; auto|]. intros [H|H]; [auto|]. right. left. destruct w as [t' n'|t' n'|t']; cbn [warns] in H; [destruct H as (_ & _ & r' & (rs' & H1 & H2) & F); congruence|destruct H as (-> & -> & _); reflexivity|contradiction].
Qed.
Lemma tools_warn : forall d out ws out' ws', convert_tools d out ws = Some (out', ws') ->
  forall w, In w ws' <-> In w ws \/ (exists tool l n v, In (tool, l) d /\ In (n, v) l /\ warns (tool, n, v) w) \/ exists tool, In tool (map fst d) /\ assoc tool rules = None /\ w = Unknown_tool tool.
Proof.
  induction d as [|[tool l] d IH]; intros out ws out' ws' E w; cbn [convert_tools] in E.
  - injection E as _ <-. split; [auto|]. intros [H|[(? & ? & ? & ? & [] & _)|(? & [] & _)]]. exact H.
  - destruct (assoc tool rules) as [rs|] eqn:A.
    + destruct (convert_settings tool rs l out ws) as [[o x]|] eqn:C; [|discriminate]. rewrite (IH _ _ _ _ E w), (settings_warn tool rs l out ws o x A C w). split.
      * intros [[H|(n & v & H1 & H2)]|[(t & l' & n & v & H1 & H2)|(t & H1 & H2)]]; [auto|right; left; exists tool, l, n, v; split; [left; reflexivity|auto]|right; left; exists t, l', n, v; split; [right; exact H1|exact H2]|right; right; exists t; split; [right; exact H1|exact H2]].
      * intros [H|[(t & l' & n & v & [H1|H1] & H2)|(t & [H1|H1] & H2)]]; [auto|injection H1 as <- <-; left; right; exists n, v; exact H2|right; left; exists t, l', n, v; auto| |right; right; exists t; auto]. cbn in H1. subst t. destruct H2. congruence.
    + rewrite (IH _ _ _ _ E w), in_app_iff. cbn [In]. split.
      * intros [[H|[<-|[]]]|[(t & l' & n & v & H1 & H2)|(t & H1 & H2)]]; [auto|right; right; exists tool; split; [left; reflexivity|auto]|right; left; exists t, l', n, v; split; [right; exact H1|exact H2]|right; right; exists t; split; [right; exact H1|exact H2]].
      * intros [H|[(t & l' & n & v & [H1|H1] & H2)|(t & [H1|H1] & H2)]]; [auto| |right; left; exists t, l', n, v; auto| |right; right; exists t; auto].
        -- injection H1 as <- <-. destruct H2 as (_ & H2). exfalso. destruct w as [t' n'|t' n'|t']; cbn [warns] in H2; [destruct H2 as (_ & _ & r' & (rs' & H3 & H4) & F); congruence|destruct H2 as (_ & _ & rs' & H3 & _); congruence|contradiction].
        -- cbn in H1. subst t. destruct H2 as (_ & ->). auto.
Qed.
Lemma warnings_reason : forall d out ws w, convert d = Some (out, ws) -> (In w ws <-> reason d w).
Proof.
  intros d out ws w C. rewrite (tools_warn d [] [] out ws C w). clear C. split.
  - intros [[]|[(tool & l & n & v & H1 & H2 & H3)|(tool & H1 & H2 & ->)]].
    + destruct w as [t' n'|t' n'|t']; cbn [warns] in H3; [| |contradiction].
      * destruct H3 as (-> & -> & r & H4 & H5). exists v, r. split; [exists l; auto|auto].
      * destruct H3 as (-> & -> & rs & H4 & H5 & H6). cbn [reason]. split; [exists v, l; auto|]. split; [rewrite <- tool_names; apply in_map_iff; exists (tool, rs); split; [reflexivity|exact (assoc_In _ _ _ _ H4)]|]. split; [intros r (rs' & H7 & H8); congruence|]. intros root r -> (rs' & H7 & H8). assert (rs' = rs) by congruence. subst rs'.
        assert (X : exclusion (root ++ "_excluded") (map fst rs) = true) by (apply exclusion_iff; exists root; split; [reflexivity|]; apply in_map_iff; exists (root, r); split; [reflexivity|exact (assoc_In _ _ _ _ H8)]). congruence.
    + cbn [reason]. split; [exact H1|]. rewrite <- tool_names. apply assoc_None. exact H2.
  - intros R. right. destruct w as [t n|t n|t]; cbn [reason] in R.
    + destruct R as (v & r & (l & G1 & G2) & S & F). left. exists t, l, n, v. split; [exact G1|]. split; [exact G2|]. cbn [warns]. split; [reflexivity|]. split; [reflexivity|]. exists r. auto.
    + destruct R as ((v & l & G1 & G2) & T & N & X). left. exists t, l, n, v. split; [exact G1|]. split; [exact G2|]. cbn [warns]. split; [reflexivity|]. split; [reflexivity|]. rewrite <- tool_names in T. destruct (assoc t rules) as [rs|] eqn:A; [|apply assoc_None in A; contradiction]. exists rs. split; [reflexivity|]. split.
      * destruct (assoc n rs) as [r|] eqn:R; [|reflexivity]. destruct (N r). exists rs. auto.
      * destruct (exclusion n (map fst rs)) eqn:E; [|reflexivity]. apply exclusion_iff in E. destruct E as (root & E & I). exfalso. destruct (assoc root rs) as [r|] eqn:R; [|apply assoc_None in R; contradiction]. apply (X root r E). exists rs. auto.
    + destruct R as (R1 & R2). right. exists t. split; [exact R1|]. split; [|reflexivity]. apply assoc_None. rewrite tool_names. exact R2.
Qed.
