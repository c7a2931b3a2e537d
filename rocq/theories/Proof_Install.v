(** Proofs about installing development files. *)
From Coq Require Import ZArith NArith Decimal DecimalString DecimalPos.
From Verif Require Import Lib LibFacts Str StrFacts Js Model_Value Spec_Vs Proof_Vs Model_Install Spec_Install.
From Verif Require Model_Vs Model_Text Proof_Merge2 Proof_Filter.
Local Open Scope string_scope.

(** ** Strings *)
Lemma white_app : forall a b, white (a ++ b) <-> white a /\ white b.
Proof.
  intros a b. unfold white. split.
  - intros H. split; intros c X; apply H; rewrite has_char_app, X; [reflexivity|apply orb_true_r].
  - intros [HA HB] c X. rewrite has_char_app in X. apply orb_prop in X. destruct X; auto.
Qed.
Lemma no_white_app : forall a b, no_white (a ++ b) <-> no_white a /\ no_white b.
Proof.
  intros a b. unfold no_white. split.
  - intros H. split; intros c X; apply H; rewrite has_char_app, X; [reflexivity|apply orb_true_r].
  - intros [HA HB] c X. rewrite has_char_app in X. apply orb_prop in X. destruct X; auto.
Qed.
Lemma white_cons : forall a s, white (String a s) <-> js_space a = true /\ white s.
Proof.
  intros a s. change (String a s) with (String a "" ++ s). rewrite white_app. split; intros [H1 H2]; (split; [|exact H2]).
  - apply H1. cbn. rewrite Ascii.eqb_refl. reflexivity.
  - intros c. cbn. destruct (Ascii.eqb_spec a c) as [<-|]; [auto|discriminate].
Qed.
Lemma no_white_cons : forall a s, no_white (String a s) <-> js_space a = false /\ no_white s.
Proof.
  intros a s. change (String a s) with (String a "" ++ s). rewrite no_white_app. split; intros [H1 H2]; (split; [|exact H2]).
  - apply H1. cbn. rewrite Ascii.eqb_refl. reflexivity.
  - intros c. cbn. destruct (Ascii.eqb_spec a c) as [<-|]; [auto|discriminate].
Qed.
Lemma white_nil : white "". Proof. intros a X; discriminate. Qed.
Lemma no_white_nil : no_white "". Proof. intros a X; discriminate. Qed.

Lemma trim_end_spec : forall s, exists w, s = trim_end s ++ w /\ white w.
Proof.
  induction s as [|a s (w & E & W)]; [exists ""; split; [reflexivity|apply white_nil]|]. cbn [trim_end]. destruct (trim_end s) as [|b t] eqn:ET.
  - destruct (js_space a) eqn:Ea.
    + exists (String a w). split; [cbn in *; rewrite <- E; reflexivity|apply white_cons; auto].
    + exists w. split; [cbn in *; rewrite <- E; reflexivity|exact W].
  - exists w. split; [|exact W]. cbn [append] in *. rewrite <- E. reflexivity.
Qed.
Lemma trim_spec : forall s, exists w1 w2, s = w1 ++ js_trim s ++ w2 /\ white w1 /\ white w2.
Proof.
  intros s. destruct (trim_start_spec s) as (w1 & E1 & W1). destruct (trim_end_spec (trim_start s)) as (w2 & E2 & W2). exists w1, w2.
  split; [|split; [exact W1|exact W2]]. unfold js_trim. rewrite <- E2. exact E1.
Qed.

(** the lines of a text *)
Lemma split_lines_nonempty : forall s, split_lines s <> [].
Proof. destruct s as [|a s]; cbn; [discriminate|]. destruct (Ascii.eqb a "010"); [discriminate|]. destruct (split_lines s); discriminate. Qed.
Lemma split_lines_sound : forall s l, In l (split_lines s) -> a_line s l.
Proof.
  assert (G : forall s, match split_lines s with
     | [] => False
     | x :: xs => has_char newline_char x = false /\ (exists post, s = x ++ post /\ (post = "" \/ exists q, post = String newline_char q)) /\
                  forall l, In l xs -> exists pre post, s = pre ++ l ++ post /\ (exists p, pre = p ++ String newline_char "") /\ (post = "" \/ exists q, post = String newline_char q) /\ has_char newline_char l = false
     end).
  { induction s as [|a s IH]; cbn [split_lines].
    - split; [reflexivity|]. split; [exists ""; auto|intros l []].
    - destruct (Ascii.eqb_spec a "010") as [->|Ha].
      + split; [reflexivity|]. split; [exists (String newline_char s); split; [reflexivity|right; exists s; reflexivity]|]. intros l HL.
        destruct (split_lines s) as [|x xs]; [destruct IH|]. destruct IH as (NX & (post & E & HP) & IH). destruct HL as [<-|HL].
        * exists (String newline_char ""), post. split; [cbn; rewrite E; reflexivity|]. split; [exists ""; reflexivity|]. auto.
        * destruct (IH l HL) as (pre & post' & E' & (p & HPre) & HPost & NL). exists (String newline_char pre), post'. split; [cbn; rewrite E'; reflexivity|]. split; [exists (String newline_char p); rewrite HPre; reflexivity|]. auto.
      + destruct (split_lines s) as [|x xs]; [destruct IH|]. destruct IH as (NX & (post & E & HP) & IH). split; [cbn; destruct (Ascii.eqb_spec a newline_char) as [Eq|_]; [exfalso; exact (Ha Eq)|exact NX]|]. split; [exists post; rewrite E; auto|].
        intros l HL. destruct (IH l HL) as (pre & post' & E' & (p & HPre) & HPost & NL). exists (String a pre), post'. split; [cbn; rewrite E'; reflexivity|]. split; [exists (String a p); rewrite HPre; reflexivity|]. auto. }
  intros s l HL. specialize (G s). destruct (split_lines s) as [|x xs]; [destruct G|]. destruct G as (NX & (post & E & HP) & G). destruct HL as [<-|HL].
  - exists "", post. auto.
  - destruct (G l HL) as (pre & post' & E' & HPre & HPost & NL). exists pre, post'. auto.
Qed.
Lemma first_newline : forall w, has_char newline_char w = false \/ exists a b, w = a ++ String newline_char b /\ has_char newline_char a = false.
Proof.
  induction w as [|c w [IH|(a & b & E & N)]]; [left; reflexivity| |]; (destruct (Ascii.eqb_spec c newline_char) as [->|Hc]; [right; exists "", w; auto|]).
  - left. cbn. destruct (Ascii.eqb_spec c newline_char); [congruence|exact IH].
  - right. exists (String c a), b. split; [cbn; rewrite E; reflexivity|]. cbn. destruct (Ascii.eqb_spec c newline_char); [congruence|exact N].
Qed.
Lemma line_of_trimmed : forall text l, a_line (js_trim text) l -> exists a b, white a /\ white b /\ a_line text (a ++ l ++ b).
Proof.
  intros text l (pre & post & E & HPre & HPost & NL). destruct (trim_spec text) as (w1 & w2 & ET & W1 & W2). rewrite E in ET.
  assert (A : exists a pre', w1 ++ pre = pre' ++ a /\ white a /\ has_char newline_char a = false /\ (pre' = "" \/ exists p, pre' = p ++ String newline_char "")).
  { destruct HPre as [->|(p & ->)].
    - destruct (rsplit1 newline_char w1) as [[x y]|] eqn:R.
      + apply rsplit1_Some in R. destruct R as [-> NY]. exists y, (x ++ String newline_char ""). rewrite append_nil_r. split; [rewrite append_assoc; reflexivity|]. apply white_app in W1. destruct W1 as [_ W1]. apply white_cons in W1.
        split; [apply W1|]. split; [exact NY|]. right. exists x. reflexivity.
      + apply rsplit1_None in R. exists w1, "". rewrite append_nil_r. auto.
    - exists "", (w1 ++ p ++ String newline_char ""). rewrite append_nil_r. split; [reflexivity|]. split; [apply white_nil|]. split; [reflexivity|]. right. exists (w1 ++ p). rewrite append_assoc. reflexivity. }
  assert (B : exists b post', post ++ w2 = b ++ post' /\ white b /\ has_char newline_char b = false /\ (post' = "" \/ exists q, post' = String newline_char q)).
  { destruct HPost as [->|(q & ->)].
    - destruct (first_newline w2) as [N|(x & y & -> & N)].
      + exists w2, "". rewrite append_nil_r. auto.
      + exists x, (String newline_char y). split; [reflexivity|]. apply white_app in W2. split; [apply W2|]. split; [exact N|]. right. exists y. reflexivity.
    - exists "", (String newline_char q ++ w2). split; [reflexivity|]. split; [apply white_nil|]. split; [reflexivity|]. right. exists (q ++ w2). reflexivity. }
  destruct A as (a & pre' & EA & WA & NA & PA). destruct B as (b & post' & EB & WB & NB & PB). exists a, b. split; [exact WA|]. split; [exact WB|]. exists pre', post'. split.
  - rewrite ET. transitivity ((w1 ++ pre) ++ l ++ (post ++ w2)); [rewrite !append_assoc; reflexivity|]. rewrite EA, EB, !append_assoc. reflexivity.
  - split; [exact PA|]. split; [exact PB|]. rewrite !has_char_app, NA, NL, NB. reflexivity.
Qed.

(** the words of a line *)
Lemma words_from_sound : forall s cur l, no_white cur -> words_from cur s = l ->
  match l with
  | [] => cur = "" /\ white s
  | [x] => exists t w, cur ++ s = w ++ x ++ t /\ white w /\ white t /\ (cur <> "" -> w = "") /\ x <> "" /\ no_white x
  | [x; y] => exists w t u, cur ++ s = w ++ x ++ t ++ y ++ u /\ white w /\ white t /\ t <> "" /\ white u /\ (cur <> "" -> w = "") /\ x <> "" /\ no_white x /\ y <> "" /\ no_white y
  | _ => True
  end.
Proof.
  induction s as [|a s IH]; intros cur l NC <-; cbn [words_from].
  - destruct cur as [|c cur]; [split; [reflexivity|apply white_nil]|]. exists "", "". rewrite !append_nil_r. split; [reflexivity|]. split; [apply white_nil|]. split; [apply white_nil|]. split; [auto|]. split; [discriminate|exact NC].
  - destruct (js_space a) eqn:Ea.
    + destruct cur as [|c cur].
      * specialize (IH "" _ no_white_nil eq_refl). destruct (words_from "" s) as [|x [|y [|z l]]].
        -- split; [reflexivity|]. apply white_cons. split; [exact Ea|apply IH].
        -- destruct IH as (t & w & E & W & T & _ & NX & WX). exists t, (String a w). cbn in E |- *. rewrite E. split; [reflexivity|]. split; [apply white_cons; auto|]. split; [exact T|]. split; [congruence|]. auto.
        -- destruct IH as (w & t & u & E & W & T & NT & U & _ & R). exists (String a w), t, u. cbn in E |- *. rewrite E. split; [reflexivity|]. split; [apply white_cons; auto|]. split; [exact T|]. split; [exact NT|]. split; [exact U|]. split; [congruence|exact R].
        -- exact I.
      * specialize (IH "" _ no_white_nil eq_refl). destruct (words_from "" s) as [|x [|y l]].
        -- exists (String a s), "". split; [reflexivity|]. split; [apply white_nil|]. split; [apply white_cons; split; [exact Ea|apply IH]|]. split; [auto|]. split; [discriminate|exact NC].
        -- destruct IH as (t & w & E & W & T & _ & NX & WX). exists "", (String a w), t. cbn [append] in E |- *. rewrite E. split; [reflexivity|]. split; [apply white_nil|]. split; [apply white_cons; auto|]. split; [discriminate|]. split; [exact T|]. split; [auto|].
           split; [discriminate|]. split; [exact NC|]. auto.
        -- exact I.
    + assert (NC' : no_white (cur ++ String a "")) by (apply no_white_app; split; [exact NC|apply no_white_cons; split; [exact Ea|apply no_white_nil]]).
      specialize (IH (cur ++ String a "") _ NC' eq_refl). rewrite append_assoc in IH. cbn [append] in IH.
      assert (NE : cur ++ String a "" <> "") by (destruct cur; discriminate).
      destruct (words_from (cur ++ String a "") s) as [|x [|y [|z l]]].
      * destruct IH as [IH _]. congruence.
      * destruct IH as (t & w & E & W & T & HW & R). exists t, w. auto 7.
      * destruct IH as (w & t & u & E & W & T & NT & U & HW & R). exists w, t, u. auto 10.
      * exact I.
Qed.
Lemma strip_dot_slash_spec : forall s, exists dots, s = dots ++ strip_dot_slash s /\ (dots = "./" \/ (dots = "" /\ forall t, strip_dot_slash s <> "./" ++ t)).
Proof.
  intros [|a [|b t]]; [exists ""; split; [reflexivity|right; split; [reflexivity|intros u X; discriminate]]|exists ""; split; [reflexivity|right; split; [reflexivity|intros u X; discriminate]]|]. cbn [strip_dot_slash].
  destruct (Ascii.eqb_spec a ".") as [->|Ha]; cbn [andb].
  - destruct (Ascii.eqb_spec b "/") as [->|Hb]; [exists "./"; split; [reflexivity|left; reflexivity]|exists ""; split; [reflexivity|right; split; [reflexivity|intros u X; cbn in X; congruence]]].
  - exists "". split; [reflexivity|right; split; [reflexivity|intros u X; cbn in X; congruence]].
Qed.
Lemma words_says : forall l sum name, words l = [sum; name] -> says l (strip_dot_slash name) sum.
Proof.
  intros l sum name H. pose proof (words_from_sound l "" _ no_white_nil H) as (w & t & u & E & W & T & NT & U & _ & NX & WX & NY & WY). cbn [append] in E.
  destruct (strip_dot_slash_spec name) as (dots & ED & HD). exists w, t, u, dots. rewrite <- ED. split; [exact E|]. auto 12.
Qed.
Lemma says_wider : forall a b l name sum, white a -> white b -> says l name sum -> says (a ++ l ++ b) name sum.
Proof.
  intros a b l name sum WA WB (w1 & w2 & w3 & dots & -> & W1 & W2 & N2 & W3 & R). exists (a ++ w1), w2, (w3 ++ b), dots. split; [rewrite !append_assoc; reflexivity|]. split; [apply white_app; auto|]. split; [exact W2|]. split; [exact N2|]. split; [apply white_app; auto|exact R].
Qed.
Lemma parse_sums_In : forall lines acc name sum, assoc name (parse_sums lines acc) = Some sum -> assoc name acc = Some sum \/ exists l, In l lines /\ says l name sum.
Proof.
  induction lines as [|l lines IH]; intros acc name sum H; cbn [parse_sums] in H; [left; exact H|].
  destruct (words l) as [|x [|y [|z r]]] eqn:EW; try (left; exact H). apply IH in H. destruct H as [H|(l' & HI & HS)]; [|right; exists l'; split; [right; exact HI|exact HS]].
  destruct (String.eqb_spec (strip_dot_slash y) name) as [<-|NE].
  - rewrite Proof_Merge2.assoc_set_same in H. injection H as <-. right. exists l. split; [left; reflexivity|apply words_says, EW].
  - rewrite Proof_Merge2.assoc_set_other in H by exact NE. left. exact H.
Qed.
Lemma expected_listed : forall text name sum, assoc name (expected_sums text) = Some sum -> listed text name sum.
Proof.
  intros text name sum H. apply parse_sums_In in H. destruct H as [H|(l & HI & HS)]; [discriminate|]. apply split_lines_sound, line_of_trimmed in HI. destruct HI as (a & b & WA & WB & HL).
  exists (a ++ l ++ b). split; [exact HL|apply says_wider; assumption].
Qed.

(** header files *)
Lemma valid_iff : forall p, valid p = true <-> is_header p.
Proof.
  intros p. unfold valid, extname. set (base := match rsplit1 slash p with Some (_, b) => b | None => p end).
  assert (HB : exists folder, p = folder ++ base /\ (folder = "" \/ exists f, folder = f ++ "/") /\ has_char slash base = false).
  { unfold base. destruct (rsplit1 slash p) as [[h t]|] eqn:R.
    - apply rsplit1_Some in R. destruct R as [-> N]. exists (h ++ "/"). split; [rewrite append_assoc; reflexivity|]. split; [right; exists h; reflexivity|exact N].
    - apply rsplit1_None in R. exists "". auto. }
  assert (UB : forall folder x, p = folder ++ x -> (folder = "" \/ exists f, folder = f ++ "/") -> has_char slash x = false -> x = base).
  { intros folder x E HF NX. unfold base. destruct HF as [->|(f & ->)].
    - cbn in E. subst x. apply rsplit1_None in NX. rewrite NX. reflexivity.
    - assert (R : rsplit1 slash p = Some (f, x)) by (apply rsplit1_Some; split; [rewrite E, append_assoc; reflexivity|exact NX]). rewrite R. reflexivity. }
  clearbody base. destruct HB as (folder & EP & HF & NB). split.
  - intros H. destruct (rsplit1 "." base) as [[h e]|] eqn:R; [|discriminate]. apply rsplit1_Some in R. destruct R as [EB NE]. destruct h as [|c h]; [discriminate|].
    exists folder, (String c h), (String "." e). split; [rewrite EP, EB; reflexivity|]. split; [exact HF|]. split; [rewrite EB, has_char_app in NB; apply orb_false_elim in NB; apply NB|]. split; [discriminate|].
    apply orb_prop in H. rewrite !String.eqb_eq in H. exact H.
  - intros (folder' & stem & ext & E & HF' & NS & NE & HX).
    assert (B : stem ++ ext = base). { apply (UB folder' (stem ++ ext) E HF'). rewrite has_char_app, NS. destruct HX as [->| ->]; reflexivity. }
    assert (R : rsplit1 "." base = Some (stem, if String.eqb ext ".h" then "h" else "gypi")). { apply rsplit1_Some. rewrite <- B. destruct HX as [->| ->]; split; reflexivity. }
    rewrite R. destruct stem as [|c stem]; [congruence|]. destruct HX as [->| ->]; reflexivity.
Qed.
Lemma valid_last : forall p, valid p = true -> exists q, p = q ++ ".h" \/ p = q ++ ".gypi".
Proof. intros p H. apply valid_iff in H. destruct H as (f & s & e & -> & _ & _ & _ & [->| ->]); exists (f ++ s); rewrite !append_assoc; auto. Qed.
Fixpoint last_of (s : string) : option ascii := match s with EmptyString => None | String a EmptyString => Some a | String _ s' => last_of s' end.
Lemma last_of_app : forall s t, t <> "" -> last_of (s ++ t) = last_of t.
Proof. induction s as [|a s IH]; intros t H; [reflexivity|]. cbn [append last_of]. destruct (s ++ t) eqn:E; [destruct s; [cbn in E; congruence|discriminate]|]. rewrite <- E. apply IH, H. Qed.
Lemma lib_not_valid : forall r, valid (lib_file r) = false.
Proof.
  intros r. destruct (valid (lib_file r)) eqn:E; [|reflexivity]. apply valid_last in E. destruct E as (q & E). assert (L : last_of (lib_file r) = Some "b"%char). { unfold lib_file. rewrite <- !append_assoc. apply last_of_app. discriminate. }
  destruct E as [E|E]; rewrite E, last_of_app in L by discriminate; discriminate L.
Qed.
Lemma version_not_valid : valid "installVersion" = false. Proof. reflexivity. Qed.
Lemma has_slash_lib : forall r, has_char slash (lib_file r) = true.
Proof. intros r. unfold lib_file. rewrite has_char_app. apply orb_true_intro. right. reflexivity. Qed.
Lemma lib_not_version : forall r, lib_file r <> "installVersion".
Proof. intros r E. pose proof (has_slash_lib r) as H. rewrite E in H. discriminate. Qed.

(** ** The version number *)
Lemma decimal_uint : forall u p, Model_Vs.decimal (Zpos p) (NilEmpty.string_of_uint u) = Zpos (Pos.of_uint_acc u p).
Proof.
  induction u; intros p; [reflexivity|..]; cbn [NilEmpty.string_of_uint Model_Vs.decimal Pos.of_uint_acc]; rewrite <- IHu; f_equal;
    match goal with |- context [Z.of_nat ?x] => let v := eval vm_compute in (Z.of_nat x) in change (Z.of_nat x) with v end; lia.
Qed.
Lemma uint_all_digits : forall u, all_digits (NilEmpty.string_of_uint u) = true.
Proof. induction u; [reflexivity|..]; cbn; exact IHu. Qed.
Lemma decimal_of_uint : forall u, Model_Vs.decimal 0 (NilEmpty.string_of_uint u) = Z.of_N (Pos.of_uint u).
Proof.
  induction u; [reflexivity|exact IHu|..]; cbn [NilEmpty.string_of_uint Model_Vs.decimal Pos.of_uint Z.of_N]; rewrite <- decimal_uint; f_equal.
Qed.
Lemma version_whole : forall r, (0 < needed r)%Z -> whole (version_text r) (needed r).
Proof.
  intros r Hn. unfold version_text, Model_Text.int_str. destruct (needed r) as [|p|p]; [lia| |lia]. cbn [Z.to_int NilZero.string_of_int].
  assert (D : Pos.of_uint (Pos.to_uint p) = Npos p) by apply DecimalPos.Unsigned.of_to.
  assert (NN : Pos.to_uint p <> Nil) by (intros X; rewrite X in D; discriminate).
  assert (S : NilZero.string_of_uint (Pos.to_uint p) = NilEmpty.string_of_uint (Pos.to_uint p)) by (destruct (Pos.to_uint p); [congruence|reflexivity..]).
  rewrite S. exists "", "", (NilEmpty.string_of_uint (Pos.to_uint p)), (String "010" ""). split; [reflexivity|]. split; [intros a X; discriminate|]. split; [left; reflexivity|]. split.
  - apply denotes_iff. split; [destruct (Pos.to_uint p); [congruence|discriminate..]|]. split; [apply uint_all_digits|]. rewrite decimal_of_uint, D. reflexivity.
  - intros (a & s' & n & [= <- _] & (B & X)). change (10 = 48 + n)%Z in X. lia.
Qed.
Lemma version_of_iff : forall d n, (0 < n)%Z -> (version_of d = n <-> marked_with d n).
Proof.
  intros d n Hn. unfold version_of, marked_with. destruct (assoc "installVersion" d) as [v|].
  - split.
    + intros H. exists v. split; [reflexivity|]. apply parse_int_spec; [exact Hn|]. destruct (Model_Vs.parse_int v); [congruence|lia].
    + intros (v' & [= <-] & HW). apply parse_int_spec in HW; [|exact Hn]. rewrite HW. reflexivity.
  - split; [intros X; lia|intros (v & X & _); discriminate].
Qed.
Lemma marked_iff : forall d, marked d <-> (0 < version_of d)%Z.
Proof.
  intros d. unfold marked. split.
  - intros (n & Hn & H). apply version_of_iff in H; [|exact Hn]. lia.
  - intros H. exists (version_of d). split; [exact H|]. apply version_of_iff; [exact H|reflexivity].
Qed.
