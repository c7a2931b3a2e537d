From Coq Require Import ZArith.
From Verif Require Import Lib LibFacts Str StrFacts Js Spec_Text Proof_Text Model_Release Spec_Release Proof_Release.
From Verif Require Proof_Install.
Local Open Scope string_scope.

Lemma version_eq : forall sv, version sv = version_text (major sv) (minor sv) (patch sv) (prerelease sv).
Proof. intros sv. unfold version, version_text. rewrite <- join_dotted. destruct (prerelease sv); reflexivity. Qed.
Lemma parse_main_spec : forall m pre sv, parse_main m pre = Some sv <->
  m = numeral (major sv) ++ "." ++ numeral (minor sv) ++ "." ++ numeral (patch sv) /\ prerelease sv = pre /\ (major sv <= 9007199254740991 /\ minor sv <= 9007199254740991 /\ patch sv <= 9007199254740991)%N.
Proof.
  intros m pre sv. unfold parse_main. split.
  - destruct (split_on_inv "." m) as [E _]. destruct (split_on "." m) as [|a [|b [|c [|d l]]]]; try discriminate.
    destruct (number a) as [x|] eqn:X; [|discriminate]. destruct (number b) as [y|] eqn:Y; [|discriminate]. destruct (number c) as [z|] eqn:Z; [|discriminate].
    intros [= <-]. cbn [major minor patch prerelease]. apply number_spec in X, Y, Z. destruct X as [-> X], Y as [-> Y], Z as [-> Z]. cbn in E. auto.
  - intros (-> & <- & B1 & B2 & B3).
    replace (numeral (major sv) ++ "." ++ numeral (minor sv) ++ "." ++ numeral (patch sv)) with (join (String "." "") [numeral (major sv); numeral (minor sv); numeral (patch sv)]) by reflexivity.
    assert (ND : forall n, has_char "." (numeral n) = false) by (intros n; apply digits_no; [apply numeral_digits|unfold digit; cbn; intuition discriminate]).
    rewrite split_on_join; [|discriminate|repeat constructor; apply ND].
    rewrite !(proj2 (number_spec _ _)) by (split; [reflexivity|assumption]). destruct sv; reflexivity.
Qed.
Lemma no_char_dotted : forall c l, c <> "."%char -> Forall (fun x => has_char c x = false) l -> has_char c (dotted l) = false.
Proof.
  intros c l N F. induction l as [|x [|y l] IH]; [reflexivity|inversion F; assumption|]. inversion F; subst. change (dotted (x :: y :: l)) with (x ++ "." ++ dotted (y :: l)). rewrite !has_char_app, IH by assumption. cbn [has_char append orb]. destruct (Ascii.eqb_spec "." c); [congruence|]. rewrite H1. reflexivity.
Qed.
Lemma word_no : forall c s, word s -> ~ word_char c -> has_char c s = false.
Proof. intros c s [_ H] N. destruct (has_char c s) eqn:E; [destruct (N (H c E))|reflexivity]. Qed.
Lemma numeral_word : forall n, word (numeral n).
Proof.
  intros n. destruct (numeral_digits n) as [D NE]. split; [exact NE|]. intros a Ha. apply id_char_spec. unfold id_char. replace (is_digit a) with true; [reflexivity|]. symmetry.
  apply all_digit_spec in D. rewrite all_chars_spec in D. apply D, Ha.
Qed.
Lemma pre_part_word : forall s, pre_part s -> word s.
Proof. intros s [(n & ->)|[H _]]; [apply numeral_word|exact H]. Qed.
Lemma words_no : forall c l, Forall word l -> ~ word_char c -> Forall (fun x => has_char c x = false) l.
Proof. intros c l F N. eapply Forall_impl; [|exact F]. intros x Hx. apply word_no; assumption. Qed.
Lemma not_word_char : forall c, id_char c = false -> ~ word_char c.
Proof. intros c H X. apply id_char_spec in X. congruence. Qed.
Lemma main_no : forall c x y z, c <> "."%char -> ~ digit c -> has_char c (numeral x ++ "." ++ numeral y ++ "." ++ numeral z) = false.
Proof.
  intros c x y z N D. rewrite !has_char_app. rewrite (digits_no c (numeral x)), (digits_no c (numeral y)), (digits_no c (numeral z)) by (apply numeral_digits || exact D). cbn [has_char append orb]. destruct (Ascii.eqb_spec "." c); [congruence|reflexivity].
Qed.

Definition build_ok (b : string) : Prop := b = "" \/ exists l, l <> [] /\ Forall word l /\ b = "+" ++ dotted l.
Definition parse_body (t : string) : option semver :=
  let '(front, build) := split_first "+" t in
  if match build with Some b => forallb build_id (split_on "." b) | None => true end then
    let '(main, pre) := split_first "-" front in
    match pre with
    | Some p => if forallb pre_id (split_on "." p) then parse_main main (split_on "." p) else None
    | None => parse_main main []
    end
  else None.
Definition parse_front (front : string) : option semver :=
  let '(main, pre) := split_first "-" front in
  match pre with
  | Some p => if forallb pre_id (split_on "." p) then parse_main main (split_on "." p) else None
  | None => parse_main main []
  end.
Definition bounded (sv : semver) : Prop := (major sv <= 9007199254740991 /\ minor sv <= 9007199254740991 /\ patch sv <= 9007199254740991)%N.
Lemma dot_not_word : ~ word_char ".". Proof. apply not_word_char. reflexivity. Qed.
Lemma main_text : forall x y z pre, version_text x y z pre = (numeral x ++ "." ++ numeral y ++ "." ++ numeral z) ++ match pre with [] => "" | _ => "-" ++ dotted pre end.
Proof. intros. unfold version_text. rewrite !append_assoc. reflexivity. Qed.
Lemma dash_not_digit : ~ digit "-". Proof. unfold digit. cbn. intuition discriminate. Qed.
Lemma parse_front_spec : forall t sv, parse_front t = Some sv <-> t = version_text (major sv) (minor sv) (patch sv) (prerelease sv) /\ bounded sv /\ Forall pre_part (prerelease sv).
Proof.
  intros t sv. unfold parse_front. rewrite main_text. split.
  - destruct (split_first "-" t) as [main [p|]] eqn:E.
    + apply split_first_Some in E. destruct E as [-> H]. destruct (forallb pre_id (split_on "." p)) eqn:F; [|discriminate]. intros P. apply parse_main_spec in P. destruct P as (-> & EP & B).
      rewrite (forallb_Forall _ _ _ _ pre_id_spec) in F. destruct (split_on_inv "." p) as [EJ _]. rewrite EP. split; [|split; [exact B|exact F]]. f_equal.
      pose proof (split_on_nonnil "." p) as NN. destruct (split_on "." p) as [|q l]; [congruence|]. rewrite <- join_dotted, <- EJ. reflexivity.
    + apply split_first_None in E. destruct E as [-> H]. intros P. apply parse_main_spec in P. destruct P as (-> & EP & B). rewrite EP. rewrite append_nil_r. split; [reflexivity|]. split; [exact B|constructor].
  - intros (-> & B & F). assert (MD := main_no "-" (major sv) (minor sv) (patch sv) ltac:(discriminate) dash_not_digit).
    destruct (prerelease sv) as [|q l] eqn:EP.
    + rewrite append_nil_r. rewrite (proj2 (split_first_None _ _ _) (conj eq_refl MD)). apply parse_main_spec. auto.
    + change ("-" ++ dotted (q :: l)) with (String "-" (dotted (q :: l))). rewrite (proj2 (split_first_Some _ _ _ _) (conj eq_refl MD)). rewrite <- join_dotted.
      assert (F2 : Forall word (q :: l)) by (eapply Forall_impl; [apply pre_part_word|exact F]).
      change "." with (String "." "") at 1 2. rewrite split_on_join; [|discriminate|apply words_no; [exact F2|exact dot_not_word]].
      rewrite (proj2 (forallb_Forall _ _ _ (q :: l) pre_id_spec) F). apply parse_main_spec. auto.
Qed.
Lemma version_no : forall c sv, c <> "."%char -> ~ word_char c -> Forall pre_part (prerelease sv) -> has_char c (version_text (major sv) (minor sv) (patch sv) (prerelease sv)) = false.
Proof.
  intros c sv N W F. rewrite main_text, has_char_app, main_no; [|exact N|]. 2:{ intros D. apply W. apply id_char_spec. unfold id_char. rewrite (proj2 (is_digit_iff c) D). reflexivity. }
  cbn [orb]. assert (X : has_char c (dotted (prerelease sv)) = false).
  { apply no_char_dotted; [exact N|]. apply words_no; [|exact W]. eapply Forall_impl; [apply pre_part_word|exact F]. }
  destruct (prerelease sv); [reflexivity|]. cbn [append has_char]. destruct (Ascii.eqb_spec "-" c) as [<-|]; [|exact X]. destruct W. reflexivity.
Qed.
Lemma parse_body_spec : forall t sv, parse_body t = Some sv <-> exists b, t = version_text (major sv) (minor sv) (patch sv) (prerelease sv) ++ b /\ bounded sv /\ Forall pre_part (prerelease sv) /\ build_ok b.
Proof.
  intros t sv. unfold parse_body. split.
  - destruct (split_first "+" t) as [front [b|]] eqn:E.
    + apply split_first_Some in E. destruct E as [-> H]. destruct (forallb build_id (split_on "." b)) eqn:F; [|discriminate]. intros P. apply parse_front_spec in P. destruct P as (-> & B & PP).
      exists (String "+" b). split; [reflexivity|]. split; [exact B|]. split; [exact PP|]. right. exists (split_on "." b). split; [apply split_on_nonnil|]. rewrite (forallb_Forall _ _ _ _ word_spec) in F. split; [exact F|].
      rewrite <- join_dotted. destruct (split_on_inv "." b) as [EJ _]. rewrite <- EJ. reflexivity.
    + apply split_first_None in E. destruct E as [-> H]. intros P. apply parse_front_spec in P. destruct P as (-> & B & PP). exists "". rewrite append_nil_r. split; [reflexivity|]. split; [exact B|]. split; [exact PP|left; reflexivity].
  - intros (b & -> & B & PP & OK). assert (NP : has_char "+" (version_text (major sv) (minor sv) (patch sv) (prerelease sv)) = false) by (apply version_no; [discriminate|apply not_word_char; reflexivity|exact PP]).
    destruct OK as [->|(l & NN & FL & ->)].
    + rewrite append_nil_r, (proj2 (split_first_None _ _ _) (conj eq_refl NP)). apply parse_front_spec. auto.
    + change ("+" ++ dotted l) with (String "+" (dotted l)). rewrite (proj2 (split_first_Some _ _ _ _) (conj eq_refl NP)). rewrite <- join_dotted.
      rewrite split_on_join; [|exact NN|apply words_no; [exact FL|exact dot_not_word]]. rewrite (proj2 (forallb_Forall _ _ _ l word_spec) FL). apply parse_front_spec. auto.
Qed.
Lemma solid_chars : forall s, (forall a, has_char a s = true -> word_char a \/ a = "."%char \/ a = "+"%char) -> solid s.
Proof.
  intros s H a Ha. destruct (H a Ha) as [W|[->| ->]]; [|reflexivity|reflexivity]. apply id_char_spec in W. destruct a as [[] [] [] [] [] [] [] []]; try discriminate; reflexivity.
Qed.
Lemma solid_word : forall s, word s -> solid s.
Proof. intros s [_ H]. apply solid_chars. intros a Ha. left. apply H, Ha. Qed.
Lemma solid_dotted : forall l, Forall word l -> solid (dotted l).
Proof.
  intros l F. induction l as [|x [|y l] IH]; [intros a Ha; discriminate|inversion F; apply solid_word; assumption|]. inversion F; subst. change (dotted (x :: y :: l)) with (x ++ String "." (dotted (y :: l))). apply solid_app. split; [apply solid_word; assumption|]. apply solid_cons. split; [reflexivity|apply IH; assumption].
Qed.
Lemma version_shape : forall x y z pre, exists a t, version_text x y z pre = String a t /\ digit a.
Proof.
  intros x y z pre. unfold version_text. destruct (numeral_digits x) as [D NE]. destruct D as [|a s HD D]; [congruence|]. cbn [append]. eauto.
Qed.
Lemma body_solid : forall sv b, Forall pre_part (prerelease sv) -> build_ok b -> solid (version_text (major sv) (minor sv) (patch sv) (prerelease sv) ++ b).
Proof.
  intros sv b F OK. apply solid_app. split.
  - rewrite main_text. apply solid_app. split.
    + rewrite !solid_app. repeat split; try (apply solid_word, numeral_word); apply solid_cons; (split; [reflexivity|intros a X; discriminate]).
    + destruct (prerelease sv) as [|q l] eqn:EP; [intros a X; discriminate|]. change ("-" ++ dotted (q :: l)) with (String "-" (dotted (q :: l))). apply solid_cons. split; [reflexivity|]. apply solid_dotted. eapply Forall_impl; [apply pre_part_word|exact F].
  - destruct OK as [->|(l & _ & FL & ->)]; [intros a X; discriminate|]. change ("+" ++ dotted l) with (String "+" (dotted l)). apply solid_cons. split; [reflexivity|apply solid_dotted, FL].
Qed.
Theorem parse_spec : forall s sv, parse s = Some sv <-> names_version s (major sv) (minor sv) (patch sv) (prerelease sv).
Proof.
  intros s sv. unfold parse, names_version. destruct (Nat.ltb_spec 256 (String.length s)) as [L|L]; [split; [discriminate|intros [X _]; lia]|].
  match goal with |- ?A = Some sv <-> ?B => change (parse_body (match js_trim s with String "v" t => t | t => t end) = Some sv <-> B) end. rewrite parse_body_spec. split.
  - intros (b & E & B & PP & OK). split; [exact L|]. split; [exact B|]. split; [exact PP|]. destruct (Proof_Install.trim_spec s) as (w1 & w2 & ES & W1 & W2).
    assert (X : exists v, js_trim s = v ++ version_text (major sv) (minor sv) (patch sv) (prerelease sv) ++ b /\ (v = "" \/ v = "v")).
    { destruct (js_trim s) as [|a t]; [exists ""; split; [exact E|auto]|]. destruct (ascii_dec a "v") as [->|N]; [exists "v"; split; [cbn in *; rewrite E; reflexivity|auto]|]. exists "". split; [|auto].
      rewrite <- E. destruct a as [[] [] [] [] [] [] [] []]; try reflexivity. congruence. }
    destruct X as (v & EV & HV). exists w1, v, b, w2. split; [|split; [exact W1|split; [exact W2|split; [exact HV|exact OK]]]].
    rewrite ES at 1. rewrite EV, !append_assoc. reflexivity.
  - intros (_ & B & PP & w1 & v & b & w2 & ES & W1 & W2 & HV & OK).
    exists b. split; [|split; [exact B|split; [exact PP|exact OK]]].
    assert (SB := body_solid sv b PP OK). destruct (version_shape (major sv) (minor sv) (patch sv) (prerelease sv)) as (a & t & EA & HA).
    assert (T : js_trim s = v ++ version_text (major sv) (minor sv) (patch sv) (prerelease sv) ++ b).
    { rewrite ES. replace (w1 ++ v ++ version_text (major sv) (minor sv) (patch sv) (prerelease sv) ++ b ++ w2) with (w1 ++ (v ++ version_text (major sv) (minor sv) (patch sv) (prerelease sv) ++ b) ++ w2) by (rewrite !append_assoc; reflexivity).
      apply trim_solid; [exact W1|exact W2| |].
      - apply solid_app. split; [|exact SB]. destruct HV as [->| ->]; [intros c X; discriminate|]. apply solid_cons. split; [reflexivity|intros c X; discriminate].
      - rewrite EA. destruct HV as [->| ->]; discriminate. }
    rewrite T. destruct HV as [->| ->]; [|reflexivity]. cbn [append]. rewrite EA. cbn [append]. unfold digit in HA. cbn [In] in HA. repeat destruct HA as [<-|HA]; try reflexivity. destruct HA.
Qed.
Lemma parse_names : forall s x y z pre, names_version s x y z pre <-> parse s = Some {| major := x; minor := y; patch := z; prerelease := pre |}.
Proof. intros s x y z pre. rewrite parse_spec. reflexivity. Qed.
Lemma parse_None : forall s, parse s = None <-> ~ names_a_version s.
Proof.
  intros s. split.
  - intros H (x & y & z & pre & N). apply parse_names in N. congruence.
  - intros H. destruct (parse s) as [[x y z pre]|] eqn:E; [|reflexivity]. apply parse_names in E. destruct H. exists x, y, z, pre. exact E.
Qed.
Lemma parse_front_version : forall s sv, parse s = Some sv -> parse_front (version sv) = Some sv.
Proof. intros s sv H. apply parse_spec in H. destruct H as (_ & B & F & _). apply parse_front_spec. rewrite version_eq. split; [reflexivity|]. split; [exact B|exact F]. Qed.
Lemma version_inj : forall s s' sv sv', parse s = Some sv -> parse s' = Some sv' -> version sv = version sv' -> sv = sv'.
Proof. intros s s' sv sv' H H' E. apply parse_front_version in H, H'. congruence. Qed.
