From Verif Require Import Lib LibFacts Str StrFacts Model_Names Model_Path Model_Graph Model_Release Model_Quote Model_Writer Model_Suffix Spec_Path Spec_Suffix Proof_Path Proof_Path2 Proof_Release3.
From Coq Require Import Lia.
Local Open Scope string_scope.

(** ** Replacing *)
Lemma replace_plain : forall p by_ a s, has_char "$" a = false -> replace (String "$" p) by_ (a ++ s) = a ++ replace (String "$" p) by_ s.
Proof.
  intros p by_ a s. unfold replace. induction a as [|x a IH]; intros H; [reflexivity|]. cbn [has_char] in H. destruct (Ascii.eqb_spec x "$") as [_|N]; [discriminate|].
  cbn [append replace_from String.prefix]. destruct (ascii_dec "$" x) as [E|_]; [congruence|]. rewrite (IH H). reflexivity.
Qed.
Lemma replace_none : forall p by_ a, has_char "$" a = false -> replace (String "$" p) by_ a = a.
Proof. intros p by_ a H. rewrite <- (append_nil_r a) at 1. rewrite replace_plain by exact H. cbn. apply append_nil_r. Qed.
Lemma replace_skip : forall p by_ a s, replace_from p by_ (String.length a) (a ++ s) = replace_from p by_ 0 s.
Proof. intros p by_ a s. induction a as [|x a IH]; [reflexivity|]. cbn [String.length append replace_from]. exact IH. Qed.
Lemma prefix_app : forall p s, String.prefix p (p ++ s) = true.
Proof. induction p as [|a p IH]; intros s; [destruct s; reflexivity|]. cbn. destruct (ascii_dec a a); [apply IH|congruence]. Qed.
Lemma replace_hit : forall a p by_ s, replace (String a p) by_ (String a p ++ s) = by_ ++ replace (String a p) by_ s.
Proof.
  intros a p by_ s. unfold replace. change (String a p ++ s) with (String a (p ++ s)). cbn [replace_from]. change (String a (p ++ s)) with (String a p ++ s). rewrite prefix_app.
  replace (String.length (String a p) - 1) with (String.length p) by (cbn [String.length]; lia). rewrite replace_skip. reflexivity.
Qed.
Lemma contains_none : forall p s, has_char "$" s = false -> contains (String "$" p) s = false.
Proof.
  intros p. induction s as [|x s IH]; intros H; [reflexivity|]. cbn [has_char] in H. destruct (Ascii.eqb_spec x "$") as [_|N]; [discriminate|]. cbn [contains String.prefix].
  destruct (ascii_dec "$" x); [congruence|]. apply IH, H.
Qed.
Lemma contains_skip : forall p a s, has_char "$" a = false -> contains (String "$" p) (a ++ s) = contains (String "$" p) s.
Proof.
  intros p. induction a as [|x a IH]; intros s H; [reflexivity|]. cbn [has_char] in H. destruct (Ascii.eqb_spec x "$") as [_|N]; [discriminate|]. cbn [append contains String.prefix].
  destruct (ascii_dec "$" x); [congruence|]. apply IH, H.
Qed.
Lemma expand_plain : forall t s, has_char "$" s = false -> expand t s = s.
Proof. intros t s H. unfold expand. rewrite (replace_none "(TOOLSET)") by exact H. apply replace_none, H. Qed.
Lemma obj_toolset : forall by_ s, replace "$(TOOLSET)" by_ ("$(obj)" ++ s) = "$(obj)" ++ replace "$(TOOLSET)" by_ s. Proof. reflexivity. Qed.
Lemma obj_target : forall by_ s, replace "$(TARGET)" by_ ("$(obj)" ++ s) = "$(obj)" ++ replace "$(TARGET)" by_ s. Proof. reflexivity. Qed.
Lemma src_toolset : forall by_ s, replace "$(TOOLSET)" by_ ("$(srcdir)" ++ s) = "$(srcdir)" ++ replace "$(TOOLSET)" by_ s. Proof. reflexivity. Qed.
Lemma src_target : forall by_ s, replace "$(TARGET)" by_ ("$(srcdir)" ++ s) = "$(srcdir)" ++ replace "$(TARGET)" by_ s. Proof. reflexivity. Qed.
Lemma target_toolset : forall by_ s, replace "$(TOOLSET)" by_ ("$(TARGET)" ++ s) = "$(TARGET)" ++ replace "$(TOOLSET)" by_ s. Proof. reflexivity. Qed.

Lemma expand_obj : forall t f, has_char "$" f = false -> expand t ("$(obj)" ++ f) = "$(obj)" ++ f.
Proof. intros t f H. unfold expand. rewrite obj_toolset, obj_target, (replace_none "(TOOLSET)") by exact H. rewrite (replace_none "(TARGET)") by exact H. reflexivity. Qed.
Lemma expand_src : forall t f, has_char "$" f = false -> expand t ("$(srcdir)" ++ f) = "$(srcdir)" ++ f.
Proof. intros t f H. unfold expand. rewrite src_toolset, src_target, (replace_none "(TOOLSET)") by exact H. rewrite (replace_none "(TARGET)") by exact H. reflexivity. Qed.
Lemma expand_target : forall t w f, has_char "$" w = false -> has_char "$" f = false -> expand t ("$(obj)" ++ w ++ "$(TARGET)" ++ f) = "$(obj)" ++ w ++ target_name t ++ f.
Proof.
  intros t w f Hw H. unfold expand. rewrite obj_toolset, (replace_plain "(TOOLSET)") by exact Hw. rewrite target_toolset, (replace_none "(TOOLSET)") by exact H.
  rewrite obj_target, (replace_plain "(TARGET)") by exact Hw. rewrite (replace_hit "$" "(TARGET)"), (replace_none "(TARGET)") by exact H. reflexivity.
Qed.
Lemma expand_both : forall t f, has_char "$" (toolset t) = false -> has_char "$" f = false -> expand t ("$(obj).$(TOOLSET)/$(TARGET)" ++ f) = "$(obj)." ++ toolset t ++ "/" ++ target_name t ++ f.
Proof.
  intros t f Hs H. unfold expand. change ("$(obj).$(TOOLSET)/$(TARGET)" ++ f) with ("$(obj)" ++ "." ++ "$(TOOLSET)" ++ "/" ++ "$(TARGET)" ++ f).
  rewrite obj_toolset, (replace_plain "(TOOLSET)") by reflexivity. rewrite (replace_hit "$" "(TOOLSET)"), (replace_plain "(TOOLSET)") by reflexivity. rewrite target_toolset, (replace_none "(TOOLSET)") by exact H.
  rewrite obj_target, (replace_plain "(TARGET)") by reflexivity. rewrite (replace_plain "(TARGET)" _ (toolset t)) by exact Hs. rewrite (replace_plain "(TARGET)" _ "/") by reflexivity.
  rewrite (replace_hit "$" "(TARGET)"), (replace_none "(TARGET)") by exact H. reflexivity.
Qed.

(** ** Extensions *)
Lemma language_dot : forall e c, In (e, c) languages -> exists r, e = String "." r /\ has_char "." r = false /\ has_char "/" e = false /\ has_char "$" e = false /\ r <> "".
Proof. intros e c H. cbn in H. repeat (destruct H as [H|H]; [injection H as <- _; eexists; repeat split; reflexivity || discriminate|]). destruct H. Qed.
Lemma language_same : forall a e c a' e' c', In (e, c) languages -> In (e', c') languages -> a ++ e = a' ++ e' -> a = a' /\ e = e' /\ c = c'.
Proof.
  intros a e c a' e' c' I I' E. destruct (language_dot _ _ I) as (r & -> & D & _), (language_dot _ _ I') as (r' & -> & D' & _).
  assert (A : rsplit1 "." (a ++ String "." r) = Some (a, r)) by (apply rsplit1_Some; auto). assert (A' : rsplit1 "." (a' ++ String "." r') = Some (a', r')) by (apply rsplit1_Some; auto).
  rewrite E, A' in A. injection A as -> ->. repeat split. cbn in I, I'.
  repeat (destruct I as [I|I]; [injection I as <- <-; repeat (destruct I' as [I'|I']; [try discriminate I'; injection I' as <-; reflexivity|]); destruct I'|]). destruct I.
Qed.
Lemma not_dots : forall n, plain_name n -> only_dots n = false.
Proof.
  intros n (_ & _ & a & c & b & -> & N). induction a as [|x a IH]; cbn.
  - destruct (Ascii.eqb_spec c "."); [contradiction|reflexivity].
  - rewrite IH. apply andb_false_r.
Qed.
Lemma splitext_plain : forall d n e c, d = "" \/ (exists p, d = p ++ "/") -> plain_name n -> In (e, c) languages -> splitext (d ++ n ++ e) = (d ++ n, e).
Proof.
  intros d n e c D N I. destruct (language_dot _ _ I) as (r & -> & Dr & S & _). pose proof (not_dots n N) as O. destruct N as (Sn & _).
  assert (B : has_char "/" (n ++ String "." r) = false) by (rewrite has_char_app, Sn, S; reflexivity).
  assert (R : rsplit1 "." (n ++ String "." r) = Some (n, r)) by (apply rsplit1_Some; auto). unfold splitext.
  destruct D as [->|(p & ->)].
  - cbn [append]. rewrite (proj2 (rsplit1_None "/" _) B), R, O. reflexivity.
  - assert (X : rsplit1 "/" ((p ++ "/") ++ n ++ String "." r) = Some (p, n ++ String "." r)) by (apply rsplit1_Some; split; [rewrite append_assoc; reflexivity|exact B]).
    rewrite X, R, O. rewrite append_assoc. reflexivity.
Qed.

(** ** Paths *)
Lemma rstrip_kept : forall c m, m <> "" -> has_char c m = false -> rstrip c m = m.
Proof.
  intros c. induction m as [|x m IH]; intros N H; [congruence|]. cbn [has_char] in H. destruct (Ascii.eqb_spec x c) as [|Q]; [discriminate|]. cbn [rstrip].
  destruct m as [|y m]; [cbn; destruct (Ascii.eqb_spec x c); congruence|]. rewrite IH by (discriminate || exact H). reflexivity.
Qed.
Lemma rstrip_app : forall c a m, m <> "" -> has_char c m = false -> rstrip c (a ++ m) = a ++ m.
Proof.
  intros c a m N H. induction a as [|x a IH]; [apply rstrip_kept; assumption|]. cbn [append rstrip]. rewrite IH. destruct (a ++ m) as [|y q] eqn:E; [|reflexivity].
  destruct a; [contradiction|discriminate].
Qed.
Lemma app_nonempty : forall a m, m <> "" -> a ++ m <> "".
Proof. intros [|x a] m N; [exact N|discriminate]. Qed.
Definition dirlike (q : string) : Prop := q = "" \/ exists p, q = p ++ "/".
Lemma concat_snoc : forall l m, String.concat "/" (l ++ [m])%list = (match l with [] => "" | _ => String.concat "/" l ++ "/" end) ++ m.
Proof.
  induction l as [|a l IH]; intros m; [reflexivity|]. change ((a :: l) ++ [m])%list with (a :: (l ++ [m]))%list. rewrite concat_cons, IH. destruct l as [|b l]; [cbn [append String.concat]; rewrite append_assoc; reflexivity|].
  change ((b :: l) ++ [m])%list with (b :: (l ++ [m]))%list. cbn iota. rewrite (concat_cons "/" a (b :: l)). cbn iota. rewrite !append_assoc. reflexivity.
Qed.
Lemma norm_last : forall q, dirlike q -> isabs q = false -> exists f, dirlike f /\ isabs f = false /\ (has_char "$" q = false -> has_char "$" f = false) /\
  forall m, has_char "/" m = false -> m <> "" -> m <> "." -> m <> ".." -> normpath (q ++ m) = f ++ m.
Proof.
  intros q D A.
  set (l := match q with "" => [] | _ => norm_comps false [] (split_char slash q) end).
  exists (match rev l with [] => "" | _ => String.concat "/" (rev l) ++ "/" end).
  split; [destruct (rev l); [left; reflexivity|right; eauto]|]. split; [|split].
  - assert (P : forall c, In c (rev l) -> has_char slash c = false /\ c <> "").
    { intros c Hc. apply in_rev in Hc. unfold l in Hc. destruct q as [|y q]; [destruct Hc|]. destruct (norm_comps_props false (split_char slash (String y q)) [] (split_char_no_char slash _) (fun c H => match H with end) c Hc) as (P1 & P2 & _). split; assumption. }
    destruct (rev l) as [|a r] eqn:E; [reflexivity|]. assert (K : String.concat "/" (a :: r) <> "") by (apply concat_nonempty; [intros c Hc; apply P; exact Hc|discriminate]).
    pose proof (concat_not_abs _ P) as Q. destruct (String.concat "/" (a :: r)) as [|z v]; [congruence|exact Q].
  - intros H. destruct (rev l) as [|a r] eqn:E; [reflexivity|]. rewrite has_char_app. change (has_char "$" "/") with false. rewrite orb_false_r. apply has_char_concat; [discriminate|].
    intros x Hx. rewrite <- E in Hx. apply in_rev in Hx. unfold l in Hx. destruct q as [|y q]; [destruct Hx|]. destruct (norm_comps_subset _ _ _ _ Hx) as [[]|K]. exact (split_char_other _ _ _ _ H K).
  - intros m S N1 N2 N3.
    assert (C : norm_comps false [] (split_char slash (q ++ m)) = m :: l).
    { assert (M : forall acc, norm_comps false acc [m] = m :: acc).
      { intros acc. cbn [norm_comps]. destruct (String.eqb_spec m "") as [|_]; [contradiction|]. destruct (String.eqb_spec m dot) as [|_]; [contradiction|].
        destruct (String.eqb_spec m dotdot) as [|_]; [contradiction|]. reflexivity. }
      unfold l. destruct D as [->|(p & ->)].
      - cbn [append]. rewrite split_char_none by exact S. apply M.
      - assert (E : (p ++ "/") ++ m = p ++ String slash m) by (rewrite append_assoc; reflexivity).
        assert (E' : match p ++ "/" with "" => [] | _ => norm_comps false [] (split_char slash (p ++ "/")) end = norm_comps false [] (split_char slash p)).
        { assert (Q : split_char slash (p ++ "/") = (split_char slash p ++ [""])%list) by (change "/" with (String slash ""); rewrite split_char_sep; reflexivity).
          rewrite Q, norm_comps_app. destruct p; reflexivity. }
        rewrite E, E', split_char_sep, norm_comps_app, (split_char_none slash m S). apply M. }
    assert (A' : isabs (q ++ m) = false).
    { destruct D as [->|(p & ->)]; [|destruct p; exact A]. cbn [append]. destruct m as [|y m]; [reflexivity|]. cbn [isabs has_char] in *. unfold slash in *. destruct (Ascii.eqb y "/"); [discriminate|reflexivity]. }
    unfold normpath. rewrite A', C. cbn [rev]. unfold sep. rewrite concat_snoc.
    destruct (q ++ m) as [|y w] eqn:E; [destruct q; [cbn in E; congruence|discriminate]|].
    assert (I : initial_slashes (String y w) = "") by (cbn [initial_slashes isabs] in *; rewrite A'; reflexivity). rewrite I. cbn [append].
    destruct ((match rev l with [] => "" | _ => String.concat "/" (rev l) ++ "/" end) ++ m) as [|z v] eqn:F; [|reflexivity].
    destruct (app_nonempty _ _ N1 F).
Qed.
Lemma ends_slash_snoc : forall p, ends_slash p = true -> exists q, p = q ++ "/".
Proof.
  induction p as [|a p IH]; intros H; [discriminate|]. destruct p as [|b p]; [cbn in H; apply Ascii.eqb_eq in H; subst a; exists ""; reflexivity|].
  destruct (IH H) as (q & E). exists (String a q). rewrite E. reflexivity.
Qed.
Lemma join_dir : forall p d, dirlike d -> (forall r, d <> String "/" r) -> (forall r, p <> String "/" r) -> exists q, dirlike q /\ isabs q = false /\
  (has_char "$" p = false -> has_char "$" d = false -> has_char "$" q = false) /\ forall m, has_char "/" m = false -> m <> "" -> path_join p (d ++ m) = q ++ m.
Proof.
  intros p d D A P. assert (AP : isabs p = false) by (destruct p as [|x p]; [reflexivity|]; cbn; destruct (Ascii.eqb_spec x slash) as [E|]; [unfold slash in E; subst; destruct (P p eq_refl)|reflexivity]).
  assert (AD : forall m, has_char "/" m = false -> isabs (d ++ m) = false).
  { intros m S. destruct d as [|x d]; [destruct m as [|y m]; [reflexivity|]; cbn [append isabs has_char] in *; unfold slash; destruct (Ascii.eqb y "/"); [discriminate|reflexivity]|].
    cbn. destruct (Ascii.eqb_spec x slash) as [E|]; [unfold slash in E; subst; destruct (A d eq_refl)|reflexivity]. }
  assert (AD0 : isabs d = false) by (specialize (AD "" eq_refl); rewrite append_nil_r in AD; exact AD).
  unfold path_join. destruct (String.eqb_spec p "") as [->|NP].
  - exists d. repeat split; auto. intros m S _. rewrite AD by exact S. reflexivity.
  - destruct (ends_slash p) eqn:E.
    + exists (p ++ d). repeat split.
      * destruct D as [->|(r & ->)]; [rewrite append_nil_r; destruct (ends_slash_snoc p E) as (q & ->); right; eauto|right; exists (p ++ r); rewrite append_assoc; reflexivity].
      * destruct p; [congruence|exact AP].
      * intros. rewrite has_char_app, H, H0. reflexivity.
      * intros m S _. rewrite AD by exact S. cbn [orb]. rewrite append_assoc. reflexivity.
    + exists (p ++ "/" ++ d). repeat split.
      * destruct D as [->|(r & ->)]; [right; exists p; reflexivity|right; exists (p ++ "/" ++ r); rewrite !append_assoc; reflexivity].
      * destruct p; [congruence|exact AP].
      * intros. rewrite !has_char_app, H, H0. reflexivity.
      * intros m S _. rewrite AD by exact S. cbn [orb]. rewrite !append_assoc. reflexivity.
Qed.

(** ** Objects and their sources *)
Definition head_of (t : target) : string := "$(obj)." ++ toolset t ++ "/" ++ target_name t ++ "/".
Lemma name_ext : forall n e c, plain_name n -> In (e, c) languages -> has_char "/" (n ++ e) = false /\ has_char "$" (n ++ e) = false /\ n ++ e <> "" /\ n ++ e <> "." /\ n ++ e <> "..".
Proof.
  intros n e c (S & D & a & x & b & -> & N) I. destruct (language_dot _ _ I) as (r & -> & _ & S' & D' & R). rewrite (has_char_app "/" _ (String "." r)), (has_char_app "$" _ (String "." r)), S, D. cbn [has_char] in S', D'. 
  cbn [orb]. split; [exact S'|]. split; [exact D'|]. rewrite append_assoc. cbn [append].
  repeat split.
  - destruct a; discriminate.
  - destruct a as [|y [|z a]]; cbn; intros Q; injection Q; intros; try congruence; destruct b; discriminate.
  - destruct a as [|y [|z a]]; cbn; intros Q; injection Q; intros; try congruence. destruct a; discriminate.
Qed.
Lemma dot_o : forall n, plain_name n -> has_char "/" (n ++ ".o") = false /\ has_char "$" (n ++ ".o") = false /\ n ++ ".o" <> "" /\ n ++ ".o" <> "." /\ n ++ ".o" <> "..".
Proof.
  intros n (S & D & a & x & b & -> & N). rewrite (has_char_app "/" _ ".o"), (has_char_app "$" _ ".o"), S, D. repeat split; rewrite append_assoc; cbn [append].
  - destruct a; discriminate.
  - destruct a as [|y [|z a]]; cbn; intros Q; injection Q; intros; try congruence; destruct b; discriminate.
  - destruct a as [|y [|z a]]; cbn; intros Q; injection Q; intros; try congruence. destruct a; discriminate.
Qed.
Lemma name_nonempty : forall n, plain_name n -> n <> "".
Proof. intros n (_ & _ & a & c & b & -> & _). destruct a; discriminate. Qed.
Lemma assoc_language : forall e c, In (e, c) languages -> assoc e extensions = Some c.
Proof. intros e c H. cbn in H. repeat (destruct H as [H|H]; [injection H as <- <-; reflexivity|]). destruct H. Qed.

Lemma shape : forall t s e c, plain_names t -> plain_source s e c -> exists f st,
  source_at t s f c /\ st <> "" /\ object_of t s = head_of t ++ st ++ ".o" /\ input t s = f /\
  (f = "$(srcdir)/" ++ st ++ e \/ f = "$(obj)/" ++ st ++ e \/ f = head_of t ++ st ++ e) /\ snd (splitext s) = e /\ compiler s = c.
Proof.
  intros t s e c (PT & PS & PD & PA) (I & d & n & D & N & C). destruct D as [DD DL].
  destruct (name_ext n e c N I) as (S1 & S2 & S3 & S4 & S5). destruct (dot_o n N) as (O1 & O2 & O3 & O4 & O5). pose proof (assoc_language e c I) as AL.
  destruct PT as (_ & TD & _), PS as (_ & SD & _). destruct C as [(A & ->)|[-> | ->]].
  - destruct (join_dir (path t) d DL A PA) as (q & QL & QA & QD & QJ). destruct (norm_last q QL QA) as (f & FL & FA & FD & FN). specialize (FD (QD PD DD)).
    assert (X : has_char "$" (d ++ n ++ e) = false) by (rewrite has_char_app, DD; exact S2).
    assert (Y : has_char "$" (d ++ n ++ ".o") = false) by (rewrite has_char_app, DD; exact O2).
    assert (IN : absolutify t (d ++ n ++ e) = f ++ n ++ e).
    { unfold absolutify. rewrite (contains_none "(") by exact X. rewrite QJ by assumption. apply FN; assumption. }
    assert (OB : absolutify t (d ++ n ++ ".o") = f ++ n ++ ".o").
    { unfold absolutify. rewrite (contains_none "(") by exact Y. rewrite QJ by assumption. apply FN; assumption. }
    assert (Z : has_char "$" (f ++ n ++ e) = false) by (rewrite has_char_app, FD; exact S2).
    assert (W : has_char "$" (f ++ n ++ ".o") = false) by (rewrite has_char_app, FD; exact O2).
    assert (NA : isabs (f ++ n ++ e) = false).
    { destruct f as [|y f]; [|exact FA]. cbn [append]. destruct (n ++ e) as [|y m]; [reflexivity|]. cbn [isabs has_char] in *. unfold slash in *. destruct (Ascii.eqb y "/"); [discriminate|reflexivity]. }
    exists ("$(srcdir)/" ++ f ++ n ++ e), (f ++ n). split; [|split; [|split; [|split; [|split; [|split]]]]].
    + apply (in_tree t d n e c); [split; assumption|exact A|exact N|exact I| |].
      * intros r E. rewrite E in NA. discriminate.
      * intros here. rewrite <- IN. unfold absolutify. rewrite (contains_none "(") by exact X. rewrite locate_normpath, locate_join. reflexivity.
    + apply app_nonempty, name_nonempty, N.
    + unfold object_of, object_name. rewrite (splitext_plain d n e c DL N I). cbn [fst]. rewrite append_assoc, OB. unfold objectify. rewrite (contains_none "(") by exact W. rewrite (contains_none "(obj)") by exact W.
      transitivity (expand t ("$(obj)" ++ ("." ++ toolset t ++ "/") ++ "$(TARGET)" ++ "/" ++ f ++ n ++ ".o")); [f_equal; rewrite !append_assoc; reflexivity|].
      rewrite expand_target; [|rewrite !has_char_app, SD; reflexivity|rewrite has_char_app, W; reflexivity]. unfold head_of. rewrite !append_assoc. reflexivity.
    + unfold input. rewrite IN. unfold sourceify. rewrite (contains_none "(") by exact Z. rewrite NA. apply (expand_src t ("/" ++ f ++ n ++ e)). rewrite has_char_app, Z. reflexivity.
    + left. rewrite append_assoc. reflexivity.
    + rewrite (splitext_plain d n e c DL N I). reflexivity.
    + unfold compiler. rewrite (splitext_plain d n e c DL N I). cbn [snd]. rewrite AL. reflexivity.
  - assert (DL' : dirlike ("$(obj)/" ++ d)) by (destruct DL as [->|(p & ->)]; right; [exists "$(obj)"|exists ("$(obj)/" ++ p)]; reflexivity).
    assert (SX : splitext ("$(obj)/" ++ d ++ n ++ e) = (("$(obj)/" ++ d) ++ n, e)) by (rewrite <- (splitext_plain ("$(obj)/" ++ d) n e c DL' N I); rewrite append_assoc; reflexivity).
    assert (AB : forall m, has_char "/" m = false -> m <> "" -> absolutify t ("$(obj)/" ++ d ++ m) = "$(obj)/" ++ d ++ m).
    { intros m Q1 Q2. unfold absolutify. change (contains "$(" ("$(obj)/" ++ d ++ m)) with true. cbn iota. rewrite <- append_assoc. apply rstrip_app; assumption. }
    exists ("$(obj)/" ++ d ++ n ++ e), (d ++ n). split; [|split; [|split; [|split; [|split; [|split]]]]].
    + apply (shared t d n e c); [split; assumption|exact N|exact I].
    + apply app_nonempty, name_nonempty, N.
    + unfold object_of, object_name. rewrite SX. cbn [fst]. rewrite !append_assoc, AB by assumption. unfold objectify. change (contains "$(" ("$(obj)/" ++ d ++ n ++ ".o")) with true. cbn iota.
      rewrite (replace_hit "$" "(obj)/"), (replace_none "(obj)/") by (rewrite has_char_app, DD; exact O2).
      transitivity (expand t ("$(obj)" ++ ("." ++ toolset t ++ "/") ++ "$(TARGET)" ++ "/" ++ d ++ n ++ ".o")); [f_equal; rewrite !append_assoc; reflexivity|].
      rewrite expand_target; [|rewrite !has_char_app, SD; reflexivity|rewrite !has_char_app, DD; rewrite has_char_app in O2; rewrite O2; reflexivity]. unfold head_of. rewrite !append_assoc. reflexivity.
    + unfold input. rewrite AB by assumption. unfold sourceify. change (contains "$(" ("$(obj)/" ++ d ++ n ++ e)) with true. cbn iota. apply (expand_obj t ("/" ++ d ++ n ++ e)). rewrite !has_char_app, DD. rewrite has_char_app in S2. rewrite S2. reflexivity.
    + right. left. rewrite append_assoc. reflexivity.
    + rewrite SX. reflexivity.
    + unfold compiler. rewrite SX. cbn [snd]. rewrite AL. reflexivity.
  - assert (DL' : dirlike ("$(obj).$(TOOLSET)/$(TARGET)/" ++ d)) by (destruct DL as [->|(p & ->)]; right; [exists "$(obj).$(TOOLSET)/$(TARGET)"|exists ("$(obj).$(TOOLSET)/$(TARGET)/" ++ p)]; reflexivity).
    assert (SX : splitext ("$(obj).$(TOOLSET)/$(TARGET)/" ++ d ++ n ++ e) = (("$(obj).$(TOOLSET)/$(TARGET)/" ++ d) ++ n, e)) by (rewrite <- (splitext_plain ("$(obj).$(TOOLSET)/$(TARGET)/" ++ d) n e c DL' N I); rewrite append_assoc; reflexivity).
    assert (AB : forall m, has_char "/" m = false -> m <> "" -> absolutify t ("$(obj).$(TOOLSET)/$(TARGET)/" ++ d ++ m) = "$(obj).$(TOOLSET)/$(TARGET)/" ++ d ++ m).
    { intros m Q1 Q2. unfold absolutify. change (contains "$(" ("$(obj).$(TOOLSET)/$(TARGET)/" ++ d ++ m)) with true. cbn iota. rewrite <- append_assoc. apply rstrip_app; assumption. }
    assert (EX : forall m, has_char "$" m = false -> expand t ("$(obj).$(TOOLSET)/$(TARGET)/" ++ m) = head_of t ++ m).
    { intros m H. transitivity (expand t ("$(obj).$(TOOLSET)/$(TARGET)" ++ "/" ++ m)); [reflexivity|]. rewrite expand_both; [|exact SD|rewrite has_char_app, H; reflexivity]. unfold head_of. rewrite !append_assoc. reflexivity. }
    exists (head_of t ++ d ++ n ++ e), (d ++ n). split; [|split; [|split; [|split; [|split; [|split]]]]].
    + unfold head_of. rewrite !append_assoc. apply (private t d n e c); [split; assumption|exact N|exact I].
    + apply app_nonempty, name_nonempty, N.
    + unfold object_of, object_name. rewrite SX. cbn [fst]. rewrite !append_assoc, AB by assumption. unfold objectify. change (contains "$(" ("$(obj).$(TOOLSET)/$(TARGET)/" ++ d ++ n ++ ".o")) with true. cbn iota.
      assert (RP : replace "$(obj)/" ("$(obj)." ++ toolset t ++ "/$(TARGET)/") ("$(obj).$(TOOLSET)/$(TARGET)/" ++ d ++ n ++ ".o") = "$(obj).$(TOOLSET)/$(TARGET)/" ++ d ++ n ++ ".o").
      { transitivity ("$(obj).$(TOOLSET)/$(TARGET)/" ++ replace "$(obj)/" ("$(obj)." ++ toolset t ++ "/$(TARGET)/") (d ++ n ++ ".o")); [reflexivity|].
        rewrite (replace_none "(obj)/") by (rewrite has_char_app, DD; exact O2). reflexivity. }
      rewrite RP. change (contains "$(obj)" ("$(obj).$(TOOLSET)/$(TARGET)/" ++ d ++ n ++ ".o")) with true. cbn iota. apply EX. rewrite has_char_app, DD. exact O2.
    + unfold input. rewrite AB by assumption. unfold sourceify. change (contains "$(" ("$(obj).$(TOOLSET)/$(TARGET)/" ++ d ++ n ++ e)) with true. cbn iota. apply EX. rewrite has_char_app, DD. exact S2.
    + right. right. rewrite append_assoc. reflexivity.
    + rewrite SX. reflexivity.
    + unfold compiler. rewrite SX. cbn [snd]. rewrite AL. reflexivity.
Qed.

(** ** Patterns *)
Lemma before_o_iff : forall r s, before_o r = Some s <-> r = s ++ ".o".
Proof.
  induction r as [|a r IH]; intros s; [split; [discriminate|destruct s; discriminate]|]. cbn [before_o].
  destruct (String.eqb_spec (String a r) ".o") as [E|NE].
  - split; [intros H; injection H as <-; exact E|]. intros H. rewrite E in H. destruct s as [|x [|y [|z s]]]; [reflexivity|discriminate..].
  - destruct (before_o r) as [u|] eqn:E.
    + pose proof (proj1 (IH u) eq_refl) as ->. cbn [option_map]. split; [intros H; injection H as <-; reflexivity|].
      destruct s as [|x s]; [intros H; destruct (NE H)|]. cbn. intros H. injection H as -> H. apply (proj2 (IH s)) in H. congruence.
    + split; [discriminate|]. destruct s as [|x s]; [intros H; destruct (NE H)|]. cbn. intros H. injection H as _ H. apply (proj2 (IH s)) in H. discriminate.
Qed.
Lemma stem_iff : forall p x s, stem p x = Some s <-> x = goal p ++ s ++ ".o" /\ s <> "".
Proof.
  intros p x s. unfold stem. destruct (after_prefix (goal p) x) as [r|] eqn:E.
  - apply after_prefix_Some in E. subst x. destruct (before_o r) as [u|] eqn:F.
    + pose proof (proj1 (before_o_iff r u) F) as ->. destruct u as [|a u].
      * split; [discriminate|]. intros (H & N). apply append_inj_l in H. apply (proj2 (before_o_iff _ _)) in H. rewrite F in H. congruence.
      * split; [intros H; injection H as <-; split; [reflexivity|discriminate]|]. intros (H & N). apply append_inj_l in H. apply (proj2 (before_o_iff _ _)) in H. rewrite F in H. exact H.
    + split; [discriminate|]. intros (H & _). apply append_inj_l in H. apply (proj2 (before_o_iff _ _)) in H. congruence.
  - split; [discriminate|]. intros (-> & _). assert (K : after_prefix (goal p) (goal p ++ s ++ ".o") = Some (s ++ ".o")) by (apply after_prefix_Some; reflexivity). congruence.
Qed.
Lemma candidate_iff : forall p x c, candidate p x = Some c <-> exists s, s <> "" /\ x = goal p ++ s ++ ".o" /\ c = from p ++ s ++ ext p.
Proof.
  intros p x c. unfold candidate. destruct (stem p x) as [s|] eqn:E.
  - apply stem_iff in E. destruct E as [-> N]. cbn. split; [intros H; injection H as <-; exists s; auto|]. intros (u & _ & H & ->). apply append_inj_l in H.
    assert (before_o (s ++ ".o") = Some u) by (apply before_o_iff; exact H). assert (before_o (s ++ ".o") = Some s) by (apply before_o_iff; reflexivity). congruence.
  - split; [discriminate|]. intros (s & N & -> & _). assert (K : stem p (goal p ++ s ++ ".o") = Some s) by (apply stem_iff; auto). congruence.
Qed.
Lemma shortest_In : forall x ps p, shortest x ps = Some p -> In p ps.
Proof.
  intros x. induction ps as [|q ps IH]; intros p H; [discriminate|]. cbn [shortest] in H. destruct (shortest x ps) as [r|]; [|injection H as <-; left; reflexivity].
  destruct (Nat.ltb _ _) in H; injection H as <-; [right; apply IH; reflexivity|left; reflexivity].
Qed.
Lemma shortest_Some : forall x ps p, In p ps -> exists q, shortest x ps = Some q.
Proof. intros x [|q ps] p H; [destruct H|]. cbn [shortest]. destruct (shortest x ps) as [r|]; [destruct (Nat.ltb _ _)|]; eauto. Qed.
Lemma chosen_only : forall available ps x f c, available f = true -> (exists p, In p ps /\ candidate p x = Some f) ->
  (forall p k, In p ps -> candidate p x = Some k -> available k = true -> k = f /\ tool p = c) -> chosen available ps x = Some (f, c).
Proof.
  intros available ps x f c A (p & I & C) U. unfold chosen.
  assert (J : In p (filter (usable available x) ps)) by (apply filter_In; split; [exact I|unfold usable; rewrite C; exact A]).
  destruct (shortest_Some x _ p J) as (q & Q). rewrite Q. apply shortest_In, filter_In in Q. destruct Q as [Iq Uq]. unfold usable in Uq. destruct (candidate q x) as [k|] eqn:K; [|discriminate].
  destruct (U q k Iq K Uq) as [-> ->]. reflexivity.
Qed.
Lemma three_In : forall g ts es p, In p (three g ts es) <-> exists d e c, (d = "$(srcdir)/" \/ d = "$(obj)." ++ ts ++ "/" \/ d = "$(obj)/") /\ In (e, c) es /\ p = {| goal := g; from := d; ext := e; tool := c |}.
Proof.
  intros g ts es p. unfold three. rewrite in_flat_map. split.
  - intros (d & D & H). apply in_map_iff in H. destruct H as ([e c] & <- & H). exists d, e, c. split; [|auto]. cbn in D. intuition.
  - intros (d & e & c & D & H & ->). exists d. split; [cbn; intuition|]. apply in_map_iff. exists (e, c). auto.
Qed.
Lemma sorted_language : forall e c, In (e, c) sorted_extensions <-> In (e, c) languages. Proof. intros e c. cbn. tauto. Qed.
Lemma extension_language : forall e c, assoc e extensions = Some c <-> In (e, c) languages.
Proof. intros e c. split; [intros H; apply assoc_In in H; exact H|apply assoc_language]. Qed.

Lemma patterns_In : forall toolsets ts order p, In p (patterns toolsets ts order) -> (forall w, In w toolsets -> exists u, In u ts /\ toolset u = w) ->
  exists u d e c, In u ts /\ (goal p = "$(obj)." ++ toolset u ++ "/" \/ goal p = head_of u) /\ (d = "$(srcdir)/" \/ d = "$(obj)." ++ toolset u ++ "/" \/ d = "$(obj)/") /\ In (e, c) languages /\ from p = d /\ ext p = e /\ tool p = c.
Proof.
  intros toolsets ts order p H T. unfold patterns in H. apply in_app_or in H. destruct H as [H|H]; apply in_flat_map in H; destruct H as (w & W & H).
  - destruct (T w W) as (u & U & <-). unfold root_patterns in H. apply three_In in H. destruct H as (d & e & c & D & E & ->). apply sorted_language in E. exists u, d, e, c. cbn [goal from ext tool]. auto 10.
  - unfold target_patterns in H. destruct (compiled w); [destruct H|]. apply three_In in H. destruct H as (d & e & c & D & E & ->). apply in_flat_map in E. destruct E as (k & _ & E).
    destruct (assoc k extensions) as [v|] eqn:K; [|destruct E]. destruct E as [E|[]]. injection E as <- <-. apply extension_language in K. exists w, d, k, v. cbn [goal from ext tool]. auto 10.
Qed.
Lemma candidate_fits : forall toolsets ts order p x k, In p (patterns toolsets ts order) -> (forall w, In w toolsets -> exists u, In u ts /\ toolset u = w) ->
  candidate p x = Some k -> fits ts x k /\ exists a e, k = a ++ e /\ In (e, tool p) languages.
Proof.
  intros toolsets ts order p x k H T C. destruct (patterns_In _ _ _ _ H T) as (u & d & e & c & U & G & D & L & F & E & O). apply candidate_iff in C. destruct C as (s & N & -> & ->). rewrite F, E, O. split.
  - exists u, s, d, e, c. repeat split; try assumption. destruct G as [-> | ->]; [left|right]; unfold head_of; rewrite !append_assoc; reflexivity.
  - exists (d ++ s), e. rewrite append_assoc. auto.
Qed.
Theorem compiled_from : forall toolsets ts order available t s e c,
  (forall w, In w toolsets <-> exists u, In u ts /\ toolset u = w) ->
  (forall u, In u ts -> forall e, In e (order u) <-> In e (used_extensions u)) ->
  In t ts -> plain_names t -> plain_source s e c -> In s (compiled t) ->
  exists f, source_at t s f c /\ (available f = true -> (forall k, available k = true -> fits ts (object_of t s) k -> k = f) ->
    chosen available (patterns toolsets ts order) (object_of t s) = Some (f, c)).
Proof.
  intros toolsets ts order available t s e c T O I P S K. destruct (shape t s e c P S) as (f & st & SA & NE & OB & IN & F & SX & CO). exists f. split; [exact SA|]. intros AV UN.
  destruct S as (L & _). apply chosen_only; [exact AV| |].
  - rewrite OB. destruct F as [-> | [-> | ->]].
    + exists {| goal := head_of t; from := "$(srcdir)/"; ext := e; tool := c |}. split; [|apply candidate_iff; exists st; auto].
      unfold patterns. apply in_or_app. right. apply in_flat_map. exists t. split; [exact I|]. unfold target_patterns. destruct (compiled t) as [|s0 l] eqn:CT; [destruct K|].
      apply three_In. exists "$(srcdir)/", e, c. split; [auto|]. split; [|reflexivity]. apply in_flat_map. exists e. split; [|rewrite (proj2 (extension_language e c) L); left; reflexivity].
      apply (O t I). unfold used_extensions. rewrite <- SX. apply (in_map (fun s => snd (splitext s))). rewrite CT. exact K.
    + exists {| goal := head_of t; from := "$(obj)/"; ext := e; tool := c |}. split; [|apply candidate_iff; exists st; auto].
      unfold patterns. apply in_or_app. right. apply in_flat_map. exists t. split; [exact I|]. unfold target_patterns. destruct (compiled t) as [|s0 l] eqn:CT; [destruct K|].
      apply three_In. exists "$(obj)/", e, c. split; [auto|]. split; [|reflexivity]. apply in_flat_map. exists e. split; [|rewrite (proj2 (extension_language e c) L); left; reflexivity].
      apply (O t I). unfold used_extensions. rewrite <- SX. apply (in_map (fun s => snd (splitext s))). rewrite CT. exact K.
    + exists {| goal := "$(obj)." ++ toolset t ++ "/"; from := "$(obj)." ++ toolset t ++ "/"; ext := e; tool := c |}. split.
      * unfold patterns. apply in_or_app. left. apply in_flat_map. exists (toolset t). split; [apply T; eauto|]. apply three_In. exists ("$(obj)." ++ toolset t ++ "/"), e, c. split; [auto|]. split; [apply sorted_language, L|reflexivity].
      * apply candidate_iff. exists (target_name t ++ "/" ++ st). cbn [goal from ext]. unfold head_of. rewrite !append_assoc. split; [|auto]. apply app_nonempty. discriminate.
  - intros p k IP C A. destruct (candidate_fits toolsets ts order p _ k IP (fun w W => proj1 (T w) W) C) as (FT & a & e' & E & L').
    assert (KF : k = f) by (apply UN; assumption). split; [exact KF|]. rewrite KF in E. assert (FE : exists b, f = b ++ e).
    { destruct F as [-> | [-> | ->]]; [exists ("$(srcdir)/" ++ st)|exists ("$(obj)/" ++ st)|exists (head_of t ++ st)]; rewrite !append_assoc; reflexivity. }
    destruct FE as (b & FE). rewrite FE in E. destruct (language_same _ _ _ _ _ _ L L' E) as (_ & _ & <-). reflexivity.
Qed.

(** ** Objects of different sources *)
From Verif Require Import Proof_Build.
Lemma head_inj : forall t t' a b, plain_names t -> plain_names t' -> head_of t ++ a = head_of t' ++ b -> target_name t = target_name t' /\ toolset t = toolset t' /\ a = b.
Proof.
  intros t t' a b ((_ & _ & N1 & _) & (_ & _ & S1 & _) & _) ((_ & _ & N2 & _) & (_ & _ & S2 & _) & _) E. unfold head_of in E. rewrite !append_assoc in E. apply append_inj_l in E.
  apply cut_first in E; [|assumption|assumption]. destruct E as [<- E]. apply cut_first in E; [|assumption|assumption]. destruct E as [<- E]. auto.
Qed.
Lemma o_inj : forall a b, a ++ ".o" = b ++ ".o" -> a = b.
Proof. intros a b E. assert (A : before_o (a ++ ".o") = Some a) by (apply before_o_iff; reflexivity). assert (B : before_o (b ++ ".o") = Some b) by (apply before_o_iff; reflexivity). rewrite E in A. congruence. Qed.
Lemma objects_apart : forall t t' s s' e c e' c', plain_names t -> plain_names t' -> plain_source s e c -> plain_source s' e' c' -> object_of t s = object_of t' s' -> target_name t = target_name t' /\ toolset t = toolset t'.
Proof.
  intros t t' s s' e c e' c' P P' S S' E. destruct (shape t s e c P S) as (f & st & _ & _ & O & _), (shape t' s' e' c' P' S') as (f' & st' & _ & _ & O' & _).
  rewrite O, O' in E. destruct (head_inj _ _ _ _ P P' E) as (A & B & _). auto.
Qed.
Lemma tree_stem : forall t d n e c st f, plain_names t -> plain_dir d -> (forall r, d <> String "/" r) -> plain_name n -> In (e, c) languages ->
  input t (d ++ n ++ e) = f -> (f = "$(srcdir)/" ++ st ++ e \/ f = "$(obj)/" ++ st ++ e \/ f = head_of t ++ st ++ e) -> normpath (path_join (path t) (d ++ n ++ e)) = st ++ e.
Proof.
  intros t d n e c st f (_ & _ & PD & _) (DD & _) A N I E F. destruct (name_ext n e c N I) as (_ & S2 & _). assert (X : has_char "$" (d ++ n ++ e) = false) by (rewrite has_char_app, DD; exact S2).
  set (p := normpath (path_join (path t) (d ++ n ++ e))) in *.
  assert (Y : has_char "$" p = false) by (apply has_char_normpath; [discriminate|discriminate|]; apply has_char_path_join; [discriminate|exact PD|exact X]).
  unfold input, absolutify in E. rewrite (contains_none "(") in E by exact X. fold p in E. unfold sourceify in E. rewrite (contains_none "(") in E by exact Y.
  destruct (isabs p).
  - rewrite expand_plain in E by exact Y. rewrite E in Y. destruct F as [-> | [-> | ->]]; discriminate.
  - assert (K : expand t ("$(srcdir)/" ++ p) = "$(srcdir)/" ++ p) by (apply (expand_src t ("/" ++ p)); rewrite has_char_app, Y; reflexivity). rewrite K in E. subst f. destruct F as [F|[F|F]]; [|discriminate..]. apply (append_inj_l "$(srcdir)/") in F. exact F.
Qed.
Lemma same_object : forall t d n e c d' n' e' c', plain_names t -> plain_dir d -> (forall r, d <> String "/" r) -> plain_name n -> In (e, c) languages ->
  plain_dir d' -> (forall r, d' <> String "/" r) -> plain_name n' -> In (e', c') languages -> object_of t (d ++ n ++ e) = object_of t (d' ++ n' ++ e') ->
  forall here, locate (locate here (path t)) (d ++ n ++ e) = locate (locate here (path t)) (d' ++ n' ++ e).
Proof.
  intros t d n e c d' n' e' c' P D A N I D' A' N' I' E here.
  assert (Q : object_of t (d' ++ n' ++ e') = object_of t (d' ++ n' ++ e)).
  { unfold object_of, object_name. rewrite (splitext_plain d' n' e' c' (proj2 D') N' I'), (splitext_plain d' n' e c (proj2 D') N' I). reflexivity. }
  assert (S : plain_source (d ++ n ++ e) e c) by (split; [exact I|exists d, n; auto]). assert (S' : plain_source (d' ++ n' ++ e) e c) by (split; [exact I|exists d', n'; auto]).
  destruct (shape t _ e c P S) as (f & st & _ & _ & O & J & F & _), (shape t _ e c P S') as (f' & st' & _ & _ & O' & J' & F' & _).
  rewrite Q, O, O' in E. apply append_inj_l, o_inj in E. subst st'.
  pose proof (tree_stem t d n e c st f P D A N I J F) as T. pose proof (tree_stem t d' n' e c st f' P D' A' N' I J' F') as T'.
  rewrite <- !locate_join, <- (locate_normpath here (path_join (path t) (d ++ n ++ e))), T, <- T', locate_normpath. reflexivity.
Qed.
