(** Proofs about compiler and linker flags: references, and what the lines leave. *)
From Verif Require Import Lib Str StrFacts LibFacts Model_Path Proof_Path Proof_Path2 Model_Memo Spec_Quote Model_Quote Proof_Quote Model_Writer Proof_Suffix Proof_Parts Model_Flags Spec_Flags Proof_Flags.
Local Open Scope string_scope.

(** ** References *)
Lemma refs_name : forall val st x cur t, all_chars name_char x = true -> st <> [] -> refs val st cur (x ++ t) = refs val st (cur ++ x) t.
Proof.
  intros val st. induction x as [|c x IH]; intros cur t H N; [rewrite append_nil_r; reflexivity|]. cbn [all_chars] in H. apply andb_true_iff in H. destruct H as [H1 H2].
  cbn [append refs]. assert (A1 : c <> "$"%char) by (intros ->; discriminate H1). assert (A2 : c <> ")"%char) by (intros ->; discriminate H1). neqs.
  destruct st as [|up st]; [contradiction|]. rewrite H1. rewrite IH by assumption. f_equal. rewrite append_assoc. reflexivity.
Qed.
Lemma refs_close : forall val up st x v t, val x = Some v -> refs val (up :: st) x (")" ++ t) = refs val st (up ++ v) t.
Proof. intros val up st x v t H. cbn [append refs]. change (Ascii.eqb ")" "$") with false. change (Ascii.eqb ")" ")") with true. cbv iota. rewrite H. reflexivity. Qed.
Lemma refs_open : forall val st cur t, refs val st cur ("$(" ++ t) = refs val (cur :: st) "" t.
Proof. reflexivity. Qed.
Lemma refs_ref : forall val st cur x v t, all_chars name_char x = true -> val x = Some v -> refs val st cur ("$(" ++ x ++ ")" ++ t) = refs val st (cur ++ v) t.
Proof. intros val st cur x v t N H. rewrite refs_open, refs_name by (auto; discriminate). change ("" ++ x) with x. apply refs_close. exact H. Qed.
(** A reference whose name is computed *)
Lemma refs_typed : forall val cur n m b v t, all_chars name_char n = true -> all_chars name_char m = true -> val m = Some b -> val (n ++ b) = Some v ->
  refs val [] cur ("$(" ++ n ++ "$(" ++ m ++ "))" ++ t) = refs val [] (cur ++ v) t.
Proof.
  intros val cur n m b v t N M Hm H. rewrite refs_open, refs_name by (auto; discriminate). change ("))" ++ t) with (")" ++ ")" ++ t). rewrite (refs_ref val [cur] _ m b _ M Hm).
  change ("" ++ n) with n. apply refs_close. exact H.
Qed.

Lemma name_safe : forall c, name_char c = true -> safe_char c = true.
Proof.
  intros c H. unfold name_char, safe_char in *. apply orb_true_iff in H. apply orb_true_iff. destruct H as [H|H]; [left; exact H|right].
  cbn [has_char] in *. repeat match type of H with (if ?b then _ else _) = true => destruct b eqn:?; [|] end; try discriminate;
  repeat match goal with E : Ascii.eqb _ c = true |- _ => apply Ascii.eqb_eq in E; subst c end; reflexivity.
Qed.
Lemma ref_piece : forall (vals : (string -> option string) -> Prop) a x d r, all_chars safe_char a = true -> a <> "" -> all_chars name_char x = true -> (forall val, vals val -> val x = Some d) -> safe d -> (r = "" \/ safe r) ->
  piece vals (a ++ "$(" ++ x ++ ")" ++ r) (literal (a ++ d ++ r)).
Proof.
  intros vals a x d r Ha Na Hx Hd Sd Hr.
  assert (Sr : all_chars safe_char r = true) by (destruct Hr as [->|[_ H]]; [reflexivity|exact H]).
  assert (Sx : all_chars safe_char x = true) by (apply (all_chars_imp name_char); [apply name_safe|exact Hx]).
  assert (No : forall c, safe_char c = false -> has_char c "$()" = false -> has_char c (a ++ "$(" ++ x ++ ")" ++ r) = false).
  { intros c Hc Nc. rewrite !has_char_app. rewrite (safe_not a), (safe_not x), (safe_not r) by assumption. cbn [has_char] in *.
    repeat match goal with |- context [Ascii.eqb ?y c] => destruct (Ascii.eqb y c) end; try discriminate; reflexivity. }
  assert (F : firm (a ++ "$(" ++ x ++ ")" ++ r)).
  { destruct Hr as [->|Hr].
    - exists (a ++ "$(" ++ x), ")"%char. split; [rewrite !append_assoc; reflexivity|discriminate].
    - destruct (safe_firm r Hr) as (u & c & -> & N). exists (a ++ "$(" ++ x ++ ")" ++ u), c. split; [rewrite !append_assoc; reflexivity|exact N]. }
  assert (Fo : first_ok (a ++ "$(" ++ x ++ ")" ++ r)).
  { assert (S : safe a) by (split; assumption). pose proof (safe_first a S) as G. destruct a; [contradiction|exact G]. }
  exists (a ++ "$(" ++ x ++ ")" ++ r), (a ++ d ++ r). repeat split.
  - apply join_piece; [apply No; reflexivity|exact F|exact Fo].
  - apply uncomment_piece; [apply No; reflexivity|exact F].
  - intros val cur t V. rewrite append_assoc, refs_plain by (apply safe_not; [exact Ha|reflexivity]).
    replace (("$(" ++ x ++ ")" ++ r) ++ t) with ("$(" ++ x ++ ")" ++ (r ++ t)) by (rewrite !append_assoc; reflexivity).
    rewrite (refs_ref val [] _ x d _ Hx (Hd val V)), refs_plain by (apply safe_not; [exact Sr|reflexivity]). f_equal. rewrite !append_assoc. reflexivity.
  - intros t. rewrite read_safe; [reflexivity|right; split; [reflexivity|destruct a; [contradiction|discriminate]]|]. rewrite !all_chars_app, Ha, Sr. destruct Sd as [_ ->]. reflexivity.
Qed.

(** ** Include directories *)
Lemma rel_normpath : forall p, isabs p = false -> isabs (normpath p) = false.
Proof.
  intros p Ha. unfold normpath. destruct p as [|x p]; [reflexivity|]. set (q := String x p) in *.
  assert (Hi : initial_slashes q = "") by (unfold initial_slashes, q in *; cbn [isabs] in Ha; rewrite Ha; reflexivity). rewrite Hi, Ha. cbn [append].
  assert (Hp := norm_comps_props false (split_char slash q) [] (split_char_no_char slash q) (fun c H => match H with end)).
  assert (He : isabs (String.concat "/" (rev (norm_comps false [] (split_char slash q)))) = false).
  { apply concat_not_abs. intros c Hc. apply in_rev in Hc. destruct (Hp c Hc) as [A [B _]]. split; assumption. }
  change sep with "/". destruct (String.concat "/" (rev (norm_comps false [] (split_char slash q)))); [reflexivity|exact He].
Qed.
Lemma abs_normpath : forall p, isabs p = true -> isabs (normpath p) = true.
Proof.
  intros p Ha. destruct p as [|x p]; [discriminate|]. cbn [isabs] in Ha. apply Ascii.eqb_eq in Ha. subst x. unfold normpath.
  assert (Hi : exists r, initial_slashes (String slash p) = String slash r).
  { unfold initial_slashes. change (Ascii.eqb slash slash) with true. cbv iota. destruct p as [|y p]; [eexists; reflexivity|]. destruct (Ascii.eqb y slash); [destruct (isabs p)|]; eexists; reflexivity. }
  destruct Hi as [r ->]. reflexivity.
Qed.
Lemma safe_normpath : forall p, all_chars safe_char p = true -> safe (normpath p).
Proof.
  intros p H. split; [apply normpath_nonempty|]. apply all_chars_has. intros c Hc. apply has_char_normpath; [intros ->; discriminate|intros ->; discriminate|apply safe_not; assumption].
Qed.
Lemma safe_join : forall a b, all_chars safe_char a = true -> all_chars safe_char b = true -> all_chars safe_char (path_join a b) = true.
Proof. intros a b Ha Hb. apply all_chars_has. intros c Hc. apply has_char_path_join; [intros ->; discriminate|apply safe_not; assumption|apply safe_not; assumption]. Qed.
Lemma rstrip_keep : forall c s, (forall a, s <> a ++ String c "") -> rstrip c s = s.
Proof.
  intros c. induction s as [|x s IH]; intros H; [reflexivity|]. cbn [rstrip]. destruct s as [|y s].
  - cbn [rstrip]. destruct (Ascii.eqb_spec x c) as [->|]; [exfalso; apply (H ""); reflexivity|reflexivity].
  - rewrite IH; [reflexivity|]. intros a E. apply (H (String x a)). cbn [append]. rewrite <- E. reflexivity.
Qed.
Lemma include_piece : forall val0 (vals : (string -> option string) -> Prop) t i p, (forall val x, vals val -> In x ["obj"; "builddir"; "srcdir"] -> val x = val0 x) -> include_at val0 t i p -> piece vals (quote_if_necessary ("-I" ++ sourceify (absolutify t i))) (literal ("-I" ++ p)).
Proof.
  intros val0 vals t i p V H. destruct H as [i src Si Sp Hr Hs Ss|i Si Ha|x d i Hx Hd Sd Hi Hl].
  - assert (D : has_char "$" i = false) by (destruct Si as [_ Si]; apply safe_not; [exact Si|reflexivity]).
    assert (Sn : safe (normpath (path_join (path t) i))).
    { apply safe_normpath, safe_join; [destruct Sp as [[_ Sp]| ->]; [exact Sp|reflexivity]|apply Si]. }
    unfold absolutify, sourceify. rewrite (contains_none "(" i D). rewrite (contains_none "("); [|destruct Sn as [_ Sn]; apply safe_not; [exact Sn|reflexivity]]. rewrite rel_normpath by exact Hr.
    set (n := normpath _) in *. 
    assert (E : "-I" ++ "$(srcdir)/" ++ n = "-I" ++ "$(" ++ "srcdir" ++ ")" ++ ("/" ++ n)) by reflexivity. rewrite E. rewrite safe_unquoted.
    + apply ref_piece; [reflexivity|discriminate|reflexivity|intros val Hv; rewrite (V val _ Hv); [exact Hs|right; right; left; reflexivity]|exact Ss|right; apply safe_app; [reflexivity|exact Sn]].
    + rewrite <- E. rewrite has_char_app, has_char_app. destruct Sn as [_ Sn]. rewrite (safe_not n) by (auto; reflexivity). reflexivity.
  - assert (D : has_char "$" i = false) by (destruct Si as [_ Si]; apply safe_not; [exact Si|reflexivity]).
    assert (Sn : safe (normpath i)) by (apply safe_normpath; apply Si).
    assert (J : path_join (path t) i = i) by (unfold path_join; rewrite Ha; reflexivity).
    unfold absolutify, sourceify. rewrite (contains_none "(" i D), J. rewrite (contains_none "("); [|destruct Sn as [_ Sn]; apply safe_not; [exact Sn|reflexivity]].
    rewrite abs_normpath by exact Ha. apply prefixed_piece; [reflexivity|exact Sn].
  - assert (Nx : all_chars name_char x = true) by (destruct Hx as [<-|[<-|[<-|[]]]]; reflexivity).
    assert (A : absolutify t ("$(" ++ x ++ ")" ++ i) = "$(" ++ x ++ ")" ++ i).
    { unfold absolutify. rewrite contains_pre. apply rstrip_keep. intros a E. destruct Hi as [->|(r & -> & Sr)].
      - assert (L : "$(" ++ x ++ ")" = a ++ "/") by exact E. clear E. destruct Hx as [<-|[<-|[<-|[]]]];
        assert (F := f_equal (fun s => match rsplit1 "/" s with Some _ => true | None => false end) L); cbv beta in F;
        assert (G : rsplit1 "/" (a ++ "/") = None) by (rewrite <- L; reflexivity); clear - G;
        (assert (K : has_char "/" (a ++ "/") = false) by (apply rsplit1_None; exact G)); rewrite has_char_app, orb_true_r in K; discriminate K.
      - assert (L : ("$(" ++ x ++ ")") ++ ("/" ++ r) = a ++ "/") by (rewrite !append_assoc; exact E). clear E.
        destruct (last_of r (proj1 Sr)) as (u & c & ->).
        assert (C : c = "/"%char).
        { replace (("$(" ++ x ++ ")") ++ "/" ++ u ++ String c "") with ((("$(" ++ x ++ ")") ++ "/" ++ u) ++ String c "") in L by (rewrite !append_assoc; reflexivity).
          clear - L. revert L. generalize (("$(" ++ x ++ ")") ++ "/" ++ u). intros b. revert a. induction b as [|y b IH]; intros a L; destruct a as [|z a]; cbn [append] in L.
          - injection L as L. exact L.
          - injection L as _ L. destruct a; discriminate.
          - injection L as _ L. destruct b; discriminate.
          - injection L as _ L. exact (IH a L). }
        subst c. apply (Hl ("/" ++ u)). rewrite append_assoc. reflexivity. }
    assert (Sy : sourceify ("$(" ++ x ++ ")" ++ i) = "$(" ++ x ++ ")" ++ i) by (unfold sourceify; rewrite contains_pre; reflexivity).
    rewrite A, Sy. rewrite safe_unquoted.
    + apply ref_piece; [reflexivity|discriminate|exact Nx|intros val Hv; rewrite (V val _ Hv Hx); exact Hd|exact Sd|]. destruct Hi as [->|(r & -> & Sr)]; [left; reflexivity|right; apply safe_app; [reflexivity|exact Sr]].
    + rewrite !has_char_app. rewrite (safe_not x) by (solve [apply (all_chars_imp name_char); [apply name_safe|exact Nx]] || reflexivity).
      destruct Hi as [->|(r & -> & [_ Sr])]; [reflexivity|]. rewrite has_char_app, (safe_not r) by (auto; reflexivity). reflexivity.
Qed.
