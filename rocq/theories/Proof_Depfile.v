From Verif Require Import Lib Str LibFacts StrFacts Model_Args Model_Release Proof_Release Model_Depfile Spec_Depfile.
Local Open Scope string_scope.

Lemma split_at : forall c a b, split_on c (a ++ String c b) = (split_on c a ++ split_on c b)%list.
Proof.
  intros c a b. induction a as [|x a IH]; cbn [append split_on]; [rewrite Ascii.eqb_refl; reflexivity|]. destruct (Ascii.eqb x c); [rewrite IH; reflexivity|]. rewrite IH. pose proof (split_on_nonnil c a) as N. destruct (split_on c a) as [|l ls]; [congruence|reflexivity].
Qed.
Lemma split_none : forall c a, has_char c a = false -> split_on c a = [a].
Proof. intros c a H. pose proof (split_on_app c a "" H) as E. rewrite append_nil_r in E. rewrite E. cbn [split_on]. rewrite append_nil_r. reflexivity. Qed.
Lemma words_at : forall a b, blank_words (a ++ String " " b) = (blank_words a ++ blank_words b)%list.
Proof. intros a b. unfold blank_words. rewrite split_at, filter_app. reflexivity. Qed.
Lemma words_blanks : forall n, blank_words (blanks n) = [].
Proof. induction n as [|n IH]; [reflexivity|]. change (blanks (S n)) with ("" ++ String " " (blanks n)). rewrite words_at, IH. reflexivity. Qed.
Lemma words_one : forall d, d <> "" -> has_char " " d = false -> blank_words d = [d].
Proof. intros d N H. unfold blank_words. rewrite split_none by exact H. cbn [filter]. unfold filled. destruct (String.eqb_spec d ""); [contradiction|reflexivity]. Qed.
Lemma words_name : forall n d, d <> "" -> has_char " " d = false -> blank_words (blanks n ++ d) = [d].
Proof.
  induction n as [|n IH]; intros d N H; [apply words_one; assumption|]. change (blanks (S n) ++ d) with ("" ++ String " " (blanks n ++ d)). rewrite words_at, (IH d N H). reflexivity.
Qed.
Lemma simple_char : forall d a, simple d -> In a special -> has_char a d = false.
Proof. intros d a [_ H] I. exact (H a I). Qed.
Ltac here := unfold special; cbn; tauto.
Lemma blanks_char : forall a n, a <> " "%char -> has_char a (blanks n) = false.
Proof. intros a n N. induction n as [|n IH]; [reflexivity|]. cbn [blanks has_char]. destruct (Ascii.eqb_spec " " a); [congruence|exact IH]. Qed.

Lemma lines_cons : forall l t, has_char "010" l = false -> lines_of (l ++ line_feed ++ t) = l :: lines_of t.
Proof.
  intros l t H. unfold lines_of, line_feed. cbn [append]. rewrite split_at, split_none by exact H. cbn [app]. pose proof (split_on_nonnil "010" t) as N. destruct (split_on "010" t); [congruence|reflexivity].
Qed.
Lemma lines_nil : lines_of "" = [].
Proof. reflexivity. Qed.
Lemma lines_end : forall l, has_char "010" l = false -> lines_of (l ++ line_feed) = [l].
Proof. intros l H. rewrite <- (append_nil_r line_feed), (lines_cons l "" H). reflexivity. Qed.

(** The rules for single files. *)
Lemma backslash_plain : forall p, has_char "\" p = false -> first_backslash_out p = p.
Proof. induction p as [|a p IH]; intros H; [reflexivity|]. cbn [has_char] in H. cbn [first_backslash_out]. destruct (Ascii.eqb a "\"); [discriminate|]. rewrite (IH H). reflexivity. Qed.
Lemma backslash_end : forall p, has_char "\" p = false -> first_backslash_out (p ++ "\") = p.
Proof. induction p as [|a p IH]; intros H; [reflexivity|]. cbn [has_char] in H. cbn [append first_backslash_out]. destruct (Ascii.eqb a "\"); [discriminate|]. rewrite (IH H). reflexivity. Qed.
Definition all_words (ls : list string) : list string := filter filled (flat_map (fun l => split_on " " (first_backslash_out l)) ls).
Lemma all_words_cons : forall l ls, all_words (l :: ls) = (blank_words (first_backslash_out l) ++ all_words ls)%list.
Proof. intros l ls. unfold all_words, blank_words. cbn [flat_map]. rewrite filter_app. reflexivity. Qed.
Lemma listing_words : forall t ds, listing t ds -> forall p, has_char "010" p = false -> has_char "\" p = false -> all_words (lines_of (p ++ t)) = (blank_words p ++ ds)%list.
Proof.
  intros t ds H. induction H as [|n d t ds S H IH|n t ds H IH]; intros p N B.
  - rewrite (lines_end p N), all_words_cons, (backslash_plain p B). reflexivity.
  - rewrite <- !append_assoc. rewrite IH.
    + rewrite append_assoc. change (blanks (Datatypes.S n) ++ d) with (String " " (blanks n ++ d)). rewrite words_at, words_name; [rewrite <- app_assoc; reflexivity|exact (proj1 S)|apply (simple_char _ _ S); here].
    + rewrite !has_char_app, N, blanks_char by discriminate. rewrite (simple_char _ "010" S) by here. reflexivity.
    + rewrite !has_char_app, B, blanks_char by discriminate. rewrite (simple_char _ "\" S) by here. reflexivity.
  - replace (p ++ blanks (Datatypes.S n) ++ "\" ++ line_feed ++ t) with (((p ++ blanks (Datatypes.S n)) ++ "\") ++ line_feed ++ t) by (rewrite !append_assoc; reflexivity).
    rewrite lines_cons by (rewrite !has_char_app, N, blanks_char by discriminate; reflexivity). rewrite all_words_cons, backslash_end by (rewrite has_char_app, B, blanks_char by discriminate; reflexivity).
    change (blanks (Datatypes.S n)) with (String " " (blanks n)). rewrite words_at, words_blanks, app_nil_r. specialize (IH "" eq_refl eq_refl). cbn [append] in IH. rewrite IH. reflexivity.
Qed.

(** The rule for the target. *)
Lemma without_none : forall l, has_char "\" l = false -> without_backslash l = None.
Proof.
  induction l as [|a l IH]; intros H; [reflexivity|]. cbn [has_char] in H. cbn [without_backslash]. destruct (Ascii.eqb a "\"); [discriminate|]. rewrite (IH H). destruct l; reflexivity.
Qed.
Lemma without_end : forall l, has_char "\" l = false -> without_backslash (l ++ "\") = Some l.
Proof.
  induction l as [|a l IH]; intros H; [reflexivity|]. cbn [has_char] in H. cbn [append without_backslash]. destruct (Ascii.eqb a "\"); [discriminate|]. rewrite (IH H). destruct l; reflexivity.
Qed.
Definition spaced (q : string) : Prop := q = "" \/ exists r, q = String " " r.
Lemma words_spaced : forall d q, d <> "" -> has_char " " d = false -> spaced q -> blank_words (d ++ q) = d :: blank_words q.
Proof.
  intros d q N H [->|[r ->]]; [rewrite append_nil_r; exact (words_one d N H)|]. rewrite words_at, (words_one d N H). change (String " " r) with ("" ++ String " " r). rewrite words_at. reflexivity.
Qed.
Lemma words_more : forall n q, blank_words (blanks n ++ q) = blank_words q.
Proof. induction n as [|n IH]; intros q; [reflexivity|]. change (blanks (S n) ++ q) with ("" ++ String " " (blanks n ++ q)). rewrite words_at, IH. reflexivity. Qed.
Lemma logical_none : forall l r, without_backslash l = None -> logical (l :: r) = l :: logical r.
Proof. intros l r H. cbn [logical]. rewrite H. reflexivity. Qed.
Lemma logical_some : forall l l' r m ms, without_backslash l = Some l' -> logical r = m :: ms -> logical (l :: r) = (l' ++ " " ++ m) :: ms.
Proof. intros l l' r m ms H E. cbn [logical]. rewrite H, E. reflexivity. Qed.
Lemma listing_logical : forall t ds, listing t ds -> forall p rest, has_char "010" p = false -> has_char "\" p = false ->
  exists q, logical (lines_of (p ++ t) ++ rest) = (p ++ q) :: logical rest /\ blank_words q = ds /\ spaced q.
Proof.
  intros t ds H. induction H as [|n d t ds S H IH|n t ds H IH]; intros p rest N B.
  - exists "". rewrite (lines_end p N). cbn [app]. rewrite logical_none by exact (without_none p B). rewrite append_nil_r. split; [reflexivity|]. split; [reflexivity|left; reflexivity].
  - destruct (IH (p ++ blanks (Datatypes.S n) ++ d) rest) as (q & E & W & SP).
    + rewrite !has_char_app, N, blanks_char by discriminate. rewrite (simple_char _ "010" S) by here. reflexivity.
    + rewrite !has_char_app, B, blanks_char by discriminate. rewrite (simple_char _ "\" S) by here. reflexivity.
    + exists (blanks (Datatypes.S n) ++ d ++ q). rewrite !append_assoc in E. split; [exact E|]. split; [rewrite words_more, words_spaced; [rewrite W; reflexivity|exact (proj1 S)|apply (simple_char _ _ S); here|exact SP]|right; eexists; reflexivity].
  - destruct (IH "" rest eq_refl eq_refl) as (q & E & W & SP). cbn [append] in E. exists (blanks (Datatypes.S n) ++ " " ++ q).
    replace (p ++ blanks (Datatypes.S n) ++ "\" ++ line_feed ++ t) with (((p ++ blanks (Datatypes.S n)) ++ "\") ++ line_feed ++ t) by (rewrite !append_assoc; reflexivity).
    rewrite lines_cons by (rewrite !has_char_app, N, blanks_char by discriminate; reflexivity). cbn [app].
    rewrite (logical_some _ (p ++ blanks (Datatypes.S n)) _ q (logical rest)); [|apply without_end; rewrite has_char_app, B, blanks_char by discriminate; reflexivity|exact E].
    split; [rewrite append_assoc; reflexivity|]. split; [|right; eexists; reflexivity]. rewrite words_more. change (" " ++ q) with ("" ++ String " " q). rewrite words_at, W. reflexivity.
Qed.
(** Only the first line can be changed by the first sed. *)
Lemma later_lines : forall t ds, listing t ds -> exists l ls, Forall spaced ls /\ forall p, has_char "010" p = false -> lines_of (p ++ t) = (p ++ l) :: ls.
Proof.
  intros t ds H. induction H as [|n d t ds S H IH|n t ds H IH].
  - exists "", []. split; [constructor|]. intros p N. rewrite (lines_end p N), append_nil_r. reflexivity.
  - destruct IH as (l & ls & F & E). exists (blanks (Datatypes.S n) ++ d ++ l), ls. split; [exact F|]. intros p N. specialize (E (p ++ blanks (Datatypes.S n) ++ d)). rewrite !append_assoc in E. apply E.
    rewrite !has_char_app, N, blanks_char by discriminate; rewrite (simple_char _ "010" S) by here; reflexivity.
  - destruct IH as (l & ls & F & E0). pose proof (E0 "" eq_refl) as E. cbn [append] in E. exists (blanks (Datatypes.S n) ++ "\"), (l :: ls). split.
    2:{ intros p N. replace (p ++ blanks (Datatypes.S n) ++ "\" ++ line_feed ++ t) with ((p ++ blanks (Datatypes.S n) ++ "\") ++ line_feed ++ t) by (rewrite !append_assoc; reflexivity).
        rewrite lines_cons by (rewrite !has_char_app, N, blanks_char by discriminate; reflexivity). rewrite E. reflexivity. }
    constructor; [|exact F]. destruct H as [|n' d t ds S' H'|n' t ds H'].
    + unfold lines_of in E. cbn in E. injection E as <- _. left. reflexivity.
    + change (blanks (Datatypes.S n') ++ d ++ t) with (" " ++ blanks n' ++ d ++ t) in E. destruct l as [|a l]; [left; reflexivity|]. right. exists l.
      unfold lines_of in E. cbn [append split_on] in E. change (Ascii.eqb " " "010") with false in E. cbv iota in E. destruct (split_on "010" (blanks n' ++ d ++ t)) as [|x [|y xs]]; cbn [removelast] in E; [discriminate|discriminate|injection E as <- _ _; reflexivity].
    + change (blanks (Datatypes.S n') ++ "\" ++ line_feed ++ t) with (" " ++ blanks n' ++ "\" ++ line_feed ++ t) in E. destruct l as [|a l]; [left; reflexivity|]. right. exists l.
      unfold lines_of in E. cbn [append split_on] in E. change (Ascii.eqb " " "010") with false in E. cbv iota in E. destruct (split_on "010" (blanks n' ++ String "\" (line_feed ++ t))) as [|x [|y xs]]; cbn [removelast] in E; [discriminate|discriminate|injection E as <- _ _; reflexivity].
Qed.
Lemma named_spaced : forall name target l, spaced l -> (exists a b, name = String a b /\ a <> "."%char /\ a <> " "%char) -> name_target name target l = l.
Proof.
  intros name target l S (a & b & -> & N1 & N2). unfold name_target. destruct S as [->|[r ->]]; [reflexivity|]. cbn [re_prefix]. destruct (Ascii.eqb_spec a "."); [contradiction|]. destruct (Ascii.eqb_spec a " "); [contradiction|]. reflexivity.
Qed.
Lemma re_self : forall p r, re_prefix p (p ++ r) = Some r.
Proof. induction p as [|a p IH]; intros r; [reflexivity|]. cbn [append re_prefix]. rewrite Ascii.eqb_refl, orb_true_r. apply IH. Qed.
Lemma re_more : forall p s r, re_prefix p s = Some r -> exists h, s = h ++ r.
Proof.
  induction p as [|a p IH]; intros s r H; [exists ""; injection H as ->; reflexivity|]. destruct s as [|b s]; [discriminate|]. cbn [re_prefix] in H. destruct (_ || _)%bool; [|discriminate]. destruct (IH _ _ H) as [h ->]. exists (String b h). reflexivity.
Qed.
Lemma split1_here : forall t q, has_char ":" t = false -> split1 ":" (t ++ ":" ++ q) = Some (t, q).
Proof. induction t as [|a t IH]; intros q H; [reflexivity|]. cbn [has_char] in H. cbn [append split1]. destruct (Ascii.eqb a ":"); [discriminate|]. change (t ++ String ":" q) with (t ++ ":" ++ q). rewrite (IH q H). reflexivity. Qed.
Lemma rule_line : forall t q r, simple t -> make_rules ((t ++ ":" ++ q) :: r) = option_map (cons ([t], blank_words q)) (make_rules r).
Proof.
  intros t q r S. cbn [make_rules]. rewrite split1_here by (apply (simple_char _ _ S); here). rewrite (words_one t (proj1 S)) by (apply (simple_char _ _ S); here).
  destruct (blank_words (t ++ ":" ++ q)) as [|w ws] eqn:W; [|reflexivity]. exfalso. destruct S as [NE S]. destruct t as [|a t]; [congruence|]. assert (NA : a <> " "%char) by (intros ->; specialize (S " "%char ltac:(here)); discriminate S).
  unfold blank_words in W. cbn [append split_on] in W. destruct (Ascii.eqb_spec a " "); [contradiction|]. destruct (split_on " " (t ++ String ":" q)); discriminate W.
Qed.
Lemma phony_lines : forall ds, Forall simple ds -> logical (map (fun w => w ++ ":") ds) = map (fun w => w ++ ":") ds /\ make_rules (map (fun w => w ++ ":") ds) = Some (map (fun d => ([d], [])) ds).
Proof.
  induction ds as [|d ds IH]; intros F; [split; reflexivity|]. apply Forall_cons_iff in F. destruct F as [S F]. destruct (IH F) as [A B]. cbn [map]. split.
  - rewrite logical_none, A; [reflexivity|]. apply without_none. rewrite has_char_app, (simple_char _ "\" S) by here. reflexivity.
  - change (d ++ ":") with (d ++ ":" ++ ""). rewrite (rule_line d "" _ S), B. reflexivity.
Qed.
Lemma listing_simple : forall t ds, listing t ds -> Forall simple ds.
Proof. intros t ds H. induction H; auto. Qed.

Lemma re_alike : forall p t x r, re_prefix p (t ++ x) = Some r -> String.length p <= String.length t -> exists h q, t = h ++ q /\ alike p h.
Proof.
  induction p as [|a p IH]; intros t x r H L; [exists "", t; split; [reflexivity|constructor]|]. destruct t as [|b t]; [cbn in L; lia|]. cbn [append re_prefix] in H. cbn [String.length] in L.
  destruct (_ || _)%bool eqn:Q; [|discriminate]. destruct (IH t x r H ltac:(lia)) as (h & q & -> & A). exists (String b h), q. split; [reflexivity|]. constructor; [|exact A]. apply orb_true_iff in Q. destruct Q as [Q|Q]; apply Ascii.eqb_eq in Q; [left|right]; exact Q.
Qed.
(** The compiler may have named the target in full, or without its directory. *)
Lemma depfile_read : forall name dir target written text ds,
  simple target -> target = dir ++ name -> (exists a b, name = String a b /\ a <> "."%char) ->
  written = name \/ (written = target /\ (dir = "" \/ ~ exists h q, target = h ++ q /\ alike name h)) -> listing text ds ->
  read_depfile (fixup_dep name target (written ++ ":" ++ text)) = Some (([target], ds) :: map (fun d => ([d], [])) ds).
Proof.
  intros name dir target written text ds ST T NM WR L. assert (SN : forall a, In a special -> has_char a name = false).
  { intros a I. pose proof (simple_char _ _ ST I) as H. rewrite T, has_char_app in H. apply orb_false_iff in H. exact (proj2 H). }
  assert (SW : forall a, In a special -> has_char a written = false) by (intros a I; destruct WR as [->|[-> _]]; [exact (SN a I)|exact (simple_char _ _ ST I)]).
  assert (NW : written <> "") by (destruct WR as [->|[-> _]]; [destruct NM as (a & b & -> & _); discriminate|exact (proj1 ST)]).
  assert (NM' : exists a b, name = String a b /\ a <> "."%char /\ a <> " "%char).
  { destruct NM as (a & b & E & N). exists a, b. split; [exact E|]. split; [exact N|]. intros ->. specialize (SN " "%char ltac:(here)). rewrite E in SN. discriminate SN. }
  assert (P1 : forall a, In a special -> a <> ":"%char -> has_char a (written ++ ":") = false).
  { intros a I N. rewrite has_char_app, (SW a I). cbn [has_char]. destruct (Ascii.eqb_spec ":" a); [congruence|reflexivity]. }
  assert (ASS : written ++ ":" ++ text = (written ++ ":") ++ text) by (rewrite append_assoc; reflexivity).
  destruct (later_lines text ds L) as (l & ls & F & E).
  assert (NF : has_char "010" (target ++ ":") = false) by (rewrite has_char_app, (simple_char _ "010" ST) by here; reflexivity).
  assert (NB : has_char "\" (target ++ ":") = false) by (rewrite has_char_app, (simple_char _ "\" ST) by here; reflexivity).
  assert (FIRST : map (name_target name target) (lines_of (written ++ ":" ++ text)) = lines_of ((target ++ ":") ++ text)).
  { rewrite ASS, (E _ (P1 "010"%char ltac:(here) ltac:(discriminate))), (E _ NF). cbn [map]. f_equal.
    - rewrite !append_assoc. unfold name_target. destruct WR as [->|[-> [D|R]]].
      + rewrite re_self. reflexivity.
      + rewrite D in T. cbn [append] in T. rewrite <- T, re_self. reflexivity.
      + destruct (re_prefix name (target ++ ":" ++ l)) as [r|] eqn:Q; [|reflexivity]. destruct R. apply (re_alike _ _ _ _ Q).
        rewrite T. clear. induction dir as [|a dir IH]; [apply le_n|cbn [append String.length]; lia].
    - clear - F NM'. induction F as [|x xs S F IH]; [reflexivity|]. cbn [map]. rewrite IH, (named_spaced _ _ _ S NM'). reflexivity. }
  assert (EXTRA : extra_rules (written ++ ":" ++ text) = map (fun w => w ++ ":") ds).
  { unfold extra_rules. f_equal. rewrite ASS. pose proof (listing_words text ds L (written ++ ":") (P1 "010"%char ltac:(here) ltac:(discriminate)) (P1 "\"%char ltac:(here) ltac:(discriminate))) as W. unfold all_words in W. rewrite W.
    rewrite words_one; [reflexivity|destruct written; discriminate|exact (P1 " "%char ltac:(here) ltac:(discriminate))]. }
  unfold read_depfile, fixup_dep. rewrite FIRST, EXTRA. destruct (listing_logical text ds L (target ++ ":") (map (fun w => w ++ ":") ds) NF NB) as (q & Q & W & _). rewrite Q, append_assoc.
  destruct (phony_lines ds (listing_simple _ _ L)) as [A B]. rewrite (rule_line target q _ ST), A, B, W. reflexivity.
Qed.
(** build/Release with an object Release.o: the pattern Release.o fits Release/o. *)
Lemma release_object : read_depfile (fixup_dep "Release.o" "Release/obj.target/addon/Release.o" ("Release/obj.target/addon/Release.o: ../Release.c ../config.h" ++ line_feed))
  = Some [(["Release/obj.target/addon/Release.obj.target/addon/Release.o"], ["../Release.c"; "../config.h"]); (["../Release.c"], []); (["../config.h"], [])].
Proof. reflexivity. Qed.
Lemma no_special : forall d, d <> "" -> forallb (fun a => negb (has_char a d)) special = true -> simple d.
Proof. intros d N H. split; [exact N|]. intros a I. rewrite forallb_forall in H. specialize (H a I). apply negb_true_iff in H. exact H. Qed.
Lemma release_listing : listing (" ../Release.c ../config.h" ++ line_feed) ["../Release.c"; "../config.h"].
Proof.
  apply (listing_name 0 "../Release.c" (" ../config.h" ++ line_feed)); [apply no_special; [discriminate|reflexivity]|]. apply (listing_name 0 "../config.h" line_feed); [apply no_special; [discriminate|reflexivity]|]. constructor.
Qed.
Lemma release_lost : ~ (forall name dir target text ds rules, simple target -> target = dir ++ name -> listing text ds -> read_depfile (fixup_dep name target (target ++ ":" ++ text)) = Some rules -> In ([target], ds) rules).
Proof.
  intros H. assert (S : simple "Release/obj.target/addon/Release.o") by (apply no_special; [discriminate|reflexivity]).
  specialize (H "Release.o" "Release/obj.target/addon/" "Release/obj.target/addon/Release.o" _ _ _ S eq_refl release_listing release_object).
  cbn [In] in H. destruct H as [H|[H|[H|[]]]]; discriminate H.
Qed.
