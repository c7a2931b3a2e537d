(** Proofs about looking up the registry. *)
From Coq Require Import Lia.
From Verif Require Import Lib Str StrFacts Model_Registry Spec_Registry.
Local Open Scope string_scope.

Lemma white_iff c : white c = true <-> In c spaces.
Proof.
  split.
  - destruct c as [b0 b1 b2 b3 b4 b5 b6 b7]; destruct b0, b1, b2, b3, b4, b5, b6, b7; vm_compute; intros H; try discriminate; tauto.
  - intros H. unfold spaces in H. cbn [In] in H. destruct H as [<-|[<-|[<-|[<-|[<-|[<-|[]]]]]]]; reflexivity.
Qed.
Definition letters : string := "ABCDEFGHIJKLMNOPQRSTUVWXYZabcdefghijklmnopqrstuvwxyz0123456789_".
Lemma letter_word c : letter c -> word c = true /\ white c = false /\ ends_line c = false.
Proof.
  intros H. assert (B : existsb (Ascii.eqb c) (list_ascii_of_string letters) = true) by (apply existsb_exists; exists c; split; [exact H|apply Ascii.eqb_refl]).
  clear H. revert B. destruct c as [b0 b1 b2 b3 b4 b5 b6 b7]; destruct b0, b1, b2, b3, b4, b5, b6, b7; vm_compute; intros B; try discriminate; repeat split; reflexivity.
Qed.
(** a letter that matches an H is one *)
Lemma not_h a : a <> "h"%char -> a <> "H"%char -> Ascii.eqb (lower a) (lower "H") = false.
Proof.
  intros A B. destruct (Ascii.eqb (lower a) (lower "H")) eqn:E; [exfalso|reflexivity]. revert E A B.
  destruct a as [b0 b1 b2 b3 b4 b5 b6 b7]; destruct b0, b1, b2, b3, b4, b5, b6, b7; vm_compute; intros E A B; try discriminate E; try (apply A; reflexivity); apply B; reflexivity.
Qed.
Lemma one_line_char c s : one_line (String c s) -> ends_line c = false /\ one_line s.
Proof.
  unfold one_line, ends_line. cbn [has_char]. intros [A B]. apply Bool.orb_false_iff in A, B. destruct A as [A A'], B as [B B'].
  rewrite Ascii.eqb_sym in A. rewrite Ascii.eqb_sym in B.
  split; [|split; assumption]. destruct (Ascii.eqb_spec c "010"); [subst; discriminate|]. destruct (Ascii.eqb_spec c "013"); [subst; discriminate|]. reflexivity.
Qed.

(** ** the pieces *)
Definition all (p : ascii -> bool) (w : string) : Prop := forall c, In c (list_ascii_of_string w) -> p c = true.
Definition stops (p : ascii -> bool) (s : string) : Prop := match s with String c _ => p c = false | "" => True end.
Lemma star_some p w : forall s k r, all p w -> stops p s -> k s = Some r -> star p (w ++ s) k = Some r.
Proof.
  induction w as [|c w IH]; intros s k r A N E.
  - cbn [append]. destruct s as [|c s]; [exact E|]. cbn [star]. cbn in N. rewrite N. exact E.
  - cbn [append star]. rewrite (A c) by (left; reflexivity). rewrite (IH s k r); [reflexivity| |exact N|exact E]. intros x I. apply A. right. exact I.
Qed.
Lemma plus_some p w s k r : w <> "" -> all p w -> stops p s -> k s = Some r -> plus p (w ++ s) k = Some r.
Proof.
  destruct w as [|c w]; [congruence|]. intros _ A N E. cbn [append plus]. rewrite (A c) by (left; reflexivity).
  apply star_some; [|exact N|exact E]. intros x I. apply A. right. exact I.
Qed.
(** white space before a letter: what comes behind may as well be tried there only *)
Lemma star_none p w : forall s k, all p w -> stops p s -> k s = None -> (forall a c b, w = a ++ String c b -> k (String c b ++ s) = None) -> star p (w ++ s) k = None.
Proof.
  induction w as [|c w IH]; intros s k A N E T.
  - cbn [append]. destruct s as [|c s]; [exact E|]. cbn [star]. cbn in N. rewrite N. exact E.
  - cbn [append star]. rewrite (A c) by (left; reflexivity). rewrite (IH s k).
    + exact (T "" c w eq_refl).
    + intros x I. apply A. right. exact I.
    + exact N.
    + exact E.
    + intros a d b W. apply (T (String c a) d b). rewrite W. reflexivity.
Qed.
Lemma name_self v : forall s k, one_line v -> name v (v ++ s) k = k s.
Proof.
  induction v as [|c v IH]; intros s k O; [destruct s; reflexivity|]. destruct (one_line_char _ _ O) as [E O']. cbn [append name].
  rewrite Ascii.eqb_refl, E. destruct (word c); apply IH; exact O'.
Qed.
Lemma name_head a v c s k : word a = true -> Ascii.eqb (lower a) (lower c) = false -> name (String a v) (String c s) k = None.
Proof. intros W E. cbn [name]. rewrite W, E. reflexivity. Qed.
Lemma to_end_line d : forall rest, one_line d -> to_end (d ++ crlf ++ rest) = d.
Proof.
  induction d as [|c d IH]; intros rest O; [reflexivity|]. destruct (one_line_char _ _ O) as [E O']. cbn [append to_end]. rewrite E. now rewrite (IH rest O').
Qed.
Lemma word_white c : word c = true -> white c = false.
Proof. destruct c as [b0 b1 b2 b3 b4 b5 b6 b7]; destruct b0, b1, b2, b3, b4, b5, b6, b7; vm_compute; congruence. Qed.
Lemma space4 : all white "    ".
Proof. intros c I. cbn in I. destruct I as [<-|[<-|[<-|[<-|[]]]]]; reflexivity. Qed.
Lemma letter_lower a c : word a = true -> white c = true -> Ascii.eqb (lower a) (lower c) = false.
Proof.
  intros A W. apply white_iff in W. unfold spaces in W. cbn [In] in W. revert A.
  destruct W as [<-|[<-|[<-|[<-|[<-|[<-|[]]]]]]]; destruct a as [b0 b1 b2 b3 b4 b5 b6 b7]; destruct b0, b1, b2, b3, b4, b5, b6, b7; vm_compute; congruence.
Qed.

(** ** the listing *)
Section Listing.
Variables value type data rest : string.
Hypothesis V : value_name value.
Hypothesis T : type_name type.
Hypothesis D : proper_data data.
Definition behind : string -> option string := fun s => name value s (fun s => plus white s (fun s => name "REG_" s (fun s => plus word s (fun s => plus white s (fun s =>
    match s with String c r => if white c then None else Some (String c (to_end r)) | "" => None end))))).
Definition tail : string := "    REG_" ++ type ++ "    " ++ data ++ crlf ++ rest.
Lemma behind_entry : behind (value ++ tail) = Some data.
Proof.
  destruct V as [O _]. unfold behind. rewrite name_self by exact O. unfold tail.
  change ("    REG_" ++ type ++ "    " ++ data ++ crlf ++ rest) with ("    " ++ ("REG_" ++ (type ++ "    " ++ data ++ crlf ++ rest))).
  apply plus_some; [discriminate|exact space4|reflexivity|].
  rewrite name_self by (split; reflexivity). destruct T as [T1 T2].
  apply plus_some; [exact T1| |reflexivity|].
  - intros c I. exact (proj1 (letter_word c (T2 c I))).
  - destruct D as [DO [c [r [-> N]]]]. assert (W : white c = false) by (destruct (white c) eqn:E; [destruct (N (proj1 (white_iff c) E))|reflexivity]).
    apply plus_some; [discriminate|exact space4|exact W|]. cbn [append]. rewrite W. destruct (one_line_char _ _ DO) as [_ DO']. now rewrite (to_end_line r rest DO').
Qed.
Lemma entry_text : entry value type data ++ crlf ++ rest = "    " ++ (value ++ tail).
Proof. unfold entry, tail. rewrite !append_assoc. reflexivity. Qed.

(** white space, and then a heading or the entry *)
Lemma spaced w s : w <> "" -> all white w -> (exists x, s = "HKEY_" ++ x) \/ s = value ++ tail -> entry_at value (w ++ s) = None \/ entry_at value (w ++ s) = Some data.
Proof.
  intros N A H. unfold entry_at. fold behind. destruct V as [O [v0 [v [EV [L [h1 h2]]]]]]. destruct (letter_word v0 L) as [W [Wh _]]. destruct H as [[x ->]| ->].
  - left. destruct w as [|c w]; [congruence|]. cbn [append plus]. rewrite (A c) by (left; reflexivity).
    apply (star_none white w ("HKEY_" ++ x) behind); [intros y I; apply A; right; exact I|reflexivity| |].
    + unfold behind. rewrite EV. cbn [append]. apply name_head; [exact W|apply not_h; assumption].
    + intros a d b E. unfold behind. rewrite EV. cbn [append]. apply name_head; [exact W|]. apply letter_lower; [exact W|]. apply A. right. rewrite E. clear.
      induction a as [|y a IH]; [left; reflexivity|right; exact IH].
  - right. apply plus_some; [exact N|exact A| |exact behind_entry]. rewrite EV. exact Wh.
Qed.

(** every listing is white space and such a text *)
Definition whole (l : list string) : string := lines l ++ entry value type data ++ crlf ++ rest.
Lemma lines_cons x l : lines (x :: l) = x ++ crlf ++ lines l.
Proof. unfold lines. cbn [map]. destruct l as [|y l]; cbn [map String.concat]; [rewrite !append_nil_r; reflexivity|]. rewrite append_assoc. reflexivity. Qed.
Lemma whole_cons x l : whole (x :: l) = x ++ crlf ++ whole l.
Proof. unfold whole. rewrite lines_cons, !append_assoc. reflexivity. Qed.
Lemma whole_spaced l : Forall heading l -> exists w s, whole l = w ++ s /\ all white w /\ ((exists x, s = "HKEY_" ++ x) \/ s = value ++ tail).
Proof.
  induction 1 as [|x l H F IH].
  - exists "    ", (value ++ tail). split; [exact entry_text|]. split; [exact space4|right; reflexivity].
  - rewrite whole_cons. destruct H as [|x O].
    + destruct IH as [w [s [E [A B]]]]. exists (crlf ++ w), s. split; [rewrite E; reflexivity|]. split; [|exact B].
      intros c [<-|[<-|I]]; [reflexivity|reflexivity|exact (A c I)].
    + exists "", ("HKEY_" ++ x ++ crlf ++ whole l). split; [cbn [append]; reflexivity|]. split; [intros c []|left]. eexists. reflexivity.
Qed.
Lemma at_break w l : w <> "" -> all white w -> Forall heading l -> entry_at value (w ++ whole l) = None \/ entry_at value (w ++ whole l) = Some data.
Proof.
  intros N A F. destruct (whole_spaced l F) as [w' [s [E [A' B]]]]. rewrite E. rewrite <- append_assoc. apply spaced; [|intros c I|exact B].
  - destruct w; [congruence|discriminate].
  - assert (K : forall a b : string, In c (list_ascii_of_string (a ++ b)) -> In c (list_ascii_of_string a) \/ In c (list_ascii_of_string b)).
    { clear. induction a as [|y a IH]; intros b I; [right; exact I|]. destruct I as [<-|I]; [left; left; reflexivity|]. destruct (IH b I) as [J|J]; [left; right; exact J|right; exact J]. }
    destruct (K w w' I) as [J|J]; [exact (A c J)|exact (A' c J)].
Qed.
Lemma exec_step (start : bool) c s : (if start then entry_at value (String c s) else None) = None \/ (if start then entry_at value (String c s) else None) = Some data -> exec value (ends_line c) s = Some data -> exec value start (String c s) = Some data.
Proof. intros [E|E] H; cbn [exec]; rewrite E; [exact H|reflexivity]. Qed.
Lemma exec_line s : forall r, one_line s -> exec value false (crlf ++ r) = Some data -> exec value false (s ++ crlf ++ r) = Some data.
Proof.
  induction s as [|c s IH]; intros r O H; [exact H|]. destruct (one_line_char _ _ O) as [E O']. cbn [append]. apply exec_step; [left; reflexivity|]. rewrite E. exact (IH r O' H).
Qed.
Lemma exec_whole l : Forall heading l -> exec value true (whole l) = Some data.
Proof.
  induction 1 as [|x l H F IH].
  - unfold whole. cbn [lines map String.concat append]. rewrite entry_text.
    assert (E : entry_at value ("    " ++ (value ++ tail)) = Some data).
    { unfold entry_at. apply plus_some; [discriminate|exact space4| |exact behind_entry]. destruct V as [_ [v0 [v [-> [L _]]]]]. exact (proj1 (proj2 (letter_word v0 L))). }
    revert E. generalize (value ++ tail). intros s E. cbn [append] in E |- *. cbn [exec]. now rewrite E.
  - rewrite whole_cons.
    assert (B : forall start, exec value start (crlf ++ whole l) = Some data).
    { intros start. change (crlf ++ whole l) with (String "013" (String "010" (whole l))). apply exec_step.
      - destruct start; [|left; reflexivity]. apply (at_break crlf l); [discriminate| |exact F]. intros c [<-|[<-|[]]]; reflexivity.
      - change (ends_line "013") with true. apply exec_step; [|exact IH]. apply (at_break (String "010" "") l); [discriminate| |exact F]. intros c [<-|[]]; reflexivity. }
    destruct H as [|x O]; [exact (B true)|]. rewrite append_assoc. change ("HKEY_" ++ (x ++ crlf ++ whole l)) with (String "H" ("KEY_" ++ (x ++ crlf ++ whole l))).
    apply exec_step; [left; reflexivity|]. change (ends_line "H") with false. rewrite <- append_assoc. apply exec_line; [|exact (B false)].
    destruct O as [O1 O2]. split; assumption.
Qed.
End Listing.

Lemma get_value reg key value data : value_name value -> proper_data data -> has reg key value data -> reg_get_value reg key value = Some data.
Proof.
  intros V D [h [t [rest [F [T E]]]]]. unfold reg_get_value. rewrite E. cbn [blank]. exact (exec_whole value t data rest V T D h F).
Qed.
Lemma get_none reg key value : lacks reg key value -> reg_get_value reg key value = None.
Proof.
  intros [E|[out [err [c [E [I N]]]]]]; unfold reg_get_value; rewrite E; [reflexivity|].
  assert (B : blank err = false).
  { clear E. induction err as [|d err IH]; [destruct I|]. cbn [blank]. destruct I as [->|I]; [|rewrite (IH I); apply Bool.andb_false_r].
    destruct (white c) eqn:W; [destruct (N (proj1 (white_iff c) W))|reflexivity]. }
  rewrite B. reflexivity.
Qed.
Lemma search_first reg before key after value data : value_name value -> proper_data data -> Forall (fun k => lacks reg k value) before -> has reg key value data ->
  reg_search_keys reg (before ++ key :: after)%list value = Some data.
Proof.
  intros V D F H. induction F as [|k l L F IH]; cbn [app reg_search_keys].
  - now rewrite (get_value reg key value data V D H).
  - rewrite (get_none reg k value L). exact IH.
Qed.
Lemma search_none reg keys value : Forall (fun k => lacks reg k value) keys -> reg_search_keys reg keys value = None.
Proof. induction 1 as [|k l L F IH]; [reflexivity|]. cbn [reg_search_keys]. rewrite (get_none reg k value L). exact IH. Qed.

(** ** what is found is in the output *)
Lemma star_inv p k : forall s r, star p s k = Some r -> exists w s', s = w ++ s' /\ k s' = Some r.
Proof.
  induction s as [|c s IH]; intros r H; [exists "", ""; split; [reflexivity|exact H]|]. cbn [star] in H. destruct (p c).
  - destruct (star p s k) as [x|] eqn:E.
    + injection H as <-. destruct (IH x eq_refl) as [w [s' [-> K]]]. exists (String c w), s'. split; [reflexivity|exact K].
    + exists "", (String c s). split; [reflexivity|exact H].
  - exists "", (String c s). split; [reflexivity|exact H].
Qed.
Lemma plus_inv p k s r : plus p s k = Some r -> exists w s', s = w ++ s' /\ k s' = Some r.
Proof.
  destruct s as [|c s]; [discriminate|]. cbn [plus]. destruct (p c); [|discriminate]. intros H. destruct (star_inv p k s r H) as [w [s' [-> K]]]. exists (String c w), s'. split; [reflexivity|exact K].
Qed.
Lemma name_inv v : forall s k r, name v s k = Some r -> exists w s', s = w ++ s' /\ k s' = Some r.
Proof.
  induction v as [|a v IH]; intros s k r H.
  - exists "", s. split; [reflexivity|]. destruct s; exact H.
  - destruct s as [|c s]; [discriminate|]. cbn [name] in H. destruct (if word a then _ else _); [|discriminate]. destruct (IH s k r H) as [w [s' [-> K]]]. exists (String c w), s'. split; [reflexivity|exact K].
Qed.
Lemma to_end_is s : exists b, s = to_end s ++ b /\ one_line (to_end s) /\ (b = "" \/ exists c b', b = String c b' /\ (c = "010" \/ c = "013")%char).
Proof.
  induction s as [|c s [b [E [O B]]]]; [exists ""; repeat split; left; reflexivity|]. cbn [to_end]. destruct (ends_line c) eqn:L.
  - exists (String c s). split; [reflexivity|]. split; [split; reflexivity|]. right. exists c, s. split; [reflexivity|]. unfold ends_line in L. apply Bool.orb_true_iff in L.
    destruct L as [L|L]; apply Ascii.eqb_eq in L; [left|right]; exact L.
  - exists b. split; [cbn [append]; rewrite <- E; reflexivity|]. split; [|exact B]. unfold ends_line in L. apply Bool.orb_false_iff in L. destruct L as [L1 L2]. destruct O as [O1 O2].
    unfold one_line. cbn [has_char]. rewrite O1, O2. rewrite ?(Ascii.eqb_sym "010" c), ?(Ascii.eqb_sym "013" c), L1, L2. split; reflexivity.
Qed.
Lemma entry_inv value s r : entry_at value s = Some r -> exists a b, s = a ++ r ++ b /\ proper_data r /\ (b = "" \/ exists c b', b = String c b' /\ (c = "010" \/ c = "013")%char).
Proof.
  intros H. unfold entry_at in H.
  destruct (plus_inv _ _ _ _ H) as [w1 [s1 [-> H1]]]. destruct (name_inv _ _ _ _ H1) as [w2 [s2 [-> H2]]]. destruct (plus_inv _ _ _ _ H2) as [w3 [s3 [-> H3]]].
  destruct (name_inv _ _ _ _ H3) as [w4 [s4 [-> H4]]]. destruct (plus_inv _ _ _ _ H4) as [w5 [s5 [-> H5]]]. destruct (plus_inv _ _ _ _ H5) as [w6 [s6 [-> H6]]].
  destruct s6 as [|c r']; [discriminate|]. destruct (white c) eqn:W; [discriminate|]. injection H6 as <-. destruct (to_end_is r') as [b [E [O B]]].
  exists (w1 ++ w2 ++ w3 ++ w4 ++ w5 ++ w6), b. split; [rewrite !append_assoc; cbn [append]; rewrite <- E; reflexivity|]. split; [|exact B].
  assert (N : ~ In c spaces) by (intros I; apply white_iff in I; congruence). split; [|exists c, (to_end r'); split; [reflexivity|exact N]].
  destruct O as [O1 O2]. unfold one_line. cbn [has_char]. rewrite O1, O2.
  split; match goal with |- (if ?x then true else false) = false => destruct x eqn:Q; [|reflexivity] | |- orb ?x false = false => destruct x eqn:Q; [|reflexivity] end; apply Ascii.eqb_eq in Q; subst c; discriminate W.
Qed.
Lemma exec_inv value : forall s start r, exec value start s = Some r -> exists a b, s = a ++ r ++ b /\ proper_data r /\ (b = "" \/ exists c b', b = String c b' /\ (c = "010" \/ c = "013")%char).
Proof.
  induction s as [|c s IH]; intros start r H; cbn [exec] in H.
  - destruct start; [|discriminate]. destruct (entry_at value "") as [x|] eqn:E; [|discriminate]. injection H as <-. exact (entry_inv value "" x E).
  - destruct start.
    + destruct (entry_at value (String c s)) as [x|] eqn:E; [injection H as <-; exact (entry_inv value _ x E)|].
      destruct (IH _ _ H) as [a [b [-> K]]]. exists (String c a), b. split; [reflexivity|exact K].
    + destruct (IH _ _ H) as [a [b [-> K]]]. exists (String c a), b. split; [reflexivity|exact K].
Qed.
Lemma search_inv reg value r : forall keys, reg_search_keys reg keys value = Some r ->
  exists key out err a b, In key keys /\ reg key value = Wrote out err /\ out = a ++ r ++ b /\ proper_data r /\ (b = "" \/ exists c b', b = String c b' /\ (c = "010" \/ c = "013")%char).
Proof.
  induction keys as [|k l IH]; intros H; [discriminate|]. cbn [reg_search_keys] in H. destruct (reg_get_value reg k value) as [x|] eqn:E.
  - injection H as ->. unfold reg_get_value in E. destruct (reg k value) as [|out err] eqn:G; [discriminate|]. destruct (blank err); [|discriminate].
    destruct (exec_inv value out true r E) as [a [b [P Q]]]. exists k, out, err, a, b. split; [left; reflexivity|]. split; [exact G|]. split; [exact P|exact Q].
  - destruct (IH H) as [key [out [err [a [b [I R]]]]]]. exists key, out, err, a, b. split; [right; exact I|exact R].
Qed.
