(** Proofs about the variables of Xcode. *)
From Coq Require Import Lia.
From Verif Require Import Lib Str LibFacts StrFacts Model_Value Model_TopoSort Proof_TopoSort Model_Writer Proof_Suffix Proof_Install2 Model_XcodeEnv Spec_XcodeEnv.
Local Open Scope string_scope.

(** ** characters *)
Lemma existsb_in c l : In c l -> existsb (Ascii.eqb c) l = true.
Proof. intros H. apply existsb_exists. exists c. split; [exact H|apply Ascii.eqb_refl]. Qed.
Ltac all_chars c := destruct c as [b0 b1 b2 b3 b4 b5 b6 b7]; destruct b0, b1, b2, b3, b4, b5, b6, b7; vm_compute; intros; try discriminate; try reflexivity; try (repeat split; reflexivity); try tauto.
Lemma name_char_ref c : In c (list_ascii_of_string (name_chars ++ "-")) -> ref_char c = true.
Proof. intros H. apply existsb_in in H. revert H. all_chars c. Qed.
Lemma name_char_id c : In c (list_ascii_of_string name_chars) -> id_char c = true.
Proof. intros H. apply existsb_in in H. revert H. all_chars c. Qed.
Lemma letter_start c : In c (list_ascii_of_string letters) -> id_start c = true.
Proof. intros H. apply existsb_in in H. revert H. all_chars c. Qed.
Lemma id_name_char c : id_char c = true -> In c (list_ascii_of_string name_chars).
Proof.
  intros H. assert (E : existsb (Ascii.eqb c) (list_ascii_of_string name_chars) = true) by (revert H; all_chars c).
  apply existsb_exists in E. destruct E as [d [I E]]. apply Ascii.eqb_eq in E. subst d. exact I.
Qed.
Lemma start_id c : id_start c = true -> id_char c = true.
Proof. unfold id_char. intros ->. reflexivity. Qed.
Lemma id_ref c : id_char c = true -> ref_char c = true.
Proof. unfold ref_char. intros ->. reflexivity. Qed.
Lemma ref_no c : ref_char c = true -> c <> "$"%char /\ c <> "{"%char /\ c <> "}"%char /\ c <> "("%char /\ c <> ")"%char.
Proof. intros H. repeat split; intros ->; discriminate H. Qed.

Definition all (p : ascii -> bool) (s : string) : Prop := forall c, In c (list_ascii_of_string s) -> p c = true.
Lemma all_cons p c s : all p (String c s) -> p c = true /\ all p s.
Proof. intros H. split; [apply H; left; reflexivity|intros d I; apply H; right; exact I]. Qed.
Lemma name_ref n : name n -> n <> "" /\ all ref_char n.
Proof. intros [N A]. split; [exact N|]. intros c I. apply name_char_ref, A, I. Qed.
Lemma identifier_name n : identifier n -> name n.
Proof.
  intros [c [r [-> [C R]]]]. split; [discriminate|]. intros d [<-|I].
  - apply existsb_in in C. assert (E : existsb (Ascii.eqb c) (list_ascii_of_string (name_chars ++ "-")) = true) by (revert C; all_chars c). apply existsb_exists in E. destruct E as [x [J E]]. apply Ascii.eqb_eq in E. subst x. exact J.
  - assert (C' := existsb_in _ _ (R d I)). clear C. assert (E : existsb (Ascii.eqb d) (list_ascii_of_string (name_chars ++ "-")) = true) by (revert C'; clear; all_chars d). apply existsb_exists in E. destruct E as [x [J E]]. apply Ascii.eqb_eq in E. subst x. exact J.
Qed.
Lemma all_no p c n : all p n -> p c = false -> has_char c n = false.
Proof.
  intros A E. induction n as [|d n IH]; [reflexivity|]. destruct (all_cons _ _ _ A) as [D A']. cbn [has_char]. rewrite (IH A'). destruct (Ascii.eqb_spec d c) as [->|_]; [congruence|reflexivity].
Qed.

(** ** replacing a variable *)
Definition in_brackets_ps (ps : list piece) : Prop := in_brackets ps.
Lemma prefix_close k n o c r r' : all ref_char k -> all ref_char n -> ref_char c = false -> n <> k -> String.prefix (String "$" (String o (k ++ String c r'))) (String "$" (String o (n ++ String c r))) = false.
Proof.
  intros K N C D. cbn [String.prefix]. destruct (ascii_dec "$" "$") as [_|X]; [|congruence]. destruct (ascii_dec o o) as [_|X]; [|congruence].
  revert n N D. induction k as [|a k IH]; intros [|b n] N D; cbn [append String.prefix]; [congruence| | |].
  - destruct (all_cons _ _ _ N) as [B _]. destruct (ascii_dec c b) as [->|_]; [congruence|reflexivity].
  - destruct (all_cons _ _ _ K) as [A _]. destruct (ascii_dec a c) as [->|_]; [congruence|reflexivity].
  - destruct (ascii_dec a b) as [->|_]; [|reflexivity]. apply IH; [exact (proj2 (all_cons _ _ _ K))|exact (proj2 (all_cons _ _ _ N))|congruence].
Qed.
Lemma replace_miss p by_ s : String.prefix (String "$" p) (String "$" s) = false -> replace (String "$" p) by_ (String "$" s) = String "$" (replace (String "$" p) by_ s).
Proof. intros E. unfold replace. cbn [replace_from]. rewrite E. reflexivity. Qed.
(** the pieces of one shape become others *)
Definition put (f : piece -> option (list piece)) (ps : list piece) : list piece := flat_map (fun p => match f p with Some l => l | None => [p] end) ps.
Lemma text_app a b : text (a ++ b)%list = text a ++ text b.
Proof. induction a as [|p a IH]; [reflexivity|]. cbn [app text]. rewrite IH, append_assoc. reflexivity. Qed.
Lemma brackets_cons p ps : in_brackets (p :: ps) -> (forall n, p <> Bare n) /\ in_brackets ps.
Proof. intros B. split; [intros n ->; exact (B n (or_introl eq_refl))|intros n I; exact (B n (or_intror I))]. Qed.
Definition is_braces (k : string) (l : list piece) (p : piece) : option (list piece) := match p with Braces n => if String.eqb n k then Some l else None | _ => None end.
Definition is_parens (k : string) (l : list piece) (p : piece) : option (list piece) := match p with Parens n => if String.eqb n k then Some l else None | _ => None end.
Lemma replace_braces k l ps : name k -> Forall fine_piece ps -> in_brackets ps -> replace (String "$" (String "{" (k ++ "}"))) (text l) (text ps) = text (put (is_braces k l) ps).
Proof.
  intros K F B. destruct (name_ref _ K) as [_ KR]. induction F as [|p ps P F IH]; [reflexivity|]. destruct (brackets_cons _ _ B) as [NB B']. specialize (IH B'). unfold put in *. cbn [text flat_map]. rewrite text_app.
  destruct p as [s|n|n|n]; cbn [show is_braces fine_piece] in *.
  - rewrite replace_plain by exact P. cbn [text]. rewrite append_nil_r, IH. reflexivity.
  - destruct (name_ref _ P) as [_ NR]. destruct (String.eqb_spec n k) as [->|D].
    + rewrite replace_hit, IH. reflexivity.
    + rewrite append_assoc. cbn [append]. rewrite append_assoc. cbn [append].
      rewrite replace_miss by (apply prefix_close; [exact KR|exact NR|reflexivity|exact D]).
      change (String "{" (n ++ String "}" (text ps))) with ("{" ++ (n ++ "}" ++ text ps)). rewrite (replace_plain (String "{" (k ++ "}")) _ "{") by reflexivity.
      rewrite replace_plain by (apply (all_no ref_char); [exact NR|reflexivity]). rewrite (replace_plain _ _ "}") by reflexivity. rewrite IH. cbn [text show]. rewrite append_nil_r. rewrite !append_assoc. reflexivity.
  - destruct (name_ref _ P) as [_ NR]. rewrite append_assoc. cbn [append]. rewrite append_assoc. cbn [append].
    rewrite replace_miss by reflexivity.
    change (String "(" (n ++ String ")" (text ps))) with ("(" ++ (n ++ ")" ++ text ps)). rewrite (replace_plain (String "{" (k ++ "}")) _ "(") by reflexivity.
    rewrite replace_plain by (apply (all_no ref_char); [exact NR|reflexivity]). rewrite (replace_plain _ _ ")") by reflexivity. rewrite IH. cbn [text show]. rewrite append_nil_r. rewrite !append_assoc. reflexivity.
  - destruct (NB n eq_refl).
Qed.
Lemma replace_parens k l ps : name k -> Forall fine_piece ps -> in_brackets ps -> replace (String "$" (String "(" (k ++ ")"))) (text l) (text ps) = text (put (is_parens k l) ps).
Proof.
  intros K F B. destruct (name_ref _ K) as [_ KR]. induction F as [|p ps P F IH]; [reflexivity|]. destruct (brackets_cons _ _ B) as [NB B']. specialize (IH B'). unfold put in *. cbn [text flat_map]. rewrite text_app.
  destruct p as [s|n|n|n]; cbn [show is_parens fine_piece] in *.
  - rewrite replace_plain by exact P. cbn [text]. rewrite append_nil_r, IH. reflexivity.
  - destruct (name_ref _ P) as [_ NR]. rewrite append_assoc. cbn [append]. rewrite append_assoc. cbn [append].
    rewrite replace_miss by reflexivity.
    change (String "{" (n ++ String "}" (text ps))) with ("{" ++ (n ++ "}" ++ text ps)). rewrite (replace_plain (String "(" (k ++ ")")) _ "{") by reflexivity.
    rewrite replace_plain by (apply (all_no ref_char); [exact NR|reflexivity]). rewrite (replace_plain _ _ "}") by reflexivity. rewrite IH. cbn [text show]. rewrite append_nil_r. rewrite !append_assoc. reflexivity.
  - destruct (name_ref _ P) as [_ NR]. destruct (String.eqb_spec n k) as [->|D].
    + rewrite replace_hit, IH. reflexivity.
    + rewrite append_assoc. cbn [append]. rewrite append_assoc. cbn [append].
      rewrite replace_miss by (apply prefix_close; [exact KR|exact NR|reflexivity|exact D]).
      change (String "(" (n ++ String ")" (text ps))) with ("(" ++ (n ++ ")" ++ text ps)). rewrite (replace_plain (String "(" (k ++ ")")) _ "(") by reflexivity.
      rewrite replace_plain by (apply (all_no ref_char); [exact NR|reflexivity]). rewrite (replace_plain _ _ ")") by reflexivity. rewrite IH. cbn [text show]. rewrite append_nil_r. rewrite !append_assoc. reflexivity.
  - destruct (NB n eq_refl).
Qed.
Lemma replace_bare k v ps : name k -> Forall fine_piece ps -> in_brackets ps -> replace ("$" ++ k) v (text ps) = text ps.
Proof.
  intros K F B. destruct (name_ref _ K) as [KN KR]. destruct k as [|a k]; [congruence|]. destruct (all_cons _ _ _ KR) as [A _]. destruct (ref_no _ A) as [_ [A1 [_ [A2 _]]]].
  change ("$" ++ String a k) with (String "$" (String a k)).
  induction F as [|p ps P F IH]; [reflexivity|]. destruct (brackets_cons _ _ B) as [NB B']. specialize (IH B'). cbn [text].
  destruct p as [s|n|n|n]; cbn [show fine_piece] in *.
  - rewrite replace_plain by exact P. rewrite IH. reflexivity.
  - destruct (name_ref _ P) as [_ NR]. rewrite append_assoc. cbn [append]. rewrite append_assoc. cbn [append].
    rewrite replace_miss by (cbn [String.prefix]; destruct (ascii_dec "$" "$") as [_|X]; [|congruence]; destruct (ascii_dec a "{") as [->|_]; [congruence|reflexivity]).
    change (String "{" (n ++ String "}" (text ps))) with ("{" ++ (n ++ "}" ++ text ps)). rewrite (replace_plain _ _ "{") by reflexivity.
    rewrite replace_plain by (apply (all_no ref_char); [exact NR|reflexivity]). rewrite (replace_plain _ _ "}") by reflexivity. rewrite IH. reflexivity.
  - destruct (name_ref _ P) as [_ NR]. rewrite append_assoc. cbn [append]. rewrite append_assoc. cbn [append].
    rewrite replace_miss by (cbn [String.prefix]; destruct (ascii_dec "$" "$") as [_|X]; [|congruence]; destruct (ascii_dec a "(") as [->|_]; [congruence|reflexivity]).
    change (String "(" (n ++ String ")" (text ps))) with ("(" ++ (n ++ ")" ++ text ps)). rewrite (replace_plain _ _ "(") by reflexivity.
    rewrite replace_plain by (apply (all_no ref_char); [exact NR|reflexivity]). rewrite (replace_plain _ _ ")") by reflexivity. rewrite IH. reflexivity.
  - destruct (NB n eq_refl).
Qed.

(** ** normal references *)
Lemma braced_plain s r : has_char "$" s = false -> braced false (s ++ r) = s ++ braced false r.
Proof.
  induction s as [|c s IH]; intros H; [reflexivity|]. cbn [has_char] in H. destruct (Ascii.eqb c "$") eqn:E; [discriminate|]. cbn [append braced andb]. rewrite E. cbn [andb append]. rewrite (IH H). reflexivity.
Qed.
Definition unbare (p : piece) : piece := match p with Bare n => Braces n | _ => p end.
Lemma braced_end r : match r with String c _ => ~ In c (list_ascii_of_string name_chars) | "" => True end -> braced true r = "}" ++ braced false r.
Proof.
  destruct r as [|c r]; [reflexivity|]. intros N. cbn [braced andb]. destruct (id_char c) eqn:E; [destruct (N (id_name_char c E))|]. reflexivity.
Qed.
Lemma braced_name n r : all id_char n -> match r with String c _ => ~ In c (list_ascii_of_string name_chars) | "" => True end -> braced true (n ++ r) = n ++ "}" ++ braced false r.
Proof.
  induction n as [|c n IH]; intros A E; [exact (braced_end r E)|]. destruct (all_cons _ _ _ A) as [C A']. cbn [append]. cbn [braced]. rewrite C. cbn [andb]. rewrite (IH A' E). reflexivity.
Qed.
Lemma braced_dollar x : match x with String d _ => id_start d | "" => false end = true -> braced false (String "$" x) = "${" ++ braced true x.
Proof. intros H. cbn [braced andb]. change (Ascii.eqb "$" "$") with true. cbn [andb]. rewrite H. reflexivity. Qed.
Lemma ends_cons p ps : ends_names (p :: ps) -> ends_names ps.
Proof. intros E a n b H. apply (E (p :: a) n b). rewrite H. reflexivity. Qed.
Lemma braced_text ps : fine ps -> braced false (text ps) = text (map unbare ps).
Proof.
  intros [F E]. induction F as [|p ps P F IH]; [reflexivity|]. specialize (IH (ends_cons _ _ E)). cbn [text map]. destruct p as [s|n|n|n]; cbn [show unbare fine_piece] in *.
  - rewrite (braced_plain _ _ P), IH. reflexivity.
  - destruct (name_ref _ P) as [_ NR]. rewrite !append_assoc. change ("${" ++ (n ++ ("}" ++ text ps))) with (String "$" ("{" ++ (n ++ ("}" ++ text ps)))). cbn [braced]. change (Ascii.eqb "$" "$") with true. cbn [append andb].
    change (id_start "{") with false. cbn [andb append]. change (String "{" (n ++ String "}" (text ps))) with ("{" ++ (n ++ ("}" ++ text ps))).
    change (braced false (String "{" (n ++ String "}" (text ps)))) with (braced false ("{" ++ (n ++ ("}" ++ text ps)))).
    rewrite braced_plain by reflexivity. rewrite braced_plain by (apply (all_no ref_char); [exact NR|reflexivity]). rewrite braced_plain by reflexivity. rewrite IH. reflexivity.
  - destruct (name_ref _ P) as [_ NR]. rewrite !append_assoc. change ("$(" ++ (n ++ (")" ++ text ps))) with (String "$" ("(" ++ (n ++ (")" ++ text ps)))). cbn [braced]. change (Ascii.eqb "$" "$") with true. cbn [append andb].
    change (id_start "(") with false. cbn [andb append].
    change (braced false (String "(" (n ++ String ")" (text ps)))) with (braced false ("(" ++ (n ++ (")" ++ text ps)))).
    rewrite braced_plain by reflexivity. rewrite braced_plain by (apply (all_no ref_char); [exact NR|reflexivity]). rewrite braced_plain by reflexivity. rewrite IH. reflexivity.
  - specialize (E [] n ps eq_refl). destruct P as [c [r [-> [C R]]]]. change (("$" ++ String c r) ++ text ps) with (String "$" (String c r ++ text ps)). rewrite braced_dollar by exact (letter_start c C).
    rewrite (braced_name (String c r) (text ps)).
    + rewrite IH. cbn [append]. rewrite append_assoc. reflexivity.
    + intros d [<-|I]; [apply start_id, letter_start, C|apply name_char_id, R, I].
    + exact E.
Qed.
Lemma references_plain o c s r : has_char "$" s = false -> references o c (s ++ r) = references o c r.
Proof.
  induction s as [|d s IH]; intros H; [reflexivity|]. cbn [has_char] in H. destruct (Ascii.eqb d "$") eqn:E; [discriminate|]. cbn [append references]. rewrite E. cbn [app]. exact (IH H).
Qed.
Lemma span_name n c r : all ref_char n -> ref_char c = false -> span ref_char (n ++ String c r) = (n, String c r).
Proof.
  intros A C. induction n as [|d n IH]; cbn [append span]; [rewrite C; reflexivity|]. destruct (all_cons _ _ _ A) as [D A']. rewrite D, (IH A'). reflexivity.
Qed.
Lemma reference_hit o c n r : name n -> ref_char c = false -> Ascii.eqb o "$" = false -> Ascii.eqb c "$" = false -> references o c ("$" ++ String o (n ++ String c r)) = n :: references o c r.
Proof.
  intros N C O D. destruct (name_ref _ N) as [NE NR]. cbn [append references]. change (Ascii.eqb "$" "$") with true. cbn iota. rewrite Ascii.eqb_refl, (span_name n c r NR C). destruct n as [|a n]; [congruence|]. rewrite Ascii.eqb_refl, O. cbn [app]. f_equal.
  rewrite (references_plain o c (String a n)) by (apply (all_no ref_char); [exact NR|reflexivity]). cbn [references]. rewrite D. reflexivity.
Qed.
Lemma reference_miss o c o' c' n r : name n -> Ascii.eqb o' o = false -> Ascii.eqb o' "$" = false -> Ascii.eqb c' "$" = false -> references o c ("$" ++ String o' (n ++ String c' r)) = references o c r.
Proof.
  intros N C O D. destruct (name_ref _ N) as [NE NR]. cbn [append references]. change (Ascii.eqb "$" "$") with true. cbn iota. rewrite C, O. cbn [app].
  rewrite (references_plain o c n) by (apply (all_no ref_char); [exact NR|reflexivity]). cbn [references]. rewrite D. reflexivity.
Qed.
Lemma refs_parens ps : Forall fine_piece ps -> in_brackets ps -> forall n, In n (references "(" ")" (text ps)) <-> In (Parens n) ps.
Proof.
  intros F B n. induction F as [|p ps P F IH]; [cbn; tauto|]. destruct (brackets_cons _ _ B) as [NB B']. specialize (IH B'). cbn [text In]. destruct p as [s|m|m|m]; cbn [show fine_piece] in *.
  - rewrite (references_plain _ _ _ _ P), IH. split; [tauto|intros [X|X]; [discriminate|exact X]].
  - rewrite !append_assoc. change ("${" ++ (m ++ ("}" ++ text ps))) with ("$" ++ String "{" (m ++ String "}" (text ps))). rewrite reference_miss by (first [exact P|reflexivity]). rewrite IH. split; [tauto|intros [X|X]; [discriminate|exact X]].
  - rewrite !append_assoc. change ("$(" ++ (m ++ (")" ++ text ps))) with ("$" ++ String "(" (m ++ String ")" (text ps))). rewrite reference_hit by (first [exact P|reflexivity]). cbn [In]. rewrite IH. split; (intros [X|X]; [left; congruence|right; exact X]).
  - destruct (NB m eq_refl).
Qed.
Lemma refs_braces ps : Forall fine_piece ps -> in_brackets ps -> forall n, In n (references "{" "}" (text ps)) <-> In (Braces n) ps.
Proof.
  intros F B n. induction F as [|p ps P F IH]; [cbn; tauto|]. destruct (brackets_cons _ _ B) as [NB B']. specialize (IH B'). cbn [text In]. destruct p as [s|m|m|m]; cbn [show fine_piece] in *.
  - rewrite (references_plain _ _ _ _ P), IH. split; [tauto|intros [X|X]; [discriminate|exact X]].
  - rewrite !append_assoc. change ("${" ++ (m ++ ("}" ++ text ps))) with ("$" ++ String "{" (m ++ String "}" (text ps))). rewrite reference_hit by (first [exact P|reflexivity]). cbn [In]. rewrite IH. split; (intros [X|X]; [left; congruence|right; exact X]).
  - rewrite !append_assoc. change ("$(" ++ (m ++ (")" ++ text ps))) with ("$" ++ String "(" (m ++ String ")" (text ps))). rewrite reference_miss by (first [exact P|reflexivity]). rewrite IH. split; [tauto|intros [X|X]; [discriminate|exact X]].
  - destruct (NB m eq_refl).
Qed.
Lemma fine_unbare ps : Forall fine_piece ps -> Forall fine_piece (map unbare ps).
Proof. induction 1 as [|p ps P F IH]; [constructor|]. constructor; [|exact IH]. destruct p; try exact P. apply identifier_name, P. Qed.
Lemma fine_normal ps : Forall fine_piece ps -> Forall fine_piece (map normal ps).
Proof. induction 1 as [|p ps P F IH]; [constructor|]. constructor; [|exact IH]. destruct p; try exact P. apply identifier_name, P. Qed.
Lemma brackets_unbare ps : in_brackets (map unbare ps).
Proof. intros n I. apply in_map_iff in I. destruct I as [p [E _]]. destruct p; discriminate. Qed.
Lemma brackets_normal ps : in_brackets (map normal ps).
Proof. intros n I. apply in_map_iff in I. destruct I as [p [E _]]. destruct p; discriminate. Qed.
(** one after the other *)
Definition turn (ns : list string) (p : piece) : piece := match p with Parens n => if mem n ns then Braces n else p | _ => p end.
Lemma put_parens k ps : put (is_parens k [Braces k]) ps = map (turn [k]) ps.
Proof.
  unfold put. induction ps as [|p ps IH]; [reflexivity|]. cbn [flat_map map]. rewrite IH. destruct p as [s|n|n|n]; try reflexivity. cbn [is_parens turn mem existsb]. destruct (String.eqb_spec n k) as [->|_]; reflexivity.
Qed.
Lemma fine_turn ns ps : Forall fine_piece ps -> Forall fine_piece (map (turn ns) ps).
Proof. induction 1 as [|p ps P F IH]; [constructor|]. constructor; [|exact IH]. destruct p as [s|n|n|n]; try exact P. cbn [turn]. destruct (mem n ns); exact P. Qed.
Lemma brackets_turn ns ps : in_brackets ps -> in_brackets (map (turn ns) ps).
Proof. intros B n I. apply in_map_iff in I. destruct I as [p [E J]]. destruct p as [s|m|m|m]; try discriminate; [|exact (B m J)]. cbn [turn] in E. destruct (mem m ns); discriminate. Qed.
Lemma fold_turn ns : forall ps, Forall name ns -> Forall fine_piece ps -> in_brackets ps ->
  fold_left (fun s n => replace ("$(" ++ n ++ ")") ("${" ++ n ++ "}") s) ns (text ps) = text (map (turn ns) ps).
Proof.
  induction ns as [|k ns IH]; intros ps N F B; cbn [fold_left].
  - f_equal. rewrite <- (map_id ps) at 1. apply map_ext. intros [s|n|n|n]; reflexivity.
  - inversion N as [|? ? K N']; subst. assert (E : "${" ++ k ++ "}" = text [Braces k]) by (cbn [text show]; rewrite append_nil_r; reflexivity). rewrite E at 1. change ("$(" ++ k ++ ")") with (String "$" (String "(" (k ++ ")"))). rewrite (replace_parens k [Braces k] ps K F B), put_parens.
    rewrite (IH (map (turn [k]) ps) N' (fine_turn _ _ F) (brackets_turn _ _ B)). f_equal. rewrite map_map. apply map_ext. intros [s|n|n|n]; try reflexivity.
    cbn [turn mem existsb]. destruct (String.eqb_spec n k) as [->|D]; cbn [orb turn]; reflexivity.
Qed.
Lemma normalize_text ps : fine ps -> normalize (text ps) = text (map normal ps).
Proof.
  intros Fi. unfold normalize. cbv zeta. rewrite (braced_text ps Fi). destruct Fi as [F E]. assert (F' := fine_unbare ps F). assert (B' := brackets_unbare ps).
  rewrite fold_turn; [|apply Forall_forall; intros n I|exact F'|exact B'].
  - f_equal. rewrite map_map. apply map_ext_in. intros p I. destruct p as [s|n|n|n]; try reflexivity. cbn [unbare turn normal].
    assert (M : mem n (references "(" ")" (text (map unbare ps))) = true). { apply mem_In. apply (refs_parens _ F' B'). apply in_map_iff. exists (Parens n). split; [reflexivity|exact I]. }
    rewrite M. reflexivity.
  - apply (refs_parens _ F' B') in I. rewrite Forall_forall in F'. exact (F' _ I).
Qed.
