(** Proofs about Xcode project files: properties, objects, the file, and that a text is
    read in one way only. *)
From Verif Require Import Lib Str StrFacts LibFacts Model_Quote Model_Writer Model_Pbx Spec_Pbx Proof_Pbx Proof_Pbx2.
From Verif Require Model_Text Proof_Flags5.
From Coq Require Import ZArith Permutation Lia.
Local Open Scope string_scope.

(** ** Settings of build files *)
Lemma escapes_app : forall alternate a b, escapes alternate (a ++ b) = escapes alternate a ++ escapes alternate b.
Proof. intros alternate a b. induction a as [|c a IH]; [reflexivity|]. cbn [append escapes]. rewrite IH, append_assoc. reflexivity. Qed.
Lemma escapes_letters : forall alternate s, (forall a, In a (list_ascii_of_string s) -> (65 <= N_of_ascii a <= 90 \/ 97 <= N_of_ascii a <= 122 \/ 48 <= N_of_ascii a <= 57)%N) -> escapes alternate s = s.
Proof.
  intros alternate s. induction s as [|a s IH]; intros H; [reflexivity|]. cbn [escapes]. rewrite IH; [|intros b I; apply H; right; exact I]. specialize (H a (or_introl eq_refl)). unfold escape1.
  destruct (Ascii.eqb_spec a backslash) as [->|_]; [cbn in H; lia|]. destruct (Ascii.eqb_spec a dquote) as [->|_]; [cbn in H; lia|]. replace (N.ltb (N_of_ascii a) 32) with false by (symmetry; apply N.ltb_ge; lia). reflexivity.
Qed.
Lemma substring_all : forall s t, substring 0 (String.length s) (s ++ t) = s.
Proof. induction s as [|a s IH]; intros t; [destruct t; reflexivity|]. cbn [String.length append substring]. rewrite IH. reflexivity. Qed.
Lemma length_app : forall s t, String.length (s ++ t) = String.length s + String.length t.
Proof. induction s as [|a s IH]; intros t; [reflexivity|]. cbn [append String.length]. rewrite IH. reflexivity. Qed.
Lemma strip_quoted : forall s, strip_quotes (String dquote (s ++ str1 dquote)) = s.
Proof.
  intros s. unfold strip_quotes. rewrite Ascii.eqb_refl. cbn [andb]. replace (String.eqb (s ++ str1 dquote) "") with false by (destruct s; reflexivity). cbn [negb andb].
  replace (ends_with (str1 dquote) (s ++ str1 dquote)) with true by (symmetry; apply Proof_Flags5.ends_iff; exists s; reflexivity).
  rewrite length_app. cbn [str1 String.length]. replace (String.length s + 1 - 1) with (String.length s) by lia. apply substring_all.
Qed.
Lemma said_attributes : says_text "ATTRIBUTES" "ATTRIBUTES".
Proof. apply says_letters. constructor; [discriminate|]. intros a I. cbn [list_ascii_of_string] in I. repeat (destruct I as [<-|I]; [cbn; lia|]). destruct I. Qed.
Lemma settings_said : forall w, letters w -> says ("{ATTRIBUTES = (" ++ w ++ ", ); }") (Dict [("ATTRIBUTES", Array [Str w])]).
Proof.
  intros w L.
  assert (S : says ("(" ++ w ++ ", )") (Array [Str w])).
  { intros rest _. exists rest. split; [|reflexivity]. rewrite !append_assoc. eapply reads_array; [reflexivity|]. destruct (says_letters w L (", )" ++ rest)) as (r & R & K); [split; [reflexivity|discriminate]|].
    apply (items_more _ (Str w) r (" )" ++ rest)); [apply reads_str; exact R|rewrite K; reflexivity|]. apply items_end. reflexivity. }
  pose proof (said_one "" "ATTRIBUTES" _ " " "ATTRIBUTES" _ skippable_nil skippable_space said_attributes S) as E.
  pose proof (said_dict "" "" _ _ E skippable_nil skippable_nil) as D. cbn [append] in D. rewrite !append_assoc in D. cbn [append] in D |- *. rewrite ?append_assoc in D. cbn [append] in D. exact D.
Qed.

(** ** Properties *)
Lemma property_said : forall c tabs k v t, tame k -> tame_value v -> ((c, k) = ("PBXBuildFile", "settings") -> exists w, letters w /\ v = Text ("{ATTRIBUTES = (" ++ w ++ ", ); }")) ->
  key_value c tabs (k, v) = Some t -> exists p, same_property c (k, v) (k, p) /\ says_entries t [(k, p)].
Proof.
  intros c tabs k v t K T ST E. unfold key_value in E. cbv zeta in E.
  assert (G : forall v' tv p, says tv p -> Some (indented (on_one_line c) tabs ++ encode (on_one_line c) k ++ " = " ++ tv ++ ";" ++ separator (on_one_line c)) = Some v' -> says_entries v' [(k, p)]).
  { intros v' tv p P Q. injection Q as <-. apply said_one; [apply skippable_indented|apply skippable_separator|apply encode_says; exact K|exact P]. }
  destruct (String.eqb_spec k "settings") as [->|Ks].
  - cbn [String.eqb Ascii.eqb Bool.eqb andb] in E. change (String.eqb "settings" "remoteGlobalIDString") with false in E. change (String.eqb "settings" "buildSettings") with false in E. cbn [andb] in E.
    destruct (String.eqb_spec c "PBXBuildFile") as [->|Kc].
    + destruct (ST eq_refl) as (w & L & ->). exists (Dict [("ATTRIBUTES", Array [Str w])]). split; [apply property_settings; [reflexivity|exact L]|].
      cbn [printable] in E. refine (G _ _ _ _ E). replace (encode (on_one_line "PBXBuildFile") ("{ATTRIBUTES = (" ++ w ++ ", ); }")) with (String dquote (("{ATTRIBUTES = (" ++ w ++ ", ); }") ++ str1 dquote)).
      * rewrite strip_quoted. apply settings_said. exact L.
      * unfold encode. change (unquoted ("{ATTRIBUTES = (" ++ w ++ ", ); }")) with false. cbn [andb]. rewrite !escapes_app. destruct L as [w N H]. rewrite (escapes_letters _ w H). reflexivity.
    + destruct (printable (on_one_line c) (on_one_line c) false tabs v) as [tv|] eqn:P; [|discriminate E]. destruct (value_said _ _ _ v T _ _ P) as (p & S1 & S2). exists p. split; [|exact (G _ _ _ S2 E)].
      apply property_other; [intros X; injection X as ->; contradiction|discriminate|discriminate|exact S1].
  - cbn [andb] in E. destruct (String.eqb_spec k "remoteGlobalIDString") as [->|Kr].
    + change (String.eqb "remoteGlobalIDString" "buildSettings") with false in E. cbn [andb] in E. destruct (String.eqb_spec c "PBXContainerItemProxy") as [->|Kc].
      * destruct v as [?|?|i m|?|?]; try discriminate E. exists (Str i). split; [apply property_remote; reflexivity|]. cbn [printable] in E. refine (G _ _ _ _ E). inversion T as [| |? ? L| |]; subst.
        apply says_str. apply encode_says. inversion L as [? N H]; subst. split; [|split].
        -- clear - H. induction i as [|a i IH]; [reflexivity|]. cbn [has_char]. rewrite IH; [|intros b I; apply H; right; exact I]. specialize (H a (or_introl eq_refl)). destruct (Ascii.eqb_spec "013" a) as [<-|_]; [cbn in H; lia|].
           try (destruct (Ascii.eqb_spec a "013") as [->|_]; [cbn in H; lia|]). reflexivity.
        -- intros (b & _ & -> & _). assert (I : In "010"%char (list_ascii_of_string (b ++ newline))). { clear. induction b as [|a b IH]; [left; reflexivity|right; exact IH]. } specialize (H _ I). cbn in H. lia.
        -- intros (r & -> & _). specialize (H "/"%char (or_introl eq_refl)). cbn in H. lia.
      * destruct (printable (on_one_line c) (on_one_line c) false tabs v) as [tv|] eqn:P; [|discriminate E]. destruct (value_said _ _ _ v T _ _ P) as (p & S1 & S2). exists p. split; [|exact (G _ _ _ S2 E)].
        apply property_other; [discriminate|intros X; injection X as ->; contradiction|discriminate|exact S1].
    + cbn [andb] in E. destruct (String.eqb_spec k "buildSettings") as [->|Kb]; cbn [andb] in E; [destruct (String.eqb_spec c "XCBuildConfiguration") as [->|Kc]|].
      * destruct (printable _ _ true tabs v) as [tv|] eqn:P; [|discriminate E]. destruct (value_said _ _ _ v T _ _ P) as (p & S1 & S2). exists p. split; [|exact (G _ _ _ S2 E)]. apply property_build; [reflexivity|exact S1].
      * destruct (printable _ _ false tabs v) as [tv|] eqn:P; [|discriminate E]. destruct (value_said _ _ _ v T _ _ P) as (p & S1 & S2). exists p. split; [|exact (G _ _ _ S2 E)].
        apply property_other; [discriminate|discriminate|intros X; injection X as ->; contradiction|exact S1].
      * destruct (printable _ _ false tabs v) as [tv|] eqn:P; [|discriminate E]. destruct (value_said _ _ _ v T _ _ P) as (p & S1 & S2). exists p. split; [|exact (G _ _ _ S2 E)].
        apply property_other; [intros X; injection X as _ ->; contradiction|intros X; injection X as _ ->; contradiction|intros X; injection X as _ ->; contradiction|exact S1].
Qed.

(** ** Objects *)
Lemma reference_says : forall i c, letters i -> says_text (i ++ if String.eqb c "" then "" else " " ++ encode_comment c) i.
Proof.
  intros i c L. destruct (String.eqb c ""); [rewrite append_nil_r; apply says_letters, L|].
  intros rest S. destruct (says_letters i L (" " ++ encode_comment c ++ rest)) as (r & R & K); [split; [reflexivity|discriminate]|]. exists r. split; [rewrite !append_assoc; exact R|].
  rewrite K. change (skip (" " ++ encode_comment c ++ rest)) with (skip (encode_comment c ++ rest)). apply skippable_comment.
Qed.
Lemma letters_tame : forall s, letters s -> tame s.
Proof.
  intros i L. inversion L as [? N H]; subst. split; [|split].
  - clear - H. induction i as [|a i IH]; [reflexivity|]. cbn [has_char]. rewrite IH; [|intros b I; apply H; right; exact I]. specialize (H a (or_introl eq_refl)). destruct (Ascii.eqb_spec "013" a) as [<-|_]; [cbn in H; lia|].
    try (destruct (Ascii.eqb_spec a "013") as [->|_]; [cbn in H; lia|]). reflexivity.
  - intros (b & _ & -> & _). assert (I : In "010"%char (list_ascii_of_string (b ++ newline))). { clear. induction b as [|a b IH]; [left; reflexivity|right; exact IH]. } specialize (H _ I). cbn in H. lia.
  - intros (r & -> & _). specialize (H "/"%char (or_introl eq_refl)). cbn in H. lia.
Qed.
Lemma isa_letters : letters "isa".
Proof. constructor; [discriminate|]. intros a I. cbn [list_ascii_of_string] in I. repeat (destruct I as [<-|I]; [cbn; lia|]). destruct I. Qed.
Lemma properties_said : forall c tabs kvs ts,
  Forall (fun kv => tame (fst kv) /\ tame_value (snd kv)) kvs -> (c = "PBXBuildFile" -> forall v, In ("settings", v) kvs -> exists w, letters w /\ v = Text ("{ATTRIBUTES = (" ++ w ++ ", ); }")) ->
  Forall2 (fun kv t => key_value c tabs kv = Some t) kvs ts -> exists ds, Forall2 (same_property c) kvs ds /\ says_entries (joined ts) ds.
Proof.
  intros c tabs kvs ts T S F. induction F as [|[k v] t kvs ts E F IH]; [exists []; split; [constructor|apply said_nothing, skippable_nil]|].
  inversion T as [|? ? [T0 T1] T2]; subst. cbn [fst snd] in *. destruct (property_said c tabs k v t T0 T1) as (p & P1 & P2); [intros X; injection X as -> ->; apply (S eq_refl); left; reflexivity|exact E|].
  destruct IH as (ds & D1 & D2); [exact T2|intros X w I; apply (S X); right; exact I|]. exists ((k, p) :: ds). split; [constructor; assumption|]. rewrite joined_cons. apply (said_app _ _ [(k, p)] ds); assumption.
Qed.
Lemma object_said : forall o t, tame_object o -> print_object o = Some t -> exists d, same_object o d /\ says_entries t [d].
Proof.
  intros o t (T1 & T2 & T3 & T4) E. unfold print_object in E. cbv zeta in E. cbn [printable] in E. destruct (all_some _) as [kvs|] eqn:A; [|discriminate E]. injection E as <-. apply all_some_Forall2 in A.
  pose proof (sort_by_perm _ fst (properties o)) as SP.
  destruct (properties_said (class o) 3 (("isa", Text (class o)) :: sort_by fst (properties o)) kvs) as (ds & D1 & D2); [| |exact A|].
  - constructor; [split; [apply letters_tame, isa_letters|apply tame_text, letters_tame, T2]|]. rewrite Forall_forall in T3 |- *. intros kv I. apply T3. exact (Permutation_in _ (Permutation_sym SP) I).
  - intros X v [I|I]; [discriminate I|]. apply (T4 X). exact (Permutation_in _ (Permutation_sym SP) I).
  - inversion D1 as [|? d ? ds' H1 H2]; subst. assert (d = ("isa", Str (class o))) as ->.
    { inversion H1 as [w X|i m X|v p X Y|k v p X1 X2 X3 Y]; subst. inversion Y; subst. reflexivity. }
    exists (id o, Dict (("isa", Str (class o)) :: ds')). split; [exists (sort_by fst (properties o)), ds'; repeat split; assumption|].
    set (h := id o ++ (if String.eqb (comment o) "" then "" else " " ++ encode_comment (comment o))). set (n := if on_one_line (class o) then "" else newline). set (m := indent (if on_one_line (class o) then 0 else 2)).
    match goal with |- says_entries ?t _ => replace t with (indent 2 ++ h ++ " = " ++ ("{" ++ n ++ joined kvs ++ m ++ "}") ++ ";" ++ newline) by (unfold h; rewrite !append_assoc; reflexivity) end.
    apply said_one; [apply skippable_indent|apply skippable_newline|apply reference_says; exact T1|]. apply said_dict; [exact D2| |apply skippable_indent]. unfold n. destruct (on_one_line (class o)); [apply skippable_nil|apply skippable_newline].
Qed.
Lemma objects_said : forall os ts, Forall tame_object os -> Forall2 (fun o t => print_object o = Some t) os ts -> exists ds, Forall2 same_object os ds /\ says_entries (joined ts) ds.
Proof.
  intros os ts T F. induction F as [|o t os ts E F IH]; [exists []; split; [constructor|apply said_nothing, skippable_nil]|]. inversion T as [|? ? T1 T2]; subst.
  destruct (object_said o t T1 E) as (d & D1 & D2). destruct (IH T2) as (ds & E1 & E2). exists (d :: ds). split; [constructor; assumption|]. rewrite joined_cons. apply (said_app _ _ [d] ds); assumption.
Qed.

(** ** Sections *)
Lemma filter_parts : forall A (f : A -> bool) l, Permutation l (filter f l ++ filter (fun x => negb (f x)) l).
Proof.
  intros A f l. induction l as [|x l IH]; [reflexivity|]. cbn [filter]. destruct (f x); cbn [negb app]; [constructor; exact IH|]. apply Permutation_cons_app. exact IH.
Qed.
Lemma sections_perm : forall cs os, NoDup cs -> (forall o, In o os -> In (class o) cs) -> Permutation os (concat (map (fun c => filter (fun o => String.eqb (class o) c) os) cs)).
Proof.
  induction cs as [|c cs IH]; intros os N H.
  - destruct os as [|o os]; [reflexivity|]. destruct (H o (or_introl eq_refl)).
  - inversion N as [|? ? N1 N2]; subst. cbn [map concat]. rewrite (filter_parts _ (fun o => String.eqb (class o) c) os) at 1. apply Permutation_app_head.
    rewrite (IH (filter (fun o => negb (String.eqb (class o) c)) os) N2).
    + assert (G : map (fun c0 => filter (fun o => String.eqb (class o) c0) (filter (fun o => negb (String.eqb (class o) c)) os)) cs = map (fun c0 => filter (fun o => String.eqb (class o) c0) os) cs).
      { apply map_ext_in. intros c0 I. clear - I N1. induction os as [|o os IHo]; [reflexivity|]. cbn [filter]. destruct (String.eqb_spec (class o) c) as [Ec|Ec]; cbn [negb].
        - destruct (String.eqb_spec (class o) c0) as [E0|E0]; [congruence|exact IHo].
        - cbn [filter]. rewrite IHo. reflexivity. }
      rewrite G. reflexivity.
    + intros o I. apply filter_In in I. destruct I as [I1 I2]. destruct (H o I1) as [E|E]; [|exact E]. rewrite E, String.eqb_refl in I2. discriminate I2.
Qed.
Lemma classes_in : forall os seen o, In o os -> In (class o) seen \/ In (class o) (classes seen os).
Proof.
  induction os as [|o' os IH]; intros seen o I; [destruct I|]. cbn [classes]. destruct (mem (class o') seen) eqn:M.
  - destruct I as [<-|I]; [left; apply mem_In; exact M|apply IH; exact I].
  - destruct I as [<-|I]; [right; left; reflexivity|]. destruct (IH (class o' :: seen) o I) as [[E|E]|E]; [right; left; exact E|left; exact E|right; right; exact E].
Qed.
Lemma classes_new : forall os seen c, In c (classes seen os) -> ~ In c seen /\ exists o, In o os /\ class o = c.
Proof.
  induction os as [|o os IH]; intros seen c I; [destruct I|]. cbn [classes] in I. destruct (mem (class o) seen) eqn:M.
  - destruct (IH _ _ I) as (N & o' & I' & E). split; [exact N|]. exists o'. split; [right; exact I'|exact E].
  - destruct I as [<-|I]; [split; [apply mem_false; exact M|exists o; split; [left; reflexivity|reflexivity]]|]. destruct (IH _ _ I) as (N & o' & I' & E). split; [intros X; apply N; right; exact X|]. exists o'. split; [right; exact I'|exact E].
Qed.
Lemma classes_NoDup : forall os seen, NoDup (classes seen os).
Proof.
  induction os as [|o os IH]; intros seen; [constructor|]. cbn [classes]. destruct (mem (class o) seen); [apply IH|]. constructor; [|apply IH]. intros I. destruct (classes_new _ _ _ I) as [N _]. apply N. left. reflexivity.
Qed.
Lemma mark_said : forall word c, letters c -> (forall a, In a (list_ascii_of_string word) -> a <> "*"%char) -> skippable ("/* " ++ (word ++ c ++ " section") ++ " */").
Proof.
  intros word c L W. apply skippable_mark. apply closes_letters. intros a I.
  assert (X : In a (list_ascii_of_string word) \/ In a (list_ascii_of_string c) \/ In a (list_ascii_of_string " section")).
  { clear - I. assert (G : forall x y, In a (list_ascii_of_string (x ++ y)) -> In a (list_ascii_of_string x) \/ In a (list_ascii_of_string y)).
    { induction x as [|b x IH]; intros y J; [right; exact J|]. destruct J as [J|J]; [left; left; exact J|]. destruct (IH y J); [left; right; assumption|right; assumption]. }
    destruct (G _ _ I) as [J|J]; [left; exact J|right; apply G; exact J]. }
  destruct X as [X|[X|X]]; [apply W; exact X| |].
  - destruct L as [c N H]. intros ->. specialize (H _ X). cbn in H. lia.
  - cbn [list_ascii_of_string] in X. intros ->. repeat (destruct X as [X|X]; [discriminate X|]). destruct X.
Qed.
Lemma begin_calm : forall a, In a (list_ascii_of_string "Begin ") -> a <> "*"%char.
Proof. intros a I ->. cbn [list_ascii_of_string] in I. repeat (destruct I as [I|I]; [discriminate I|]). destruct I. Qed.
Lemma end_calm : forall a, In a (list_ascii_of_string "End ") -> a <> "*"%char.
Proof. intros a I ->. cbn [list_ascii_of_string] in I. repeat (destruct I as [I|I]; [discriminate I|]). destruct I. Qed.
Lemma section_said : forall os c t, Forall tame_object os -> letters c -> print_section os c = Some t ->
  exists os' ds, Permutation (filter (fun o => String.eqb (class o) c) os) os' /\ Forall2 same_object os' ds /\ says_entries t ds.
Proof.
  intros os c t T L E. unfold print_section in E. destruct (all_some _) as [ts|] eqn:A; [|discriminate E]. injection E as <-. apply all_some_Forall2 in A.
  set (l := filter (fun o => String.eqb (class o) c) os) in *. pose proof (sort_by_perm _ id l) as SP.
  destruct (objects_said (sort_by id l) ts) as (ds & D1 & D2); [|exact A|].
  - rewrite Forall_forall in *. intros o I. apply T. apply (Permutation_in _ (Permutation_sym SP)) in I. unfold l in I. apply filter_In in I. exact (proj1 I).
  - exists (sort_by id l), ds. split; [exact SP|]. split; [exact D1|].
    match goal with |- says_entries ?t _ => replace t with ((newline ++ ("/* " ++ ("Begin " ++ c ++ " section") ++ " */") ++ newline) ++ (joined ts ++ (("/* " ++ ("End " ++ c ++ " section") ++ " */") ++ newline))) end.
    + apply (said_app _ _ [] ds).
      * apply said_nothing. apply skippable_app; [apply skippable_newline|]. apply skippable_app; [apply mark_said; [exact L|exact begin_calm]|apply skippable_newline].
      * rewrite <- (app_nil_r ds). apply said_app; [exact D2|]. apply said_nothing. apply skippable_app; [apply mark_said; [exact L|exact end_calm]|apply skippable_newline].
    + rewrite !append_assoc. cbn [append]. rewrite ?append_assoc. reflexivity.
Qed.
Lemma sections_said : forall os cs ts, Forall tame_object os -> Forall letters cs -> Forall2 (fun c t => print_section os c = Some t) cs ts ->
  exists os' ds, Permutation (concat (map (fun c => filter (fun o => String.eqb (class o) c) os) cs)) os' /\ Forall2 same_object os' ds /\ says_entries (joined ts) ds.
Proof.
  intros os cs ts T L F. induction F as [|c t cs ts E F IH]; [exists [], []; repeat split; [constructor|constructor|apply said_nothing, skippable_nil]|]. inversion L as [|? ? L1 L2]; subst.
  destruct (section_said os c t T L1 E) as (o1 & d1 & P1 & S1 & E1). destruct (IH L2) as (o2 & d2 & P2 & S2 & E2). exists (o1 ++ o2)%list, (d1 ++ d2)%list. cbn [map concat]. split; [apply Permutation_app; assumption|]. split; [apply Forall2_app; assumption|].
  rewrite joined_cons. apply said_app; assumption.
Qed.
Lemma all_objects_said : forall os t, Forall tame_object os -> print_objects os = Some t ->
  exists os' ds, Permutation os os' /\ Forall2 same_object os' ds /\ says_entries t [("objects", Dict ds)].
Proof.
  intros os t T E. unfold print_objects in E. destruct (all_some _) as [ts|] eqn:A; [|discriminate E]. injection E as <-. apply all_some_Forall2 in A.
  destruct (sections_said os (sort (classes [] os)) ts T) as (os' & ds & P & S & D); [|exact A|].
  - rewrite Forall_forall in T |- *. intros c I. apply (proj1 (sort_In _ _)) in I. destruct (classes_new _ _ _ I) as (_ & o & I' & <-). destruct (T o I') as (_ & L & _). exact L.
  - exists os', ds. split; [|split; [exact S|]].
    + rewrite <- P. apply sections_perm; [apply sort_NoDup, classes_NoDup|]. intros o I. apply (proj2 (sort_In _ _)). destruct (classes_in os [] o I) as [[]|I']; exact I'.
    + match goal with |- says_entries ?t _ => replace t with (tab ++ "objects" ++ " = " ++ ("{" ++ newline ++ joined ts ++ tab ++ "}") ++ ";" ++ newline) by (rewrite !append_assoc; reflexivity) end.
      apply said_one; [exact (skippable_indent 1)|apply skippable_newline| |apply said_dict; [exact D|apply skippable_newline|exact (skippable_indent 1)]].
      apply says_letters. constructor; [discriminate|]. intros a I. cbn [list_ascii_of_string] in I. repeat (destruct I as [<-|I]; [cbn; lia|]). destruct I.
Qed.

(** ** The file *)
Theorem file_said : forall props os text,
  Forall (fun kv => tame (fst kv) /\ tame_value (snd kv)) props -> ~ In "objects" (map fst props) -> Forall tame_object os -> print_file props os = Some text ->
  exists d ps ds os' objects, read_as text (Dict d) /\ Permutation d (("objects", Dict objects) :: ds) /\
    Permutation props ps /\ Forall2 (fun kv kp => fst kv = fst kp /\ same false (snd kv) (snd kp)) ps ds /\ Permutation os os' /\ Forall2 same_object os' objects.
Proof.
  intros props os text T NO TO E. unfold print_file in E.
  assert (FP : filter (fun kv => negb (String.eqb (fst kv) "objects")) props = props).
  { clear - NO. induction props as [|kv props IH]; [reflexivity|]. cbn [filter map In] in *. destruct (String.eqb_spec (fst kv) "objects") as [X|X]; [exfalso; apply NO; left; exact X|]. cbn [negb]. rewrite IH; [reflexivity|]. intros I. apply NO. right. exact I. }
  rewrite FP in E. destruct (all_some _) as [ts|] eqn:A; [|discriminate E]. injection E as <-. apply all_some_Forall2 in A.
  set (l := sort_by fst (("objects", Entries []) :: props)) in *. pose proof (sort_by_perm _ fst (("objects", Entries []) :: props)) as SP. fold l in SP.
  set (shown := fun (kv : string * value) (kp : string * plist) => (kv = ("objects", Entries []) /\ exists os' objects, Permutation os os' /\ Forall2 same_object os' objects /\ kp = ("objects", Dict objects)) \/ (In kv props /\ fst kv = fst kp /\ same false (snd kv) (snd kp))).
  assert (G : exists d, Forall2 shown l d /\ says_entries (joined ts) d).
  { assert (TL : Forall (fun kv => kv = ("objects", Entries []) \/ In kv props) l).
    { rewrite Forall_forall. intros kv I. apply (Permutation_in _ (Permutation_sym SP)) in I. destruct I as [I|I]; [left; symmetry; exact I|right; exact I]. }
    clear SP. clearbody l. induction A as [|kv t l ts E A IH]; [exists []; split; [constructor|apply said_nothing, skippable_nil]|]. inversion TL as [|? ? T1 T2]; subst. destruct (IH T2) as (d & D1 & D2). cbv beta in E.
    assert (H : exists kp, shown kv kp /\ says_entries t [kp]).
    { destruct T1 as [->|I].
      - cbn [fst] in E. change (String.eqb "objects" "objects") with true in E. cbv iota in E. destruct (all_objects_said os t TO E) as (os' & ds & P & S & H). exists ("objects", Dict ds). split; [left; split; [reflexivity|]; exists os', ds; repeat split; assumption|exact H].
      - rewrite Forall_forall in T. destruct (T kv I) as [K V]. destruct (String.eqb_spec (fst kv) "objects") as [X|X]; [exfalso; apply NO; rewrite <- X; apply in_map; exact I|].
        destruct kv as [k v]. cbn [fst snd] in *. destruct (property_said "XCProjectFile" 1 k v t K V) as (p & P1 & P2); [intros Y; discriminate Y|exact E|]. exists (k, p). split; [|exact P2]. right. split; [exact I|]. split; [reflexivity|].
        inversion P1 as [w Y|i m Y|v' p' Y Z|k' v' p' Y1 Y2 Y3 Z]; subst; try discriminate Y. exact Z. }
    destruct H as (kp & H1 & H2). exists (kp :: d). split; [constructor; assumption|]. rewrite joined_cons. apply (said_app _ _ [kp] d); assumption. }
  destruct G as (d & G1 & G2). exists d.
  assert (R : read_as ("// !$*UTF8*$!" ++ newline ++ "{" ++ newline ++ joined ts ++ "}" ++ newline) (Dict d)).
  { pose proof (said_dict newline "" _ _ G2 skippable_newline skippable_nil newline) as S. destruct S as (r & R & K); [split; [reflexivity|discriminate]|]. exists r. split; [|rewrite K; reflexivity].
    apply (reads_skip (("{" ++ newline ++ joined ts ++ "" ++ "}") ++ newline)); [|exact R]. rewrite !append_assoc. reflexivity. }
  apply Permutation_sym in SP.
  assert (F' : Forall2 (fun kp kv => shown kv kp) d l) by (clear - G1; induction G1; constructor; assumption).
  destruct (perm_Forall2 _ _ _ _ _ SP d F') as (d' & Q & F2). inversion F2 as [|kp ? ds ? H1 H2]; subst.
  destruct H1 as [(_ & os' & objects & P & S & ->)|(I & _)]; [|exfalso; apply NO; apply (in_map fst) in I; exact I].
  exists props, ds, os', objects. split; [exact R|]. split; [exact Q|]. split; [reflexivity|]. split; [|split; assumption].
  assert (W : forall kv, In kv props -> fst kv <> "objects") by (intros kv I X; apply NO; rewrite <- X; apply in_map; exact I).
  assert (Z : forall ds l, Forall2 (fun kp kv => shown kv kp) ds l -> (forall kv, In kv l -> fst kv <> "objects") -> Forall2 (fun kv kp => fst kv = fst kp /\ same false (snd kv) (snd kp)) l ds).
  { intros ds0 l0 H. induction H as [|kp kv ds1 l1 H H3 IH]; intros W'; [constructor|]. constructor.
    - destruct H as [(-> & _)|(_ & H)]; [|exact H]. exfalso. apply (W' _ (or_introl eq_refl)). reflexivity.
    - apply IH. intros kv' I. apply W'. right. exact I. }
  exact (Z ds props H2 W).
Qed.

(** ** A text is read in one way only *)
Scheme reads_mut := Induction for reads Sort Prop with items_mut := Induction for reads_items Sort Prop with entries_mut := Induction for reads_entries Sort Prop.
Lemma string_once : forall s t r, reads_string s t r -> forall t' r', reads_string s t' r' -> t = t' /\ r = r'.
Proof.
  intros s t r H t' r' H'. destruct H as [x t r E Q|a x t r E Q T]; destruct H' as [y t' r' E' Q'|b y t' r' E' Q' T']; rewrite E in E'; injection E' as; subst.
  - rewrite Q in Q'. injection Q' as -> ->. split; reflexivity.
  - discriminate Q'.
  - discriminate Q.
  - rewrite T in T'. injection T' as -> ->. split; reflexivity.
Qed.
Lemma string_start : forall s t r, reads_string s t r -> (exists x, skip s = String dquote x) \/ exists a x, skip s = String a x /\ naked a = true.
Proof. intros s t r H. destruct H as [x t r E Q|a x t r E Q T]; [left; exists x; exact E|right; exists a, x; split; assumption]. Qed.
Lemma string_not : forall s t r a x, reads_string s t r -> skip s = String a x -> naked a = false -> a <> dquote -> False.
Proof. intros s t r a x H E N D. destruct (string_start s t r H) as [(y & F)|(b & y & F & M)]; rewrite E in F; injection F as; subst; [apply D; reflexivity|congruence]. Qed.
Lemma reads_not : forall s p r a x, reads s p r -> skip s = String a x -> naked a = false -> a <> dquote -> a <> "("%char -> a <> "{"%char -> False.
Proof.
  intros s p r a x H E N D P B. destruct H as [s t r H|s y l r F H|s y l r F H]; [exact (string_not s t r a x H E N D)| |]; rewrite E in F; injection F as; contradiction.
Qed.
Theorem read_once : forall s p r, reads s p r -> forall p' r', reads s p' r' -> p = p' /\ r = r'.
Proof.
  apply (reads_mut (fun s p r _ => forall p' r', reads s p' r' -> p = p' /\ r = r') (fun s l r _ => forall l' r', reads_items s l' r' -> l = l' /\ r = r') (fun s l r _ => forall l' r', reads_entries s l' r' -> l = l' /\ r = r')).
  - intros s t r H p' r' H'. inversion H' as [? t' ? H1|? x l ? E _|? x l ? E _]; subst.
    + destruct (string_once _ _ _ H _ _ H1) as [-> ->]. split; reflexivity.
    + exfalso. apply (string_not _ _ _ _ _ H E); [reflexivity|discriminate].
    + exfalso. apply (string_not _ _ _ _ _ H E); [reflexivity|discriminate].
  - intros s x l r E H IH p' r' H'. inversion H' as [? t' ? H1|? y l' ? E' H1|? y l' ? E' H1]; subst.
    + exfalso. apply (string_not _ _ _ _ _ H1 E); [reflexivity|discriminate].
    + rewrite E in E'. injection E' as ->. destruct (IH _ _ H1) as [-> ->]. split; reflexivity.
    + rewrite E in E'. discriminate E'.
  - intros s x l r E H IH p' r' H'. inversion H' as [? t' ? H1|? y l' ? E' H1|? y l' ? E' H1]; subst.
    + exfalso. apply (string_not _ _ _ _ _ H1 E); [reflexivity|discriminate].
    + rewrite E in E'. discriminate E'.
    + rewrite E in E'. injection E' as ->. destruct (IH _ _ H1) as [-> ->]. split; reflexivity.
  - intros s r E l' r' H'. inversion H' as [? ? E'|? p x ? H1 E'|? p x y l ? H1 E' H2]; subst.
    + rewrite E in E'. injection E' as ->. split; reflexivity.
    + exfalso. apply (reads_not _ _ _ _ _ H1 E); [reflexivity|discriminate..].
    + exfalso. apply (reads_not _ _ _ _ _ H1 E); [reflexivity|discriminate..].
  - intros s p x r H IH E l' r' H'. inversion H' as [? ? E'|? p' x' ? H1 E'|? p' x' y l ? H1 E' H2]; subst.
    + exfalso. apply (reads_not _ _ _ _ _ H E'); [reflexivity|discriminate..].
    + destruct (IH _ _ H1) as [-> ->]. rewrite E in E'. injection E' as ->. split; reflexivity.
    + destruct (IH _ _ H1) as [-> ->]. rewrite E in E'. discriminate E'.
  - intros s p x y l r H IH E H2 IH2 l' r' H'. inversion H' as [? ? E'|? p' x' ? H1 E'|? p' x' y' l1 ? H1 E' H3]; subst.
    + exfalso. apply (reads_not _ _ _ _ _ H E'); [reflexivity|discriminate..].
    + destruct (IH _ _ H1) as [-> ->]. rewrite E in E'. discriminate E'.
    + destruct (IH _ _ H1) as [-> ->]. rewrite E in E'. injection E' as ->. destruct (IH2 _ _ H3) as [-> ->]. split; reflexivity.
  - intros s r E l' r' H'. inversion H' as [? ? E'|? k x x' p x2 x3 l ? H1 E1 H2 E2 H3]; subst.
    + rewrite E in E'. injection E' as ->. split; reflexivity.
    + exfalso. apply (string_not _ _ _ _ _ H1 E); [reflexivity|discriminate].
  - intros s k x x' p x2 x3 l r H1 E1 H2 IH E2 H3 IH3 l' r' H'. inversion H' as [? ? E'|? k' y y' p' y2 y3 l1 ? G1 F1 G2 F2 G3]; subst.
    + exfalso. apply (string_not _ _ _ _ _ H1 E'); [reflexivity|discriminate].
    + destruct (string_once _ _ _ H1 _ _ G1) as [-> ->]. rewrite E1 in F1. injection F1 as ->. destruct (IH _ _ G2) as [-> ->]. rewrite E2 in F2. injection F2 as ->. destruct (IH3 _ _ G3) as [-> ->]. split; reflexivity.
Qed.
