(** What MSBuild reads in the settings. *)
From Verif Require Import Lib LibFacts Str StrFacts Model_Path Proof_Path Proof_Path2 Spec_Path Model_Value Model_Vcxproj Spec_Vcxproj Model_Cmdline Model_Tools Spec_Tools Proof_Vcxproj Proof_Vcxproj2 Proof_Vcxproj4 Proof_Custom Proof_Custom2 Proof_Custom3 Proof_Tools.
From Verif Require Proof_Merge2 Model_Writer Proof_Vs.
Local Open Scope string_scope.

(** ** definitions *)
Definition code (a : ascii) : string := if Ascii.eqb a "%" then "%25%25" else if Ascii.eqb a "#" then "\043" else special a.
Definition meaning (a : ascii) : string := if Ascii.eqb a "%" then "%%" else if Ascii.eqb a "#" then "\043" else String a "".
Lemma sent_map : forall d, sent d = map_chars meaning d.
Proof. induction d as [|a d IH]; [reflexivity|]. cbn [sent map_chars]. rewrite IH. reflexivity. Qed.
Lemma map_append : forall f a b, map_chars f (a ++ b) = map_chars f a ++ map_chars f b.
Proof. intros f. induction a as [|x a IH]; intros b; [reflexivity|]. cbn [append map_chars]. rewrite IH. symmetry. apply append_assoc. Qed.
Lemma map_map_chars : forall f g s, map_chars f (map_chars g s) = map_chars (fun a => map_chars f (g a)) s.
Proof. intros f g. induction s as [|x s IH]; [reflexivity|]. cbn [map_chars]. rewrite map_append, IH. reflexivity. Qed.
Lemma map_ext_chars : forall f g s, (forall a, f a = g a) -> map_chars f s = map_chars g s.
Proof. intros f g s E. induction s as [|x s IH]; [reflexivity|]. cbn [map_chars]. rewrite E, IH. reflexivity. Qed.
Lemma escape_code : forall d x, escape_define d = inl x -> x = map_chars code d.
Proof.
  intros d x E. unfold escape_define, escape_argument in E. destruct (Model_Writer.contains _ _); [discriminate|]. injection E as <-. unfold double_percents. rewrite !map_map_chars. apply map_ext_chars. intros [[] [] [] [] [] [] [] []]; reflexivity.
Qed.
Lemma code_reads : forall a r, unescape (code a ++ r) = meaning a ++ unescape r.
Proof.
  assert (P : forall a r, a <> "%"%char -> unescape (String a r) = String a (unescape r)).
  { intros a r N. cbn [unescape]. destruct (Ascii.eqb_spec a "%"); [contradiction|]. destruct r as [|b [|c r]]; reflexivity. }
  intros a r. unfold code, meaning, special.
  destruct (Ascii.eqb_spec a "%") as [->|N]; [reflexivity|].
  destruct (Ascii.eqb_spec a "#") as [->|N1]; [change ("\043" ++ r) with (String "\" (String "0" (String "4" (String "3" r)))); rewrite !P by discriminate; reflexivity|].
  destruct (Ascii.eqb_spec a "$") as [->|N2]; [reflexivity|].
  destruct (Ascii.eqb_spec a "@") as [->|N3]; [reflexivity|].
  destruct (Ascii.eqb_spec a "'") as [->|N4]; [reflexivity|].
  destruct (Ascii.eqb_spec a ";") as [->|N5]; [reflexivity|].
  destruct (Ascii.eqb_spec a "?") as [->|N6]; [reflexivity|].
  destruct (Ascii.eqb_spec a "*") as [->|N7]; [reflexivity|].
  cbn [append]. apply P. exact N.
Qed.
Lemma unescape_code : forall d, unescape (map_chars code d) = map_chars meaning d.
Proof. induction d as [|a d IH]; [reflexivity|]. cbn [map_chars]. rewrite code_reads, IH. reflexivity. Qed.
Lemma code_has : forall c d, In c [";"; "$"]%char -> has_char c (map_chars code d) = false.
Proof.
  intros c d I. induction d as [|a d IH]; [reflexivity|]. cbn [map_chars]. rewrite has_char_app, IH. destruct I as [<-|[<-|[]]]; destruct a as [[] [] [] [] [] [] [] []]; reflexivity.
Qed.
Lemma code_first : forall a, is_space a = false -> exists x t, code a = String x t /\ is_space x = false.
Proof. intros [[] [] [] [] [] [] [] []] H; try discriminate H; eexists; eexists; (split; [reflexivity|reflexivity]). Qed.
Lemma code_last : forall a, is_space a = false -> exists t x, code a = t ++ String x "" /\ is_space x = false.
Proof.
  intros a H. unfold code, special. repeat match goal with |- context [if Ascii.eqb a ?c then _ else _] => destruct (Ascii.eqb_spec a c) as [->|?] end;
    first [exists "%25%2", "5"%char; split; reflexivity|exists "\04", "3"%char; split; reflexivity|exists "%2", "4"%char; split; reflexivity|exists "%4", "0"%char; split; reflexivity|exists "%2", "7"%char; split; reflexivity
          |exists "%3", "B"%char; split; reflexivity|exists "%3", "F"%char; split; reflexivity|exists "%2", "A"%char; split; reflexivity|exists "", a; split; [reflexivity|exact H]].
Qed.
Lemma strip_code : forall d, d <> "" -> strip d = d -> strip (map_chars code d) = map_chars code d.
Proof.
  intros d N S. destruct d as [|a d]; [contradiction|]. pose proof (strip_first _ _ S) as F. destruct (last_char (String a d)) as [X|(t & z & X)]; [discriminate X|]. rewrite X in S. pose proof (strip_last _ _ S) as L.
  destruct (code_first a F) as (x & u & A1 & A2). destruct (code_last z L) as (v & y & B1 & B2). cbn [map_chars]. assert (Y : code a ++ map_chars code d = (map_chars code t ++ v) ++ String y "").
  { change (code a ++ map_chars code d) with (map_chars code (String a d)). rewrite X, map_append. cbn [map_chars]. rewrite append_nil_r, B1. symmetry. apply append_assoc. }
  rewrite A1 in *. cbn [append] in *. exact (strip_ends _ _ _ _ Y A2 B2).
Qed.
Lemma reads_code : forall d, d <> "" -> strip d = d -> reads (map_chars code d) = [sent d].
Proof.
  intros d N S. unfold reads. rewrite semicolons_none by (apply code_has; left; reflexivity). cbn [map]. rewrite (strip_code d N S), unescape_code, <- sent_map. cbn [filter]. destruct (String.eqb_spec (sent d) "") as [E|_]; [|reflexivity].
  exfalso. destruct d as [|a d]; [contradiction|]. cbn [sent] in E. destruct (Ascii.eqb a "%"); [discriminate|]. destruct (Ascii.eqb a "#"); discriminate.
Qed.
Lemma escape_all : forall l x, escape_defines l = inl x -> x = map (map_chars code) l.
Proof.
  induction l as [|d l IH]; intros x E; [injection E as <-; reflexivity|]. cbn [escape_defines] in E. destruct (escape_define d) as [y|] eqn:D; [|discriminate]. destruct (escape_defines l) as [r|]; [|discriminate]. injection E as <-. cbn [map]. rewrite (escape_code _ _ D), (IH r eq_refl). reflexivity.
Qed.

(** ** the text of a list *)
Lemma convert_none : forall s, has_char "$" s = false -> convert_macros s = s.
Proof. intros s H. unfold convert_macros. rewrite H. reflexivity. Qed.
Lemma convert_map : forall l, Forall (fun s => has_char "$" s = false) l -> map convert_macros l = l.
Proof. induction 1 as [|s l H _ IH]; [reflexivity|]. cbn [map]. rewrite (convert_none _ H), IH. reflexivity. Qed.
Lemma formatted_reads : forall tool name l, name <> "AdditionalOptions" -> reads (formatted tool name (Items l)) = flat_map (fun i => reads (convert_macros i)) (l ++ (if mem name inherited then [("%(" ++ name ++ ")")%string] else []))%list.
Proof.
  intros tool name l N. unfold formatted. assert (X : String.eqb name "AdditionalOptions" = false) by (apply String.eqb_neq; exact N). rewrite X, Bool.andb_false_r. rewrite reads_concat. replace (if mem name inherited then (l ++ [("%(" ++ name ++ ")")%string])%list else l) with (l ++ (if mem name inherited then [("%(" ++ name ++ ")")%string] else []))%list.
  - rewrite flat_map_concat_map, map_map, <- flat_map_concat_map. reflexivity.
  - destruct (mem name inherited); [reflexivity|apply app_nil_r].
Qed.
Lemma reads_each : forall l, Forall (fun s => has_char "$" s = false /\ reads s = [s]) l -> flat_map (fun i => reads (convert_macros i)) l = l.
Proof. induction 1 as [|s l [H1 H2] _ IH]; [reflexivity|]. cbn [flat_map]. rewrite (convert_none _ H1), H2, IH. reflexivity. Qed.

(** ** directories *)
Definition good (x : string) : Prop := x <> "" /\ x <> "." /\ x <> "..".
Lemma norm_good : forall l acc, Forall good acc -> Forall good (norm_comps true acc l).
Proof.
  induction l as [|c l IH]; intros acc F; cbn [norm_comps]; [exact F|]. destruct (String.eqb_spec c "") as [->|N1]; [exact (IH _ F)|]. cbn [orb]. unfold dot, dotdot. destruct (String.eqb_spec c ".") as [->|N2]; [exact (IH _ F)|]. cbn [negb andb orb].
  destruct (String.eqb_spec c "..") as [->|N3]; cbn [negb orb].
  - destruct acc as [|x acc]; [exact (IH _ F)|]. inversion F as [|? ? X F']; subst. destruct (String.eqb_spec x "..") as [E|_]; [destruct X as (_ & _ & X); contradiction|exact (IH _ F')].
  - apply IH. constructor; [repeat split; assumption|exact F].
Qed.
Lemma letter : forall a, has_char a "ABCDEFGHIJKLMNOPQRSTUVWXYZabcdefghijklmnopqrstuvwxyz" = true -> is_space a = false /\ a <> "/"%char /\ a <> "\"%char /\ a <> "$"%char /\ a <> ";"%char /\ a <> "%"%char.
Proof. intros [[] [] [] [] [] [] [] []] H; try discriminate H; repeat split; discriminate. Qed.
Definition comps_of (r : string) : list string := rev (norm_comps true [] (pieces r)).
Lemma comps_walk : forall r, walk [] (comps_of r) = leads [] r.
Proof. intros r. unfold comps_of, leads. rewrite (norm_comps_walk true [] (pieces r) []); [reflexivity|reflexivity|intros c []]. Qed.
Lemma comps_in : forall r x, In x (comps_of r) -> good x /\ In x (pieces r).
Proof.
  intros r x I. unfold comps_of in I. apply in_rev in I. split.
  - pose proof (norm_good (pieces r) [] (Forall_nil _)) as F. rewrite Forall_forall in F. exact (F x I).
  - destruct (norm_comps_subset _ _ _ _ I) as [[]|J]. exact J.
Qed.
Lemma bs_cons : forall a s, replace_char "/" "\" (String a s) = String (if Ascii.eqb a "/" then "\"%char else a) (replace_char "/" "\" s).
Proof. reflexivity. Qed.
Lemma fix_drive : forall p a r, (exists t, r = String "/" t \/ r = String "\" t) -> a <> "/"%char -> a <> "$"%char -> has_char "$" r = false -> leads [] r <> [] ->
  fix_path p (String a (String ":" r)) = String a (String ":" (String "\" (join_bs (comps_of r)))).
Proof.
  intros p a r R A1 A2 D L. assert (RT : rooted r = true) by (destruct R as (t & [-> | ->]); reflexivity). unfold fix_path. assert (I : nt_isabs (String a (String ":" r)) = true) by (unfold nt_isabs; cbn; exact RT). rewrite I. cbn [negb]. rewrite Bool.andb_false_r. cbn [andb].
  assert (NE : comps_of r <> []) by (intros E; apply L; rewrite <- comps_walk, E; reflexivity).
  rewrite bs_cons. destruct (Ascii.eqb_spec a "/"); [contradiction|]. rewrite bs_cons. cbn [Ascii.eqb Bool.eqb]. change (if Ascii.eqb ":" "/" then "\"%char else ":"%char) with ":"%char.
  assert (N : nt_normpath (String a (String ":" (to_bs r))) = String a (String ":" (String "\" (join_bs (comps_of r))))).
  { unfold nt_normpath. rewrite bs_cons. destruct (Ascii.eqb_spec a "/"); [contradiction|]. rewrite bs_cons. change (if Ascii.eqb ":" "/" then "\"%char else ":"%char) with ":"%char. change (replace_char "/" "\" (to_bs r)) with (to_bs (to_bs r)). rewrite to_bs_twice. cbn [nt_drive]. change (Ascii.eqb ":" ":") with true. cbn [fst snd].
    assert (RB : rooted (to_bs r) = true) by (destruct R as (t & [-> | ->]); reflexivity). rewrite RB. rewrite <- pieces_split. fold (comps_of r). destruct (comps_of r) as [|x l] eqn:E; [contradiction|]. reflexivity. }
  unfold normalized_source. change (replace_char "/" "\" r) with (to_bs r). rewrite N.
  assert (Z : forall y, In y (comps_of r) -> has_char "$" y = false) by (intros y Y; destruct (comps_in _ _ Y) as (_ & J); exact (pieces_char _ _ _ J D)).
  assert (C : forall x, has_char "$" x = false -> count_char "$" (String a (String ":" x)) = 0).
  { intros x X. apply count_zero. cbn [has_char]. destruct (Ascii.eqb_spec a "$"); [contradiction|]. exact X. }
  rewrite C by (rewrite to_bs_char by discriminate; exact D). rewrite C.
  2: { cbn [has_char]. change (Ascii.eqb "\" "$") with false. rewrite has_join by discriminate. destruct (existsb (has_char "$") (comps_of r)) eqn:X; [|reflexivity]. apply existsb_exists in X. destruct X as (y & Y & X). rewrite (Z y Y) in X. discriminate. }
  cbn [Nat.eqb]. assert (CH : chop (join_bs (comps_of r)) = join_bs (comps_of r)).
  { pose proof (chop_show (comps_of r)) as H. unfold show in H. destruct (comps_of r) as [|x l] eqn:E; [contradiction|]. rewrite <- E in *. apply H. intros y Y. destruct (comps_in _ _ Y) as ((G & _) & J). split; [exact (proj2 (pieces_no_sep _ _ J))|exact G]. }
  assert (JN : join_bs (comps_of r) <> "").
  { destruct (comps_of r) as [|x l] eqn:E; [contradiction|]. rewrite join_cons. assert (X : x <> "") by (apply (comps_in r x); rewrite E; left; reflexivity). destruct x; [contradiction|]. destruct l; discriminate. }
  destruct (join_bs (comps_of r)) as [|b j]; [contradiction|]. change (chop (String a (String ":" (String "\" (String b j))))) with (String a (String ":" (String "\" (chop (String b j))))). rewrite CH. reflexivity.
Qed.
Lemma no_slash_join : forall r, has_char "/" (join_bs (comps_of r)) = false.
Proof.
  intros r. rewrite has_join by discriminate. destruct (existsb (has_char "/") (comps_of r)) eqn:X; [|reflexivity]. apply existsb_exists in X. destruct X as (y & Y & X). destruct (comps_in _ _ Y) as (_ & J). rewrite (proj1 (pieces_no_sep _ _ J)) in X. discriminate.
Qed.
Lemma pieces_drive : forall a r, a <> "/"%char -> a <> "\"%char -> forall x, In x (pieces r) -> In x (pieces (String a (String ":" r))) \/ hd "" (pieces r) = x.
Proof.
  intros a r A1 A2 x I. cbn [pieces]. destruct (Ascii.eqb_spec a "/"); [contradiction|]. destruct (Ascii.eqb_spec a "\"); [contradiction|]. cbn [orb Ascii.eqb Bool.eqb]. change (Ascii.eqb ":" "/" || Ascii.eqb ":" "\")%bool with false. cbn iota. destruct (pieces r) as [|y l]; [destruct I|]. destruct I as [->|I]; [right; reflexivity|left; right; exact I].
Qed.
Lemma drive_reads : forall p a r, on_drive a r (String a (String ":" r)) -> literal (String a (String ":" r)) -> has_char "$" (String a (String ":" r)) = false -> leads [] r <> [] ->
  let f := fix_path p (String a (String ":" r)) in
  f = String a (String ":" (String "\" (join_bs (comps_of r)))) /\ to_bs f = f /\ has_char "$" f = false /\ reads f = [f].
Proof.
  intros p a r (_ & A & R) (L1 & L2 & _ & _ & _ & L3) D N f. destruct (letter a A) as (A0 & A1 & A2 & A3 & A4 & A5). assert (H : forall c, c <> a -> c <> ":"%char -> has_char c (String a (String ":" r)) = false -> has_char c r = false).
  { intros c C1 C2 X. cbn [has_char] in X. destruct (Ascii.eqb_spec a c); [congruence|]. destruct (Ascii.eqb_spec ":" c); [congruence|]. exact X. }
  assert (F : f = String a (String ":" (String "\" (join_bs (comps_of r))))) by (apply fix_drive; [exact R|exact A1|exact A3|apply H; [congruence|discriminate|exact D]|exact N]).
  assert (K : forall c, c <> a -> c <> ":"%char -> c <> "\"%char -> has_char c (String a (String ":" r)) = false -> has_char c f = false).
  { intros c C1 C2 C3 X. rewrite F. cbn [has_char]. destruct (Ascii.eqb_spec a c); [congruence|]. destruct (Ascii.eqb_spec ":" c); [congruence|]. destruct (Ascii.eqb_spec "\" c); [congruence|]. rewrite has_join by exact C3. destruct (existsb (has_char c) (comps_of r)) eqn:Y; [|reflexivity]. apply existsb_exists in Y. destruct Y as (y & Y & Z). destruct (comps_in _ _ Y) as (_ & J). rewrite (pieces_char c _ _ J (H c C1 C2 X)) in Z. discriminate. }
  split; [exact F|]. split; [|split].
  - unfold to_bs. apply replace_char_none. rewrite F. cbn [has_char]. destruct (Ascii.eqb_spec a "/"); [contradiction|]. change (Ascii.eqb ":" "/") with false. change (Ascii.eqb "\" "/") with false. apply no_slash_join.
  - apply K; [congruence|discriminate|discriminate|exact D].
  - unfold reads. rewrite semicolons_none by (apply K; [congruence|discriminate|discriminate|exact L1]). cbn [map].
    assert (S : strip f = f).
    { assert (NE : comps_of r <> []) by (intros E; apply N; rewrite <- comps_walk, E; reflexivity). assert (S : strip (join_bs (comps_of r)) = join_bs (comps_of r)).
      { apply strip_join; [exact NE|]. intros x I. destruct (comps_in _ _ I) as ((G & _) & J). split; [exact G|]. destruct (pieces_drive a r A1 A2 x J) as [Q|Q]; [rewrite Forall_forall in L3; exact (L3 x Q)|]. destruct G. destruct R as (t & [-> | ->]); symmetry; exact Q. }
      destruct (last_char (join_bs (comps_of r))) as [E|(t & z & E)].
      - exfalso. destruct (comps_of r) as [|x l] eqn:E'; [contradiction|]. rewrite join_cons in E. assert (X : x <> "") by (apply (comps_in r x); rewrite E'; left; reflexivity). destruct x; [contradiction|]. destruct l; discriminate.
      - rewrite F. rewrite E in *. apply (strip_ends _ _ (String a (String ":" (String "\" t))) z); [reflexivity|exact A0|exact (strip_last _ _ S)]. }
    rewrite S. rewrite unescape_none by (apply K; [congruence|discriminate|discriminate|exact L2]). cbn [filter]. rewrite F. reflexivity.
Qed.
Lemma relative_not_drive : forall d a r, relative d -> ~ on_drive a r d.
Proof. intros d a r ((_ & _ & N & _) & _) (E & _). exact (N a r E). Qed.
Lemma directory_fix : forall p d, way p -> directory d -> stands_for p d (fix_path p d) /\ to_bs (fix_path p d) = fix_path p d /\ has_char "$" (fix_path p d) = false /\ reads (fix_path p d) = [fix_path p d].
Proof.
  intros p d W (L & [R|(D & a & r & O & N)]).
  - split; [split; [intros _ here; exact (leads_fix p d here W (relative_movable _ R))|intros a r O; destruct (relative_not_drive _ _ _ R O)]|]. pose proof (fix_relative p d W R) as F. split; [|split].
    + rewrite (fix_movable p d W (relative_movable _ R)). unfold to_bs. apply replace_char_none. apply has_show; [discriminate|discriminate|]. intros x I. exact (proj1 (all_pieces_ok p d x I)).
    + destruct F as ((_ & F & _) & _). exact F.
    + exact (reads_fix p d W (relative_movable _ R) L).
  - pose proof O as (-> & A & RT). destruct (drive_reads p a r O L D N) as (F & B & C & E). split; [|exact (conj B (conj C E))]. split; [intros R; destruct (relative_not_drive _ _ _ R O)|]. intros a' r' (E' & _ & _). injection E' as <- <-. exists (String "\" (join_bs (comps_of r))). split; [split; [exact F|split; [exact A|eexists; right; reflexivity]]|].
    unfold leads. change (String "\" (join_bs (comps_of r))) with ("" ++ String "\" (join_bs (comps_of r))). rewrite pieces_sep by reflexivity. rewrite pieces_join; [|intros E0; apply N; rewrite <- comps_walk, E0; reflexivity|intros x I; destruct (comps_in _ _ I) as (_ & J); exact (pieces_no_sep _ _ J)]. change (pieces "" ++ comps_of r)%list with ("" :: comps_of r). change (walk [] ("" :: comps_of r)) with (walk [] (comps_of r)). exact (comps_walk r).
Qed.
