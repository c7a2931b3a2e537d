(** Proofs about writing ninja files. *)
From Coq Require Import ZArith.
From Verif Require Import Lib LibFacts Str StrFacts Model_Quote Spec_Quote Proof_Quote Model_Ninja Spec_Ninja.
Local Open Scope string_scope.

(** ** Line wrapping *)
Lemma rfind_spec : forall s i stop p, rfind_space i stop s = Some p -> i <= p /\ p < stop /\ String.get (p - i) s = Some space.
Proof.
  induction s as [|c s IH]; intros i stop p H; [discriminate|]. cbn [rfind_space] in H. destruct (rfind_space (S i) stop s) as [q|] eqn:E.
  - inversion H; subst q. destruct (IH _ _ _ E) as (H1 & H2 & H3). split; [lia|]. split; [exact H2|]. replace (p - i) with (S (p - S i)) by lia. exact H3.
  - destruct (Ascii.eqb_spec c space) as [->|]; [|discriminate]. cbn [andb] in H. destruct (Nat.ltb_spec i stop); [|discriminate]. inversion H; subst. rewrite Nat.sub_diag. auto.
Qed.
Lemma find_spec : forall s i start p, find_space i start s = Some p -> i <= p /\ String.get (p - i) s = Some space.
Proof.
  induction s as [|c s IH]; intros i start p H; [discriminate|]. cbn [find_space] in H. destruct (Ascii.eqb c space && Nat.leb start i) eqn:E.
  - inversion H; subst. apply andb_true_iff in E. destruct E as [E _]. apply Ascii.eqb_eq in E. subst. rewrite Nat.sub_diag. auto.
  - destruct (IH _ _ _ H) as (H1 & H2). split; [lia|]. replace (p - i) with (S (p - S i)) by lia. exact H2.
Qed.
Lemma back_spec : forall fuel s stop p, search_back fuel s stop = Some p -> String.get p s = Some space.
Proof.
  induction fuel as [|fuel IH]; intros s stop p H; [discriminate|]. cbn [search_back] in H. destruct (rfind_space 0 stop s) as [q|] eqn:E; [|discriminate].
  destruct (Nat.even _); [|eapply IH; exact H]. inversion H; subst. apply rfind_spec in E. rewrite Nat.sub_0_r in E. apply E.
Qed.
Lemma forward_spec : forall fuel s start p, search_forward fuel s start = Some p -> String.get p s = Some space.
Proof.
  induction fuel as [|fuel IH]; intros s stop p H; [discriminate|]. cbn [search_forward] in H. destruct (find_space 0 stop s) as [q|] eqn:E; [|discriminate].
  destruct (Nat.even _); [|eapply IH; exact H]. inversion H; subst. apply find_spec in E. rewrite Nat.sub_0_r in E. apply E.
Qed.
Lemma break_spec : forall width leading text p, break_at width leading text = Some p -> String.get p text = Some space.
Proof.
  intros width leading text p H. unfold break_at in H. cbv zeta in H. destruct (search_back _ _ _) as [q|] eqn:E; [inversion H; subst; eapply back_spec; exact E|eapply forward_spec; exact H].
Qed.
Lemma cut : forall p s c, String.get p s = Some c -> s = take p s ++ String c (drop (S p) s).
Proof.
  induction p as [|p IH]; intros s c H; destruct s as [|x s]; try discriminate; cbn [String.get] in H; [inversion H; reflexivity|].
  cbn [take drop append]. f_equal. apply IH. exact H.
Qed.
Lemma len_app : forall a b, String.length (a ++ b) = String.length a + String.length b.
Proof. induction a as [|c a IH]; intros b; [reflexivity|]. cbn. rewrite IH. reflexivity. Qed.

(** The searches do not stop for lack of fuel. *)
Lemma search_back_enough : forall n s stop k, stop <= n -> search_back (S n + k) s stop = search_back (S n) s stop.
Proof.
  induction n as [|n IH]; intros s stop k H.
  - cbn [search_back Nat.add]. destruct (rfind_space 0 stop s) as [p|] eqn:E; [|reflexivity]. apply rfind_spec in E. lia.
  - change (S (S n) + k) with (S (S n + k)). cbn [search_back]. destruct (rfind_space 0 stop s) as [p|] eqn:E; [|reflexivity]. apply rfind_spec in E.
    destruct (Nat.even _); [reflexivity|]. apply IH. lia.
Qed.
Lemma find_bounds : forall s i start p, find_space i start s = Some p -> start <= p /\ p < i + String.length s.
Proof.
  induction s as [|c s IH]; intros i start p H; [discriminate|]. cbn [find_space String.length] in *. destruct (Ascii.eqb c space && Nat.leb start i) eqn:E.
  - inversion H; subst. apply andb_true_iff in E. destruct E as [_ E]. apply Nat.leb_le in E. lia.
  - apply IH in H. lia.
Qed.
Lemma search_forward_enough : forall n s start k, String.length s <= start + n -> search_forward (S n + k) s start = search_forward (S n) s start.
Proof.
  induction n as [|n IH]; intros s start k H.
  - cbn [search_forward Nat.add]. destruct (find_space 0 start s) as [p|] eqn:E; [|reflexivity]. apply find_bounds in E. lia.
  - change (S (S n) + k) with (S (S n + k)). cbn [search_forward]. destruct (find_space 0 start s) as [p|] eqn:E; [|reflexivity]. apply find_bounds in E.
    destruct (Nat.even _); [reflexivity|]. apply IH. lia.
Qed.

Definition state_of (pending : bool) : line_state := if pending then AfterDollar else Normal.
Lemma put_put : forall a b r, put a (put b r) = put (a ++ b) r.
Proof. intros a b [[l t]|]; [|reflexivity]. cbn. rewrite append_assoc. reflexivity. Qed.
Lemma logical_app : forall a p t, dangling p a = false -> has_char newline a = false ->
  logical_line (state_of p) (a ++ t) = put ((if p then "$" else "") ++ a) (logical_line Normal t).
Proof.
  induction a as [|c a IH]; intros p t HD HN.
  - cbn in HD. subst p. cbn [append state_of]. destruct (logical_line Normal t) as [[l r]|]; reflexivity.
  - apply has_char_false in HN. destruct HN as [N HN]. cbn [dangling] in HD. cbn [append logical_line]. cbv zeta. unfold newline in N. destruct p; cbn [state_of negb andb] in *; neqs.
    + pose proof (IH false t HD HN) as X. cbn [state_of append] in X. rewrite X, put_put. reflexivity.
    + destruct (Ascii.eqb_spec c "$") as [->|n]; [exact (IH true t HD HN)|]. pose proof (IH false t HD HN) as X. cbn [state_of append] in X. rewrite X, put_put. reflexivity.
Qed.
Lemma dangling_app : forall a b p, dangling p (a ++ b) = dangling (dangling p a) b.
Proof. induction a as [|c a IH]; intros b p; [reflexivity|]. cbn [append dangling]. apply IH. Qed.
Lemma dangling_space : forall a p, dangling p (a ++ " ") = false.
Proof. intros a p. rewrite dangling_app. cbn. rewrite andb_false_r. reflexivity. Qed.
Lemma skip_spaces : forall n s, logical_line SkipBlanks (spaces n ++ s) = logical_line SkipBlanks s.
Proof. induction n as [|n IH]; intros s; [reflexivity|]. cbn [spaces append logical_line]. change (Ascii.eqb space " ") with true. cbv iota. apply IH. Qed.
Lemma skip_none : forall s, (forall r, s <> String " " r) -> logical_line SkipBlanks s = logical_line Normal s.
Proof. intros [|c s] H; [reflexivity|]. cbn [logical_line]. cases c " "%char; [exfalso; eapply H; reflexivity|]. reflexivity. Qed.

Definition single_spaced (s : string) : Prop := forall a b, s <> a ++ "  " ++ b.

Lemma wrap_spec : forall fuel width indent leading text rest,
  String.length text < fuel -> has_char newline text = false -> single_spaced text -> dangling false text = false ->
  exists z, wrap fuel width indent leading text = Some (spaces leading ++ z) /\
    ((exists r, z = String " " r) -> exists r, text = String " " r) /\ logical_line Normal (z ++ rest) = Some (text, rest).
Proof.
  induction fuel as [|fuel IH]; intros width indent leading text rest HF HN HS HD; [lia|]. cbn [wrap].
  assert (HE : exists z, Some (spaces leading ++ text ++ str1 newline) = Some (spaces leading ++ z) /\
    ((exists r, z = String " " r) -> exists r, text = String " " r) /\ logical_line Normal (z ++ rest) = Some (text, rest)).
  { exists (text ++ str1 newline). split; [reflexivity|]. split.
    - intros (r & E). destruct text as [|c t]; [discriminate|]. inversion E. exists t. reflexivity.
    - rewrite append_assoc, str1_app. pose proof (logical_app text false (String newline rest) HD HN) as X. cbn [state_of append] in X. rewrite X. change (logical_line Normal (String newline rest)) with (Some ("", rest)). cbn [put append]. rewrite append_nil_r. reflexivity. }
  destruct (Z.ltb _ _); [|exact HE]. destruct (break_at width leading text) as [p|] eqn:EB; [|exact HE]. clear HE. apply break_spec in EB. apply cut in EB.
  set (a := take p text) in *. set (b := drop (S p) text) in *. clearbody a b.
  assert (HNab : has_char newline a = false /\ has_char newline b = false).
  { rewrite EB in HN. rewrite has_char_app in HN. apply orb_false_iff in HN. destruct HN as [H1 H2]. apply has_char_false in H2. tauto. }
  assert (HSb : single_spaced b). { intros x y E. apply (HS (a ++ String space x) y). rewrite EB, E. rewrite append_assoc. reflexivity. }
  assert (HDb : dangling false b = false).
  { rewrite EB in HD. change (String space b) with (" " ++ b) in HD. rewrite <- append_assoc, dangling_app, dangling_space in HD. exact HD. }
  assert (HLb : String.length b < fuel). { rewrite EB in HF. rewrite len_app in HF. cbn in HF. lia. }
  destruct (IH width indent (2 * (indent + 2)) b rest HLb (proj2 HNab) HSb HDb) as (z & E & Hz & Hlog). rewrite E. cbn [option_map].
  exists (a ++ " $" ++ str1 newline ++ spaces (2 * (indent + 2)) ++ z). split; [rewrite !append_assoc; reflexivity|]. split.
  - intros (r & Er). destruct a as [|c t]; [exists b; exact EB|]. injection Er as Ec Et. subst c. rewrite EB. eexists. reflexivity.
  - replace ((a ++ " $" ++ str1 newline ++ spaces (2 * (indent + 2)) ++ z) ++ rest) with ((a ++ " ") ++ String "$" (String "010" (spaces (2 * (indent + 2)) ++ (z ++ rest))))
      by (rewrite !append_assoc; reflexivity).
    assert (X : forall t, logical_line Normal ((a ++ " ") ++ t) = put (a ++ " ") (logical_line Normal t)).
    { intros t. apply (logical_app (a ++ " ") false); [apply dangling_space|rewrite has_char_app, (proj1 HNab); reflexivity]. }
    rewrite X. clear X.
    change (logical_line Normal (String "$" (String "010" ?r))) with (logical_line SkipBlanks r). rewrite skip_spaces, skip_none.
    + rewrite Hlog. cbn [put append]. rewrite EB, append_assoc. reflexivity.
    + intros r Er. assert (Hb : exists r, b = String " " r).
      { apply Hz. destruct z as [|c z']; [|inversion Er; subst; eexists; reflexivity]. cbn [append] in *. subst rest. cbn [logical_line] in Hlog. cbv zeta in Hlog.
        change (Ascii.eqb " " "010") with false in Hlog. change (Ascii.eqb " " "$") with false in Hlog. cbv iota in Hlog.
        exfalso. clear - Hlog. assert (G : forall st r l t, logical_line st r = Some (l, t) -> String.length t < String.length r).
        { clear. intros st r. revert st. induction r as [|c r IH]; intros st l t H; [discriminate|]. cbn [logical_line] in H. cbv zeta in H. cbn [String.length].
          assert (HP : forall x st', put x (logical_line st' r) = Some (l, t) -> String.length t < S (String.length r)).
          { intros x st' HH. destruct (logical_line st' r) as [[l' t']|] eqn:E; [|discriminate]. cbn in HH. inversion HH; subst. apply IH in E. lia. }
          assert (HQ : forall st', logical_line st' r = Some (l, t) -> String.length t < S (String.length r)) by (intros st' HH; apply IH in HH; lia).
          destruct st; repeat match type of H with (if ?b then _ else _) = _ => destruct b end; try (inversion H; subst; lia); eauto. }
        destruct (logical_line Normal r) as [[l t]|] eqn:E; [|discriminate]. cbn in Hlog. inversion Hlog; subst. apply G in E. cbn in E. lia. }
      destruct Hb as (r' & Hb). apply (HS a r'). rewrite EB, Hb. reflexivity.
Qed.

Lemma logical_spaces : forall n s l rest, logical_line Normal s = Some (l, rest) -> logical_line Normal (spaces n ++ s) = Some (spaces n ++ l, rest).
Proof.
  induction n as [|n IH]; intros s l rest H; [exact H|]. cbn [spaces append logical_line]. cbv zeta. change (Ascii.eqb space "010") with false. change (Ascii.eqb space "$") with false. cbv iota.
  rewrite (IH _ _ _ H). reflexivity.
Qed.
Theorem line_written : forall width indent text rest, has_char newline text = false -> single_spaced text -> dangling false text = false ->
  exists out, write_line width indent text = Some out /\ logical_line Normal (out ++ rest) = Some (spaces (2 * indent) ++ text, rest).
Proof.
  intros width indent text rest H1 H2 H3. unfold write_line. destruct (wrap_spec (S (String.length text)) width indent (2 * indent) text rest) as (z & E & _ & Hz); auto.
  exists (spaces (2 * indent) ++ z). split; [exact E|]. rewrite append_assoc. apply logical_spaces. exact Hz.
Qed.

(** ** Paths *)
Definition esc1 (c : ascii) : string := if Ascii.eqb c space then "$ " else if Ascii.eqb c colon then "$:" else str1 c.
Lemma rds_eq : forall c d s, replace_dollar_space (String c (String d s)) =
  if Ascii.eqb c dollar && Ascii.eqb d space then "$$ " ++ replace_dollar_space s else String c (replace_dollar_space (String d s)).
Proof. reflexivity. Qed.
Lemma esc_map : forall s, replace1 colon "$:" (replace1 space "$ " s) = map_chars esc1 s.
Proof.
  intros s. unfold replace1. rewrite map_chars_comp. apply map_chars_ext. intros c. unfold esc1. cases c space; [reflexivity|]. unfold str1. cbn [map_chars]. rewrite append_nil_r. reflexivity.
Qed.
Lemma escape_path_dollar_space : forall s, escape_path (String dollar (String space s)) = "$$$ " ++ escape_path s.
Proof. intros s. unfold escape_path. rewrite rds_eq. cbn [andb]. change (Ascii.eqb dollar dollar && Ascii.eqb space space) with true. cbv iota. rewrite !esc_map, map_chars_app. reflexivity. Qed.
Lemma escape_path_cons : forall c s, (c <> dollar \/ forall r, s <> String space r) -> escape_path (String c s) = esc1 c ++ escape_path s.
Proof.
  intros c s H. unfold escape_path. rewrite !esc_map. destruct s as [|d s]; [reflexivity|]. rewrite rds_eq.
  destruct (Ascii.eqb c dollar && Ascii.eqb d space) eqn:E; [|reflexivity]. apply andb_true_iff in E. destruct E as [E1 E2]. apply Ascii.eqb_eq in E1. apply Ascii.eqb_eq in E2. subst.
  destruct H as [H|H]; [contradiction|exfalso; eapply H; reflexivity].
Qed.
Lemma escape_path_nil : escape_path "" = "". Proof. reflexivity. Qed.

Lemma esc1_name : forall c, in_name c = true \/ c = "{"%char \/ c = "}"%char -> esc1 c = str1 c /\ c <> dollar.
Proof.
  intros c [H|[->| ->]]; [|split; [reflexivity|discriminate]|split; [reflexivity|discriminate]]. unfold esc1. 
  cases c space; [discriminate|]. cases c colon; [discriminate|]. split; [reflexivity|]. intros ->. discriminate.
Qed.
Lemma name_end_escape : forall s t, name_end s = true -> name_end (escape_path s ++ t) = true.
Proof.
  induction s as [|c s IH]; intros t H; [discriminate|]. cbn [name_end] in H. change (name_char c || Ascii.eqb c ".") with (in_name c) in H. apply orb_true_iff in H.
  assert (HC : in_name c = true \/ c = "{"%char \/ c = "}"%char) by (destruct H as [H|H]; [apply Ascii.eqb_eq in H; auto|apply andb_true_iff in H; tauto]).
  destruct (esc1_name c HC) as [E N]. rewrite escape_path_cons by auto. rewrite E, append_assoc, str1_app. cbn [name_end]. change (name_char c || Ascii.eqb c ".") with (in_name c).
  destruct H as [H|H]; [rewrite H; reflexivity|]. apply andb_true_iff in H. destruct H as [H1 H2]. rewrite H1, (IH _ H2). apply orb_true_r.
Qed.
Lemma braced_escape : forall s t, braced s = true -> braced (escape_path s ++ t) = true.
Proof.
  intros [|c s] t H; [discriminate|]. cbn [braced] in H. change (name_char c || Ascii.eqb c ".") with (in_name c) in H. apply andb_true_iff in H. destruct H as [H1 H2].
  destruct (esc1_name c (or_introl H1)) as [E N]. rewrite escape_path_cons by auto. rewrite E, append_assoc, str1_app. cbn [braced]. change (name_char c || Ascii.eqb c ".") with (in_name c).
  rewrite H1, name_end_escape by exact H2. reflexivity.
Qed.

Fixpoint add_all (cur : option (list atom)) (w : list atom) : option (list atom) := match w with [] => cur | a :: w' => add_all (add cur a) w' end.
Lemma add_all_some : forall w l, add_all (Some l) w = Some (l ++ w)%list.
Proof. induction w as [|a w IH]; intros l; [cbn; rewrite app_nil_r; reflexivity|]. cbn [add_all add]. rewrite IH, <- app_assoc. reflexivity. Qed.
Lemma add_all_none : forall w, w <> [] -> add_all None w = Some w.
Proof. intros [|a w] H; [contradiction|]. cbn [add_all add]. rewrite add_all_some. reflexivity. Qed.

Lemma lex_path : forall n s w cur t, String.length s <= n -> path_meaning s = Some w -> lex cur (escape_path s ++ t) = lex (add_all cur w) t.
Proof.
  induction n as [|n IH]; intros s w cur t HL H.
  { destruct s; [|cbn in HL; lia]. inversion H; subst. reflexivity. }
  destruct s as [|c s]; [inversion H; subst; reflexivity|]. cbn [String.length] in HL. cbn [path_meaning] in H. cbn [has_char] in H.
  destruct (Ascii.eqb_spec "|" c) as [|nb]; [discriminate|]. cbn [orb] in H.
  destruct (Ascii.eqb_spec c "010") as [|n1]; [discriminate|]. destruct (Ascii.eqb_spec c "013") as [|n2]; [discriminate|]. destruct (Ascii.eqb_spec c "000") as [|n3]; [discriminate|]. cbn [orb] in H.
  destruct (Ascii.eqb_spec c "$") as [->|nd].
  - destruct s as [|d s]; [discriminate|]. cbn [String.length] in HL. destruct (Ascii.eqb_spec d " ") as [->|ns].
    + destruct (path_meaning (String " " s)) as [w1|] eqn:E1; [|discriminate]. cbn [option_map] in H. inversion H; subst w. cbn [path_meaning] in E1. cbn in E1.
      destruct (path_meaning s) as [w2|] eqn:E2; [|discriminate]. cbn in E1. inversion E1; subst w1. change "$"%char with dollar. change " "%char with space. rewrite escape_path_dollar_space, append_assoc.
      change (lex cur ("$$$ " ++ ?r)) with (lex (add (add cur (Ch "$")) (Ch " ")) r). rewrite (IH s w2) by (auto; lia). reflexivity.
    + assert (HD : forall w1, path_meaning (String d s) = Some w1 -> in_name d = true \/ d = "{"%char -> (in_name d = false -> braced s = true) -> (Ascii.eqb d "$" || Ascii.eqb d " " || Ascii.eqb d ":") = false ->
        (name_char d = true \/ (name_char d = false /\ d = "{"%char)) ->
        lex cur (escape_path (String "$" (String d s)) ++ t) = lex (add_all (add cur Expansion) w1) t).
      { intros w1 Hw HI HB HO HC. rewrite escape_path_cons by (right; intros r E; inversion E; contradiction). change (esc1 "$") with "$". rewrite append_assoc.
        destruct (esc1_name d) as [E N]; [tauto|]. rewrite <- (IH (String d s) w1 (add cur Expansion) t) by (auto; cbn; lia).
        rewrite escape_path_cons by auto. rewrite E, !append_assoc, !str1_app. cbn [append]. cbn [lex]. change (Ascii.eqb "$" " ") with false. change (Ascii.eqb "$" ":") with false.
        change (Ascii.eqb "$" "|") with false. change (Ascii.eqb "$" "$") with true. cbv iota. rewrite HO. cbv iota.
        destruct HC as [HC|[HC ->]]; [rewrite HC; reflexivity|]. rewrite HC. change (Ascii.eqb "{" "{") with true. cbn [andb]. rewrite braced_escape by (apply HB; reflexivity). reflexivity. }
      assert (HO : in_name d = true \/ d = "{"%char -> (Ascii.eqb d "$" || Ascii.eqb d " " || Ascii.eqb d ":") = false).
      { intros [Hi|Hi]; [|subst; reflexivity]. cases d "$"%char; [discriminate|]. cases d " "%char; [discriminate|]. cases d ":"%char; [discriminate|]. reflexivity. }
      destruct (name_char d) eqn:EN.
      * destruct (path_meaning (String d s)) as [w1|] eqn:E1; [|discriminate]. cbn [option_map] in H. inversion H; subst w.
        assert (HI : in_name d = true) by (unfold in_name; rewrite EN; reflexivity). apply HD; auto. intros E0. congruence.
      * destruct (Ascii.eqb_spec d "{") as [->|]; [|discriminate]. destruct (braced s) eqn:EBr; [|discriminate]. cbn [andb] in H.
        destruct (path_meaning (String "{" s)) as [w1|] eqn:E1; [|discriminate]. cbn [option_map] in H. inversion H; subst w. apply HD; auto.
  - destruct (path_meaning s) as [w1|] eqn:E1; [|discriminate]. cbn [option_map] in H. inversion H; subst w. rewrite escape_path_cons by auto. rewrite append_assoc. cbn [add_all].
    rewrite <- (IH s w1 (add cur (Ch c)) t) by (auto; lia). unfold esc1. cases c space; [reflexivity|]. cases c colon; [reflexivity|]. rewrite str1_app. cbn [lex].
    unfold space, colon in *. neqs. rewrite (proj2 (Ascii.eqb_neq c "|")) by congruence. reflexivity.
Qed.
Lemma meaning_nonempty : forall s w, s <> "" -> path_meaning s = Some w -> w <> [].
Proof.
  intros [|c s] w Hs H; [contradiction|]. cbn [path_meaning] in H. intros ->.
  assert (G : forall (a : atom) o, option_map (cons a) o <> Some []) by (intros a [o|]; discriminate).
  destruct (has_char c "|" || Ascii.eqb c "010" || Ascii.eqb c "013" || Ascii.eqb c "000"); [discriminate|]. destruct (Ascii.eqb c "$"); [|apply G in H; exact H].
  destruct s as [|d s]; [discriminate|]. destruct (Ascii.eqb d " "); [apply G in H; exact H|]. destruct (name_char d); [apply G in H; exact H|].
  destruct (Ascii.eqb d "{" && braced s); [apply G in H; exact H|discriminate].
Qed.

(** ** Statements *)
Definition toks (l : list token) (r : option (list token)) : option (list token) := option_map (app l) r.
Definition stops (t : string) : Prop := t = "" \/ (exists r, t = String " " r) \/ exists r, t = String ":" r.
Definition item (e : string) (k : token) : Prop := forall t, stops t -> lex None (e ++ t) = toks [k] (lex None t).

Lemma flush_stops : forall w t, stops t -> lex (Some w) t = toks [TPath w] (lex None t).
Proof.
  intros w t [->|[(r & ->)|(r & ->)]]; [reflexivity| |]; cbn [lex].
  - change (Ascii.eqb " " " ") with true. cbv iota. cbn [flush]. destruct (lex None r); reflexivity.
  - change (Ascii.eqb ":" " ") with false. change (Ascii.eqb ":" ":") with true. cbv iota. cbn [flush]. destruct (lex None r); reflexivity.
Qed.
Lemma item_path : forall s w, s <> "" -> path_meaning s = Some w -> item (escape_path s) (TPath w).
Proof.
  intros s w Hs H t Ht. rewrite (lex_path (String.length s) s w None t) by auto. rewrite add_all_none by (eapply meaning_nonempty; eassumption). apply flush_stops. exact Ht.
Qed.
Lemma lex_name : forall s cur t, (forall c, has_char c s = true -> in_name c = true) -> lex cur (s ++ t) = lex (add_all cur (literal s)) t.
Proof.
  induction s as [|c s IH]; intros cur t H; [reflexivity|]. assert (Hc : in_name c = true) by (apply H; cbn; rewrite Ascii.eqb_refl; reflexivity).
  rewrite literal_cons. cbn [add_all]. rewrite <- IH by (intros x Hx; apply H; cbn [has_char]; destruct (Ascii.eqb c x); auto).
  cbn [append]. revert Hc. clear. generalize (s ++ t). intros r Hc. cbn [lex].
  cases c " "%char; [discriminate|]. cases c ":"%char; [discriminate|]. cases c "|"%char; [discriminate|]. cases c "$"%char; [discriminate|].
  cases c "010"%char; [discriminate|]. cases c "013"%char; [discriminate|]. cases c "000"%char; [discriminate|]. reflexivity.
Qed.
Lemma item_name : forall s, s <> "" -> (forall c, has_char c s = true -> in_name c = true) -> item s (TPath (literal s)).
Proof.
  intros s Hs H t Ht. rewrite lex_name by exact H. rewrite add_all_none; [apply flush_stops; exact Ht|]. destruct s; [contradiction|discriminate].
Qed.
Lemma item_pipe : item "|" TPipe.
Proof. intros t [->|[(r & ->)|(r & ->)]]; [reflexivity| |]; cbn [append lex]; cbn; destruct (lex None r); reflexivity. Qed.
Lemma item_pipe2 : item "||" TPipe2.
Proof. intros t [->|[(r & ->)|(r & ->)]]; [reflexivity| |]; cbn [append lex]; cbn; destruct (lex None r); reflexivity. Qed.

Lemma toks_app : forall a b r, toks a (toks b r) = toks (a ++ b) r.
Proof. intros a b [r|]; [|reflexivity]. cbn. rewrite app_assoc. reflexivity. Qed.
Lemma lex_items : forall es ks, Forall2 item es ks -> forall t, stops t -> lex None (join_with " " es ++ t) = toks ks (lex None t).
Proof.
  intros es ks H. induction H as [|e k es ks H1 H2 IH]; intros t Ht.
  - cbn. destruct (lex None t); reflexivity.
  - destruct H2 as [|e' k' es ks H2 H3].
    + unfold join_with. cbn [String.concat]. apply H1. exact Ht.
    + unfold join_with in *. change (String.concat " " (e :: e' :: es)) with (e ++ " " ++ String.concat " " (e' :: es)). rewrite !append_assoc. rewrite H1 by (right; left; eexists; reflexivity).
      change (lex None (" " ++ ?r)) with (lex None r). rewrite IH by exact Ht. apply toks_app.
Qed.

(** ** A whole build statement *)
Lemma good_items : forall ps ms, good_paths ps ms -> Forall2 item (map escape_path ps) (map TPath ms).
Proof. intros ps ms H. induction H as [|p m ps ms [H1 H2] H IH]; [constructor|]. constructor; [apply item_path; assumption|exact IH]. Qed.

Theorem build_lexed : forall outs rule ins imp oo mo mi mimp moo,
  good_paths outs mo -> good_paths ins mi -> good_paths imp mimp -> good_paths oo moo ->
  rule <> "" -> (forall c, has_char c rule = true -> in_name c = true) ->
  lex None (build_text outs rule ins imp oo) = Some (statement_tokens mo (literal rule) mi mimp moo).
Proof.
  intros outs rule ins imp oo mo mi mimp moo HO HI HP HQ HR1 HR2. unfold build_text. cbv zeta.
  assert (E0 : forall r, lex None ("build " ++ r) = toks [TPath (literal "build")] (lex None r)).
  { intros r. change ("build " ++ r) with ("build" ++ (String " " r)). rewrite (item_name "build"); [|discriminate| |right; left; eexists; reflexivity].
    - reflexivity.
    - intros c. destruct c as [[] [] [] [] [] [] [] []]; intros Hc; try reflexivity; discriminate Hc. }
  rewrite E0. rewrite (lex_items _ _ (good_items _ _ HO)) by (right; right; eexists; reflexivity).
  set (tail := join_with " " (rule :: _)%list). change (lex None (": " ++ tail)) with (tok TColon (lex None tail)).
  assert (ET : lex None tail = Some (TPath (literal rule) :: map TPath mi ++ match mimp with [] => [] | _ => TPipe :: map TPath mimp end ++ match moo with [] => [] | _ => TPipe2 :: map TPath moo end)%list).
  { rewrite <- (append_nil_r tail). unfold tail. rewrite (lex_items _ (TPath (literal rule) :: map TPath mi ++ match mimp with [] => [] | _ => TPipe :: map TPath mimp end ++ match moo with [] => [] | _ => TPipe2 :: map TPath moo end)%list).
    - cbn. rewrite app_nil_r. reflexivity.
    - constructor; [apply item_name; assumption|]. apply Forall2_app; [apply good_items; exact HI|]. apply Forall2_app.
      + destruct HP as [|p m ps ms H1 H2]; [constructor|]. constructor; [apply item_pipe|]. apply (good_items (p :: ps) (m :: ms)). constructor; assumption.
      + destruct HQ as [|p m ps ms H1 H2]; [constructor|]. constructor; [apply item_pipe2|]. apply (good_items (p :: ps) (m :: ms)). constructor; assumption.
    - left. reflexivity. }
  rewrite ET. unfold statement_tokens. cbn [tok toks option_map app]. reflexivity.
Qed.

(** ** The text of a build statement can be wrapped safely. *)
Fixpoint dsp (p : bool) (s : string) : bool := match s with "" => false | String c r => (p && Ascii.eqb c " ") || dsp (Ascii.eqb c " ") r end.
Fixpoint lsp (p : bool) (s : string) : bool := match s with "" => p | String c r => lsp (Ascii.eqb c " ") r end.
Lemma dsp_app : forall a b p, dsp p (a ++ b) = dsp p a || dsp (lsp p a) b.
Proof. induction a as [|c a IH]; intros b p; [reflexivity|]. cbn [append dsp lsp]. rewrite IH, orb_assoc. reflexivity. Qed.
Lemma lsp_app : forall a b p, lsp p (a ++ b) = lsp (lsp p a) b.
Proof. induction a as [|c a IH]; intros b p; [reflexivity|]. cbn [append lsp]. apply IH. Qed.
Lemma dsp_spec : forall s, dsp false s = false -> single_spaced s.
Proof. intros s H a b ->. rewrite dsp_app in H. apply orb_false_iff in H. destruct H as [_ H]. cbn [append dsp] in H. cbn in H. rewrite orb_true_r in H. discriminate. Qed.
Lemma dsp_weaken : forall s, dsp true s = false -> dsp false s = false.
Proof. intros [|c s] H; [reflexivity|]. cbn [dsp] in *. apply orb_false_iff in H. destruct H as [_ H]. exact H. Qed.

Record safe (s : string) : Prop := { sf_line : has_char newline s = false; sf_dsp : dsp true s = false; sf_lsp : lsp true s = false; sf_dang : dangling false s = false }.
Lemma safe_glue : forall a b, safe a -> safe b -> safe (a ++ " " ++ b).
Proof.
  intros a b [A1 A2 A3 A4] [B1 B2 B3 B4]. split.
  - rewrite !has_char_app, A1, B1. reflexivity.
  - rewrite !dsp_app, A2, A3. cbn [dsp lsp append orb andb]. change (Ascii.eqb " " " ") with true. cbn [orb]. rewrite B2. reflexivity.
  - rewrite !lsp_app. cbn [lsp]. exact B3.
  - rewrite <- append_assoc, dangling_app, dangling_space. exact B4.
Qed.
Lemma safe_colon : forall a, safe a -> safe (a ++ ":").
Proof.
  intros a [A1 A2 A3 A4]. split; [rewrite has_char_app, A1; reflexivity|rewrite dsp_app, A2, A3; reflexivity|rewrite lsp_app; reflexivity|rewrite dangling_app, A4; reflexivity].
Qed.
Lemma safe_join : forall l, l <> [] -> (forall x, In x l -> safe x) -> safe (join_with " " l).
Proof.
  intros l. destruct l as [|x l]; intros HN H; [contradiction|]. clear HN. revert x H. induction l as [|y l IH]; intros x H; [apply H; left; reflexivity|].
  unfold join_with in *. change (String.concat " " (x :: y :: l)) with (x ++ " " ++ String.concat " " (y :: l)). apply safe_glue; [apply H; left; reflexivity|]. apply IH.
  intros z Hz. apply H. right. exact Hz.
Qed.

Lemma escape_facts : forall n s w, String.length s <= n -> path_meaning s = Some w ->
  has_char newline (escape_path s) = false /\ (forall p, dsp p (escape_path s) = false) /\ (forall p, lsp p (escape_path s) = lsp p s) /\ dangling false (escape_path s) = false.
Proof.
  induction n as [|n IH]; intros s w HL H.
  { destruct s; [|cbn in HL; lia]. repeat split. }
  destruct s as [|c s]; [repeat split|]. cbn [String.length] in HL. cbn [path_meaning] in H. cbn [has_char] in H.
  destruct (Ascii.eqb_spec "|" c) as [|nb]; [discriminate|]. cbn [orb] in H.
  destruct (Ascii.eqb_spec c "010") as [|n1]; [discriminate|]. destruct (Ascii.eqb_spec c "013") as [|n2]; [discriminate|]. destruct (Ascii.eqb_spec c "000") as [|n3]; [discriminate|]. cbn [orb] in H.
  destruct (Ascii.eqb_spec c "$") as [->|nd].
  - destruct s as [|d s]; [discriminate|]. cbn [String.length] in HL. destruct (Ascii.eqb_spec d " ") as [->|ns].
    + destruct (path_meaning (String " " s)) as [w1|] eqn:E1; [|discriminate]. cbn [path_meaning] in E1. cbn in E1.
      destruct (path_meaning s) as [w2|] eqn:E2; [|discriminate]. destruct (IH s w2 ltac:(lia) E2) as (F1 & F2 & F3 & F4).
      change "$"%char with dollar. change " "%char with space. rewrite escape_path_dollar_space.
      split; [rewrite has_char_app, F1; reflexivity|]. split; [intros p; rewrite dsp_app; rewrite F2; destruct p; reflexivity|]. split; [intros p; rewrite lsp_app, F3; reflexivity|]. rewrite dangling_app. exact F4.
    + assert (HD : exists w1, path_meaning (String d s) = Some w1 /\ (in_name d = true \/ d = "{"%char)).
      { destruct (name_char d) eqn:EN.
        - destruct (path_meaning (String d s)) as [w1|]; [|discriminate]. exists w1. split; [reflexivity|]. left. unfold in_name. rewrite EN. reflexivity.
        - destruct (Ascii.eqb_spec d "{") as [->|]; [|discriminate]. destruct (braced s); [|discriminate]. cbn [andb] in H. destruct (path_meaning (String "{" s)) as [w1|]; [|discriminate]. exists w1. auto. }
      destruct HD as (w1 & E1 & HI). destruct (IH (String d s) w1 ltac:(cbn; lia) E1) as (F1 & F2 & F3 & F4).
      rewrite escape_path_cons by (right; intros r E; inversion E; contradiction). change (esc1 "$") with "$".
      split; [rewrite has_char_app, F1; reflexivity|]. split; [intros p; rewrite dsp_app, F2; destruct p; reflexivity|]. split; [intros p; rewrite lsp_app, F3; reflexivity|].
      destruct (esc1_name d) as [E N]; [tauto|]. rewrite escape_path_cons in * by auto. rewrite E in *. rewrite str1_app in *. cbn [append dangling] in *. 
      change (Ascii.eqb "$" "$") with true. cbn [negb andb] in *. rewrite (proj2 (Ascii.eqb_neq d "$")) in F4 by exact N. exact F4.
  - destruct (path_meaning s) as [w1|] eqn:E1; [|discriminate]. destruct (IH s w1 ltac:(lia) E1) as (F1 & F2 & F3 & F4). rewrite escape_path_cons by auto.
    assert (G : has_char newline (esc1 c) = false /\ (forall p, dsp p (esc1 c) = false \/ c = space) /\ dsp false (esc1 c) = false /\ (forall p, lsp p (esc1 c) = Ascii.eqb c " ") /\ dangling false (esc1 c) = false /\ (forall p, dsp p (esc1 c) = false)).
    { unfold esc1. cases c space; [repeat split; intros []; auto|]. cases c colon; [repeat split; intros []; auto|]. unfold space in *. 
      assert (D : forall p, dsp p (str1 c) = false) by (intros p; cbn [str1 dsp]; neqs; rewrite andb_false_r; reflexivity).
      split; [apply has_char_false; split; [exact n1|reflexivity]|]. split; [auto|]. split; [auto|]. split; [reflexivity|]. split; [cbn [str1 dangling]; neqs; reflexivity|exact D]. }
    destruct G as (G1 & _ & _ & G4 & G5 & G6).
    split; [rewrite has_char_app, G1, F1; reflexivity|]. split; [intros p; rewrite dsp_app, F2, G6; reflexivity|]. split; [intros p; rewrite lsp_app, F3, G4; reflexivity|]. rewrite dangling_app, G5. exact F4.
Qed.
Lemma lsp_spec : forall s, s <> "" -> (forall a, s <> a ++ " ") -> lsp true s = false.
Proof.
  assert (G : forall s p, (s = "" -> p = false) -> (forall a, s <> a ++ " ") -> lsp p s = false).
  { induction s as [|c s IH]; intros p Hp H; [cbn; auto|]. cbn [lsp]. apply IH.
    - intros ->. cases c " "%char; [exfalso; apply (H ""); reflexivity|reflexivity].
    - intros a E. apply (H (String c a)). cbn [append]. rewrite E. reflexivity. }
  intros s Hs H. apply G; [intros E; contradiction|exact H].
Qed.
Lemma safe_path : forall s w, s <> "" -> path_meaning s = Some w -> (forall a, s <> a ++ " ") -> safe (escape_path s).
Proof.
  intros s w Hs H HE. destruct (escape_facts (String.length s) s w (le_n _) H) as (F1 & F2 & F3 & F4). split; auto. rewrite F3. apply lsp_spec; assumption.
Qed.
Lemma safe_name : forall s, s <> "" -> (forall c, has_char c s = true -> in_name c = true) -> safe s.
Proof.
  intros s Hs H. assert (N : forall c, in_name c = false -> has_char c s = false) by (intros c Hc; destruct (has_char c s) eqn:E; [apply H in E; congruence|reflexivity]).
  assert (NS : has_char " " s = false) by (apply N; reflexivity). assert (ND : has_char "$" s = false) by (apply N; reflexivity). split.
  - apply N. reflexivity.
  - clear - NS. generalize true. induction s as [|c s IH]; intros p; [reflexivity|]. apply has_char_false in NS. destruct NS as [n NS]. cbn [dsp]. neqs. rewrite andb_false_r. apply IH. exact NS.
  - apply lsp_spec; [exact Hs|]. intros a ->. rewrite has_char_app in NS. cbn in NS. rewrite orb_true_r in NS. discriminate.
  - clear - ND. induction s as [|c s IH]; [reflexivity|]. apply has_char_false in ND. destruct ND as [n ND]. cbn [dangling]. neqs. apply IH. exact ND.
Qed.

Lemma good_safe : forall ps ms, good_paths ps ms -> no_final_space ps -> forall x, In x (map escape_path ps) -> safe x.
Proof.
  intros ps ms H HE x Hx. apply in_map_iff in Hx. destruct Hx as (p & <- & Hp). unfold good_paths in H.
  assert (G : exists m, p <> "" /\ path_meaning p = Some m).
  { clear HE. induction H as [|q m ps ms [H1 H2] H IH]; [destruct Hp|]. destruct Hp as [<-|Hp]; [exists m; auto|auto]. }
  destruct G as (m & G1 & G2). eapply safe_path; eauto.
Qed.
Lemma build_safe : forall outs rule ins imp oo mo mi mimp moo,
  good_paths outs mo -> good_paths ins mi -> good_paths imp mimp -> good_paths oo moo ->
  no_final_space (outs ++ ins ++ imp ++ oo) -> rule <> "" -> (forall c, has_char c rule = true -> in_name c = true) ->
  safe (build_text outs rule ins imp oo).
Proof.
  intros outs rule ins imp oo mo mi mimp moo HO HI HP HQ HE HR1 HR2. unfold build_text. cbv zeta.
  assert (E1 : no_final_space outs /\ no_final_space ins /\ no_final_space imp /\ no_final_space oo).
  { split; [|split; [|split]]; intros p a Hp; apply HE; rewrite !in_app_iff; tauto. }
  destruct E1 as (EO & EI & EP & EQ).
  set (tail := join_with " " (rule :: _)%list). assert (HT : safe tail).
  { apply safe_join; [discriminate|]. intros x [<-|Hx]; [apply safe_name; assumption|]. rewrite !in_app_iff in Hx. destruct Hx as [Hx|[Hx|Hx]].
    - exact (good_safe _ _ HI EI x Hx).
    - destruct imp as [|p l]; [destruct Hx|]. destruct Hx as [<-|Hx]; [split; reflexivity|]. exact (good_safe _ _ HP EP x Hx).
    - destruct oo as [|p l]; [destruct Hx|]. destruct Hx as [<-|Hx]; [split; reflexivity|]. exact (good_safe _ _ HQ EQ x Hx). }
  assert (HB : safe "build") by (split; reflexivity).
  destruct outs as [|o outs].
  - change (safe ("build :" ++ " " ++ tail)). apply safe_glue; [split; reflexivity|exact HT].
  - set (O := join_with " " (map escape_path (o :: outs))). replace ("build " ++ O ++ ": " ++ tail) with ((("build" ++ " " ++ O) ++ ":") ++ " " ++ tail) by (rewrite !append_assoc; reflexivity).
    apply safe_glue; [|exact HT]. apply safe_colon. apply safe_glue; [exact HB|]. apply safe_join; [discriminate|]. exact (good_safe _ _ HO EO).
Qed.
Theorem build_statement : forall width outs rule ins imp oo mo mi mimp moo rest,
  good_paths outs mo -> good_paths ins mi -> good_paths imp mimp -> good_paths oo moo ->
  no_final_space (outs ++ ins ++ imp ++ oo) -> rule <> "" -> (forall c, has_char c rule = true -> in_name c = true) ->
  exists out line, write_line width 0 (build_text outs rule ins imp oo) = Some out /\
    logical_line Normal (out ++ rest) = Some (line, rest) /\ lex None line = Some (statement_tokens mo (literal rule) mi mimp moo).
Proof.
  intros width outs rule ins imp oo mo mi mimp moo rest HO HI HP HQ HE HR1 HR2.
  destruct (build_safe outs rule ins imp oo mo mi mimp moo HO HI HP HQ HE HR1 HR2) as [S1 S2 S3 S4].
  destruct (line_written width 0 (build_text outs rule ins imp oo) rest S1 (dsp_spec _ (dsp_weaken _ S2)) S4) as (out & E1 & E2).
  exists out, (build_text outs rule ins imp oo). split; [exact E1|]. split; [exact E2|]. apply build_lexed; assumption.
Qed.

(** ** Variables *)
Lemma single_path : forall s w, s <> "" -> path_meaning s = Some w -> lex None (escape_path s) = Some [TPath w].
Proof. intros s w Hs H. pose proof (item_path s w Hs H "" (or_introl eq_refl)) as E. rewrite append_nil_r in E. exact E. Qed.
Lemma path_literal : forall s, has_char "$" s = false -> has_char "|" s = false -> has_char "010" s = false -> has_char "013" s = false -> has_char "000" s = false ->
  path_meaning s = Some (literal s).
Proof.
  induction s as [|c s IH]; intros H1 H2 H3 H4 H5; [reflexivity|]. apply has_char_false in H1, H2, H3, H4, H5. destruct H1 as [N1 H1], H2 as [N2 H2], H3 as [N3 H3], H4 as [N4 H4], H5 as [N5 H5].
  cbn [path_meaning has_char]. rewrite (proj2 (Ascii.eqb_neq "|" c)) by congruence. neqs. cbn [orb]. rewrite IH by assumption. reflexivity.
Qed.

(** ** Findings *)
Lemma path_dollars : exists s l, lex None (escape_path s) = Some [TPath l; TPath (literal "b")] /\ s = "a$$ b".
Proof. eexists. eexists. split; [|reflexivity]. reflexivity. Qed.
Lemma path_dollar_colon : exists s, lex None (escape_path s) = Some [TPath (literal "a$"); TColon; TPath (literal "b")] /\ s = "a$:b".
Proof. eexists. split; [|reflexivity]. reflexivity. Qed.
Lemma path_bar : exists s, lex None (escape_path s) = Some [TPath (literal "a"); TPipe; TPath (literal "b")] /\ s = "a|b".
Proof. eexists. split; [|reflexivity]. reflexivity. Qed.
Lemma path_final_dollar : exists p q, lex None (join_with " " (map escape_path [p; q])) = Some [TPath (literal "a b")] /\ p = "a$" /\ q = "b".
Proof. exists "a$", "b". split; [|split]; reflexivity. Qed.
Lemma two_spaces : exists text out, write_line 10 0 text = Some out /\ logical_line Normal out = Some ("echo 'a b c'", "") /\ text = "echo 'a  b c'".
Proof. eexists. eexists. split; [|split; [|reflexivity]]; [vm_compute; reflexivity|vm_compute; reflexivity]. Qed.
