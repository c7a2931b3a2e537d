(** Proofs about XML output. *)
From Verif Require Import Lib LibFacts Str StrFacts Model_Quote Proof_Quote Model_Xml Spec_Xml.
Local Open Scope string_scope.

Lemma snoc_app : forall s c t, snoc s c ++ t = s ++ String c t.
Proof. intros. unfold snoc. rewrite append_assoc. reflexivity. Qed.
Lemma ev_ev : forall a b r, ev a (ev b r) = ev (a ++ b) r.
Proof. intros a b [r|]; [|reflexivity]. cbn. rewrite app_assoc. reflexivity. Qed.
Lemma char_events_app : forall a b, char_events (a ++ b) = (char_events a ++ char_events b)%list.
Proof. induction a as [|c a IH]; intros b; [reflexivity|]. cbn. rewrite IH. reflexivity. Qed.

Lemma read_text : forall s t, xml_read XText (xml_escape false s ++ t) = ev (char_events s) (xml_read XText t).
Proof.
  unfold xml_escape. induction s as [|c s IH]; intros t; [cbn; destruct (xml_read XText t); reflexivity|]. cbn [map_chars char_events]. rewrite append_assoc.
  change (Char c :: char_events s) with ([Char c] ++ char_events s)%list. rewrite <- ev_ev, <- IH. generalize (map_chars (xml_escape_char false) s ++ t). intros r. unfold xml_escape_char.
  cases c dquote; [reflexivity|]. cases c squote; [reflexivity|]. cases c "<"%char; [reflexivity|]. cases c ">"%char; [reflexivity|]. cases c "&"%char; [reflexivity|].
  cases c newline; [reflexivity|]. cases c "013"%char; [reflexivity|]. rewrite str1_app. cbn [xml_read]. neqs. reflexivity.
Qed.
Lemma read_value : forall n l a s v t, has_char "009" s = false -> xml_read (XVal n l a v) (xml_escape true s ++ t) = xml_read (XVal n l a (v ++ s)) t.
Proof.
  unfold xml_escape. intros n l a. induction s as [|c s IH]; intros v t H; [cbn; rewrite append_nil_r; reflexivity|]. apply has_char_false in H. destruct H as [HT H].
  cbn [map_chars]. rewrite append_assoc. rewrite <- snoc_app, <- IH by exact H. generalize (map_chars (xml_escape_char true) s ++ t). intros r. unfold xml_escape_char.
  cases c dquote; [reflexivity|]. cases c squote; [reflexivity|]. cases c "<"%char; [reflexivity|]. cases c ">"%char; [reflexivity|]. cases c "&"%char; [reflexivity|].
  cases c newline; [reflexivity|]. cases c "013"%char; [reflexivity|]. rewrite str1_app. cbn [xml_read]. unfold dquote, newline in *. neqs. reflexivity.
Qed.

(** names *)
Lemma name_ok_neq : forall c x, name_ok c = true -> name_ok x = false -> c <> x.
Proof. intros c x H1 H2 ->. congruence. Qed.
Lemma valid_tail : forall c s, (forall x, has_char x (String c s) = true -> name_ok x = true) -> name_ok c = true /\ forall x, has_char x s = true -> name_ok x = true.
Proof. intros c s H. split; [apply H; cbn [has_char]; rewrite Ascii.eqb_refl; reflexivity|]. intros x Hx. apply H. cbn [has_char]. destruct (Ascii.eqb c x); auto. Qed.
Ltac not_name H := repeat match goal with |- context [Ascii.eqb ?c ?x] => rewrite (proj2 (Ascii.eqb_neq c x)) by (apply name_ok_neq; [exact H|reflexivity]) end; cbv iota.

Lemma read_name : forall s n t, (forall x, has_char x s = true -> name_ok x = true) -> xml_read (XName n) (s ++ t) = xml_read (XName (n ++ s)) t.
Proof.
  induction s as [|c s IH]; intros n t H; [rewrite append_nil_r; reflexivity|]. destruct (valid_tail _ _ H) as [Hc Hs]. cbn [append xml_read]. not_name Hc. rewrite Hc, IH by exact Hs. rewrite snoc_app. reflexivity.
Qed.
Lemma read_close : forall s n t, (forall x, has_char x s = true -> name_ok x = true) -> xml_read (XClose n) (s ++ t) = xml_read (XClose (n ++ s)) t.
Proof.
  induction s as [|c s IH]; intros n t H; [rewrite append_nil_r; reflexivity|]. destruct (valid_tail _ _ H) as [Hc Hs]. cbn [append xml_read]. not_name Hc. rewrite Hc, IH by exact Hs. rewrite snoc_app. reflexivity.
Qed.
Lemma read_attr : forall s n l a t, (forall x, has_char x s = true -> name_ok x = true) -> xml_read (XAttr n l a) (s ++ t) = xml_read (XAttr n l (a ++ s)) t.
Proof.
  induction s as [|c s IH]; intros n l a t H; [rewrite append_nil_r; reflexivity|]. destruct (valid_tail _ _ H) as [Hc Hs]. cbn [append xml_read]. not_name Hc. rewrite Hc, IH by exact Hs. rewrite snoc_app. reflexivity.
Qed.
Lemma read_tag : forall s t, valid_name s -> xml_read XText ("<" ++ s ++ t) = xml_read (XName s) t.
Proof.
  intros [|c s] t [H0 H]; [contradiction|]. destruct (valid_tail _ _ H) as [Hc Hs]. change (xml_read XText ("<" ++ String c s ++ t)) with (xml_read XTag (String c (s ++ t))). cbn [xml_read].
  not_name Hc. rewrite Hc, read_name by exact Hs. reflexivity.
Qed.
Lemma read_end_tag : forall s t, valid_name s -> xml_read XText ("</" ++ s ++ ">" ++ t) = ev [Close s] (xml_read XText t).
Proof. intros s t [H0 H]. change (xml_read XText ("</" ++ ?r)) with (xml_read (XClose "") r). rewrite read_close by exact H. reflexivity. Qed.

(** attributes *)
Lemma read_one_attr : forall n l a v t, valid_name a -> has_char "009" v = false ->
  xml_read (XSpace n l) (a ++ "=" ++ str1 dquote ++ xml_escape true v ++ str1 dquote ++ t) = xml_read (XSpace n (l ++ [(a, v)])%list) t.
Proof.
  intros n l a v t [H0 H] HT. destruct a as [|c a]; [contradiction|]. destruct (valid_tail _ _ H) as [Hc Hs]. cbn [append]. cbn [xml_read]. not_name Hc. rewrite Hc, read_attr by exact Hs.
  change (xml_read (XAttr n l ?b) (String "=" (str1 dquote ++ ?r))) with (xml_read (XVal n l b "") r). rewrite read_value by exact HT. reflexivity.
Qed.
Lemma read_attrs_space : forall attrs n l t, (forall a v, In (a, v) attrs -> valid_name a /\ has_char "009" v = false) ->
  xml_read (XSpace n l) (attrs_text attrs ++ t) = xml_read (XSpace n (l ++ attrs)%list) t.
Proof.
  induction attrs as [|[a v] attrs IH]; intros n l t H; [cbn; rewrite app_nil_r; reflexivity|]. cbn [attrs_text]. rewrite !append_assoc.
  change (xml_read (XSpace n l) (" " ++ ?r)) with (xml_read (XSpace n l) r). destruct (H a v (or_introl eq_refl)) as [H1 H2].
  rewrite read_one_attr by assumption. rewrite IH by (intros b w Hb; apply H; right; exact Hb). rewrite <- app_assoc. reflexivity.
Qed.
Definition after_tag (n : string) (l : list (string * string)) : xstate := match l with [] => XName n | _ => XSpace n l end.
Lemma read_attrs : forall attrs n t, (forall a v, In (a, v) attrs -> valid_name a /\ has_char "009" v = false) ->
  xml_read (XName n) (attrs_text attrs ++ t) = xml_read (after_tag n attrs) t.
Proof.
  intros [|[a v] attrs] n t H; [reflexivity|]. cbn [attrs_text]. rewrite !append_assoc. change (xml_read (XName n) (" " ++ ?r)) with (xml_read (XSpace n []) r).
  destruct (H a v (or_introl eq_refl)) as [H1 H2]. rewrite read_one_attr by assumption. rewrite read_attrs_space by (intros b w Hb; apply H; right; exact Hb). reflexivity.
Qed.
Lemma tag_open : forall n l t, xml_read (after_tag n l) (">" ++ t) = ev [Open n l] (xml_read XText t).
Proof. intros n [|x l] t; reflexivity. Qed.
Lemma tag_empty : forall n l t, xml_read (after_tag n l) ("/>" ++ t) = ev [Open n l; Close n] (xml_read XText t).
Proof. intros n [|x l] t; reflexivity. Qed.

Lemma insert_attr_perm : forall x l, Permutation (x :: l) (insert_attr x l).
Proof. induction l as [|y l IH]; cbn [insert_attr]; [reflexivity|]. destruct (String.leb _ _); [reflexivity|]. rewrite perm_swap. constructor. exact IH. Qed.
Lemma sort_attrs_perm : forall l, Permutation l (sort_attrs l).
Proof. induction l as [|x l IH]; [constructor|]. cbn [sort_attrs]. rewrite <- insert_attr_perm. constructor. exact IH. Qed.
Lemma map_insert_attr : forall x l, map fst (insert_attr x l) = insert (fst x) (map fst l).
Proof. induction l as [|y l IH]; [reflexivity|]. cbn [insert_attr map insert]. destruct (String.leb _ _); [reflexivity|]. cbn [map]. rewrite IH. reflexivity. Qed.
Lemma sort_attrs_sorted : forall l, sorted (map fst (sort_attrs l)).
Proof. intros l. replace (map fst (sort_attrs l)) with (sort (map fst l)); [apply sort_sorted|]. induction l as [|x l IH]; [reflexivity|]. cbn [sort_attrs map sort]. rewrite map_insert_attr, IH. reflexivity. Qed.

(** blanks *)
Lemma read_blanks : forall b t, (forall c, has_char c b = true -> (c = " " \/ c = "010")%char) -> xml_read XText (b ++ t) = ev (char_events b) (xml_read XText t).
Proof.
  induction b as [|c b IH]; intros t H; [cbn; destruct (xml_read XText t); reflexivity|]. cbn [append char_events]. change (Char c :: char_events b) with ([Char c] ++ char_events b)%list.
  rewrite <- ev_ev, <- IH by (intros x Hx; apply H; cbn [has_char]; destruct (Ascii.eqb c x); auto).
  assert (HC : (c = " " \/ c = "010")%char) by (apply H; cbn [has_char]; rewrite Ascii.eqb_refl; reflexivity). clear - HC. destruct HC as [E|E]; subst c; reflexivity.
Qed.
Definition blank (b : string) : Prop := forall c, has_char c b = true -> (c = " " \/ c = "010")%char.
Lemma blank_indentation : forall n, blank (indentation n).
Proof.
  induction n as [|n IH]; intros c H; [discriminate|]. cbn [indentation append has_char] in H. destruct (Ascii.eqb_spec c " ") as [->|n0]; [left; reflexivity|].
  rewrite (proj2 (Ascii.eqb_neq " " c)) in H by congruence. apply IH. exact H.
Qed.
Lemma blank_newline : blank (str1 newline).
Proof. intros c H. cbn [str1 has_char] in H. destruct (Ascii.eqb_spec newline c) as [E|E]; [right; symmetry; exact E|discriminate]. Qed.
Lemma blank_nil : blank "". Proof. intros c H. discriminate. Qed.

Lemma found_blanks : forall pretty b ks es, pretty = true -> blank b -> found_kids pretty true ks es -> found_kids pretty true ks (char_events b ++ es)%list.
Proof.
  intros pretty b ks es HP. induction b as [|c b IH]; intros HB H; [exact H|]. cbn [char_events app]. apply found_blank; [exact HP|apply HB; cbn [has_char]; rewrite Ascii.eqb_refl; reflexivity|].
  apply IH; [|exact H]. intros x Hx. apply HB. cbn [has_char]. destruct (Ascii.eqb c x); auto.
Qed.
Lemma found_kids_app : forall pretty b ks es ks' es', found_kids pretty b ks es -> found_kids pretty b ks' es' -> found_kids pretty b (ks ++ ks') (es ++ es')%list.
Proof.
  intros pretty b ks es ks' es' H. induction H as [b|b k ks e es H1 H2 IH|c ks es H1 H2 H3 IH]; intros H'; [exact H'|cbn [app]; rewrite <- app_assoc; apply found_cons; auto|cbn [app]; apply found_blank; auto].
Qed.

Section Ind.
  Variable P : xml -> Prop.
  Hypothesis HT : forall s, P (Text s).
  Hypothesis HE : forall n a kids, (forall k, In k kids -> P k) -> P (Elem n a kids).
  Fixpoint xml_nested_ind (x : xml) : P x :=
    match x with
    | Text s => HT s
    | Elem n a kids => HE n a kids ((fix go l := match l return forall k, In k l -> P k with
        | [] => fun k F => match F with end
        | y :: l' => fun k H => match H with or_introl E => eq_ind y P (xml_nested_ind y) k E | or_intror H' => go l' k H' end
        end) kids)
    end.
End Ind.

(** what stands around an element *)
Definition lead (pretty : bool) (level : nat) (x : xml) : string := if is_elem x && pretty then indentation level else "".
Definition trail (pretty : bool) (x : xml) : string := if is_elem x && pretty then str1 newline else "".
Lemma blank_lead : forall p l x, blank (lead p l x). Proof. intros p l x. unfold lead. destruct (_ && _); [apply blank_indentation|apply blank_nil]. Qed.
Lemma blank_trail : forall p x, blank (trail p x). Proof. intros p x. unfold trail. destruct (_ && _); [apply blank_newline|apply blank_nil]. Qed.

Lemma read_construct : forall pretty x level, representable x -> exists E, found pretty x E /\
  forall t, xml_read XText (construct pretty level x ++ t) = ev (char_events (lead pretty level x) ++ E ++ char_events (trail pretty x)) (xml_read XText t).
Proof.
  intros pretty. induction x as [s|n attrs kids IH] using xml_nested_ind; intros level HR.
  - exists (char_events s). split; [constructor|]. intros t. cbn [construct lead trail is_elem andb app char_events]. rewrite app_nil_r. apply read_text.
  - inversion HR as [|n0 attrs0 kids0 Hn Ha Hk]; subst. set (ind := if pretty then indentation level else ""). set (nl := if pretty then str1 newline else "").
    assert (HI : blank ind) by (unfold ind; destruct pretty; [apply blank_indentation|apply blank_nil]). assert (HN : blank nl) by (unfold nl; destruct pretty; [apply blank_newline|apply blank_nil]).
    assert (EL : lead pretty level (Elem n attrs kids) = ind) by reflexivity. assert (ET : trail pretty (Elem n attrs kids) = nl) by reflexivity. rewrite EL, ET. clear EL ET.
    assert (HA : forall a v, In (a, v) (sort_attrs attrs) -> valid_name a /\ has_char "009" v = false).
    { intros a v H. apply Ha. eapply Permutation_in; [apply Permutation_sym; apply sort_attrs_perm|exact H]. }
    assert (HF : forall b ks, (forall k, In k ks -> In k kids) -> (pretty = true -> existsb is_elem ks = true -> b = true) -> exists K, found_kids pretty b ks K /\
      forall t, xml_read XText (String.concat "" (map (construct pretty (S level)) ks) ++ t) = ev K (xml_read XText t)).
    { intros b. induction ks as [|k ks IHk]; intros Hsub Hb.
      - exists []. split; [constructor|]. intros t. cbn. destruct (xml_read XText t); reflexivity.
      - destruct (IH k (Hsub k (or_introl eq_refl)) (S level) (Hk k (Hsub k (or_introl eq_refl)))) as (E & HE & RE).
        destruct IHk as (K & HK & RK); [intros k' Hk'; apply Hsub; right; exact Hk'|intros HP HX; apply Hb; [exact HP|]; cbn [existsb]; rewrite HX; apply orb_true_r|].
        exists ((char_events (lead pretty (S level) k) ++ E ++ char_events (trail pretty k)) ++ K)%list. split.
        + destruct (is_elem k && pretty) eqn:EP.
          * apply andb_true_iff in EP. destruct EP as [EP1 EP2]. assert (b = true) by (apply Hb; [exact EP2|cbn [existsb]; rewrite EP1; reflexivity]). subst b.
            rewrite <- !app_assoc. apply found_blanks; [exact EP2|apply blank_lead|]. apply found_cons; [exact HE|]. apply found_blanks; [exact EP2|apply blank_trail|exact HK].
          * unfold lead, trail. rewrite EP. cbn [char_events app]. rewrite app_nil_r. apply found_cons; assumption.
        + intros t. destruct ks as [|k2 ks].
          * cbn [map String.concat]. rewrite RE. specialize (RK t). cbn in RK. refine (eq_trans (f_equal _ RK) _). apply ev_ev.
          * cbn [map] in *. change (String.concat "" (?a :: ?b :: ?l)) with (a ++ "" ++ String.concat "" (b :: l)). rewrite !append_assoc. rewrite RE. cbn [append]. rewrite RK. apply ev_ev. }
    destruct (HF (existsb is_elem kids) kids (fun k H => H) (fun _ H => H)) as (K & HK & RK).
    set (multi := existsb is_elem kids) in *. set (pre := if multi then nl else ""). set (post := if multi then ind else "").
    assert (Bpre : blank pre) by (unfold pre; destruct multi; [exact HN|apply blank_nil]). assert (Bpost : blank post) by (unfold post; destruct multi; [exact HI|apply blank_nil]).
    exists (Open n (sort_attrs attrs) :: (char_events pre ++ K ++ char_events post) ++ [Close n])%list. split.
    + constructor; [apply sort_attrs_perm|apply sort_attrs_sorted|]. fold multi. unfold pre, post. destruct multi eqn:EM; [|cbn [char_events app]; rewrite app_nil_r; exact HK].
      unfold nl, ind in *. destruct pretty; [|cbn [char_events app]; rewrite app_nil_r; exact HK].
      apply found_blanks; [reflexivity|exact HN|]. rewrite <- (app_nil_r kids). apply found_kids_app; [exact HK|]. rewrite <- (app_nil_r (char_events (indentation level))).
      apply found_blanks; [reflexivity|exact HI|constructor].
    + intros t. cbn [construct]. cbv zeta. fold ind nl. rewrite !append_assoc. rewrite (read_blanks ind) by exact HI. rewrite read_tag by exact Hn. rewrite read_attrs by exact HA.
      rewrite <- ev_ev. f_equal. destruct kids as [|k kids].
      * rewrite append_assoc, tag_empty, read_blanks by exact HN. rewrite ev_ev. f_equal. unfold pre, post, multi. cbn [existsb char_events app].
        inversion HK; subst. reflexivity.
      * fold multi pre post. rewrite !append_assoc, tag_open, (read_blanks pre) by exact Bpre. rewrite RK. rewrite (read_blanks post) by exact Bpost.
        rewrite read_end_tag by exact Hn. rewrite read_blanks by exact HN. rewrite !ev_ev. f_equal. cbn [app]. rewrite <- !app_assoc. reflexivity.
Qed.

Lemma read_pi : forall s mark t, has_char ">" s = false -> xml_read (XPi mark) (s ++ "?>" ++ t) = xml_read XText t.
Proof.
  induction s as [|c s IH]; intros mark t H; [destruct mark; reflexivity|]. apply has_char_false in H. destruct H as [n H]. cbn [append xml_read]. neqs. rewrite andb_false_r. apply IH. exact H.
Qed.
Theorem xml_round_trip : forall encoding (pretty : bool) n attrs kids, has_char ">" encoding = false -> representable (Elem n attrs kids) ->
  let blanks := if pretty then [Char "010"] else [] in
  exists E, xml_events (xml_to_string encoding pretty (Elem n attrs kids)) = Some (blanks ++ E ++ blanks)%list /\ found pretty (Elem n attrs kids) E.
Proof.
  intros encoding pretty n attrs kids HE HR. cbv zeta. destruct (read_construct pretty (Elem n attrs kids) 0 HR) as (E & HF & RE). exists E. split; [|exact HF].
  unfold xml_events, xml_to_string. 
  match goal with |- xml_read XText ?x = _ => replace x with ("<?" ++ ("xml version=" ++ str1 dquote ++ "1.0" ++ str1 dquote ++ " encoding=" ++ str1 dquote ++ encoding ++ str1 dquote) ++ "?>" ++
     (if pretty then str1 newline else "") ++ construct pretty 0 (Elem n attrs kids)) by (rewrite !append_assoc; reflexivity) end.
  change (xml_read XText ("<?" ++ ?r)) with (xml_read (XPi false) r).
  rewrite read_pi by (rewrite !has_char_app, HE; reflexivity). specialize (RE ""). rewrite append_nil_r in RE.
  destruct pretty.
  - rewrite read_blanks by apply blank_newline. rewrite RE. unfold lead, trail. cbn. rewrite ?app_nil_r. reflexivity.
  - cbn [append]. rewrite RE. unfold lead, trail. cbn. rewrite ?app_nil_r. reflexivity.
Qed.
Lemma attr_tab : exists v, xml_events (construct false 0 (Elem "a" [("b", v)] [])) = Some [Open "a" [("b", "x y")]; Close "a"] /\ v = "x" ++ String "009" "y".
Proof. eexists. split; [|reflexivity]. reflexivity. Qed.
