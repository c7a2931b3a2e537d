(** Proofs about Xcode project files: values, objects, the file. *)
From Verif Require Import Lib Str StrFacts LibFacts Model_Quote Model_Writer Model_Pbx Spec_Pbx Proof_Pbx.
From Verif Require Model_Text.
From Coq Require Import ZArith Permutation Lia DecimalString.
Local Open Scope string_scope.

(** ** Only what is behind blanks and comments counts *)
Lemma string_skip : forall s s' t r, skip s = skip s' -> reads_string s t r -> reads_string s' t r.
Proof. intros s s' t r E H. destruct H as [x t r H1 H2|a x t r H1 H2 H3]; rewrite E in H1; [exact (string_quoted _ x t r H1 H2)|exact (string_naked _ a x t r H1 H2 H3)]. Qed.
Lemma reads_skip : forall s s' p r, skip s = skip s' -> reads s p r -> reads s' p r.
Proof.
  intros s s' p r E H. destruct H as [s t rest H|s x l rest H1 H2|s x l rest H1 H2].
  - apply reads_str. exact (string_skip s s' t rest E H).
  - rewrite E in H1. exact (reads_array s' x l rest H1 H2).
  - rewrite E in H1. exact (reads_dict s' x l rest H1 H2).
Qed.
Lemma items_skip : forall s s' l r, skip s = skip s' -> reads_items s l r -> reads_items s' l r.
Proof.
  intros s s' l r E H. destruct H as [s rest H|s p r rest H1 H2|s p r r' l rest H1 H2 H3].
  - rewrite E in H. exact (items_end s' rest H).
  - exact (items_last s' p r rest (reads_skip s s' p r E H1) H2).
  - exact (items_more s' p r r' l rest (reads_skip s s' p r E H1) H2 H3).
Qed.
Lemma entries_skip : forall s s' l r, skip s = skip s' -> reads_entries s l r -> reads_entries s' l r.
Proof.
  intros s s' l r E H. destruct H as [s rest H|s k r r' p r'' r3 l rest H1 H2 H3 H4 H5].
  - rewrite E in H. exact (entries_end s' rest H).
  - exact (entries_more s' k r r' p r'' r3 l rest (string_skip s s' k r E H1) H2 H3 H4 H5).
Qed.

(** ** Lists *)
Definition says (t : string) (p : plist) : Prop := forall rest, stop rest -> exists r, reads (t ++ rest) p r /\ skip r = skip rest.
Lemma says_str : forall t s, says_text t s -> says t (Str s).
Proof. intros t s H rest S. destruct (H rest S) as (r & R & K). exists r. split; [apply reads_str; exact R|exact K]. Qed.
Lemma joined_cons : forall t ts, joined (t :: ts) = t ++ joined ts.
Proof. intros t [|u ts]; [unfold joined; cbn; symmetry; apply append_nil_r|reflexivity]. Qed.
Lemma items_said : forall a b c ts ps, skippable a -> skippable b -> skippable c -> Forall2 says ts ps -> forall rest,
  reads_items (joined (map (fun t => a ++ t ++ "," ++ b) ts) ++ c ++ ")" ++ rest) ps rest.
Proof.
  intros a b c ts ps A B C F rest. induction F as [|t p ts ps S F IH].
  - cbn [map joined String.concat append]. apply items_end. rewrite C. reflexivity.
  - cbn [map]. rewrite joined_cons, !append_assoc. set (more := joined (map (fun t => a ++ t ++ "," ++ b) ts) ++ c ++ ")" ++ rest) in *.
    destruct (S ("," ++ b ++ more)) as (r & R & K); [split; [reflexivity|discriminate]|].
    apply (items_more _ p r (b ++ more)).
    + apply (reads_skip (t ++ "," ++ b ++ more)); [symmetry; apply A|exact R].
    + rewrite K. reflexivity.
    + apply (items_skip more); [symmetry; apply B|exact IH].
Qed.

(** ** Entries: whatever follows them *)
Definition says_entries (t : string) (kps : list (string * plist)) : Prop := forall rest l final, reads_entries rest l final -> reads_entries (t ++ rest) (kps ++ l)%list final.
Lemma said_nothing : forall x, skippable x -> says_entries x [].
Proof. intros x X rest l final H. apply (entries_skip rest); [symmetry; apply X|exact H]. Qed.
Lemma said_app : forall t u ks ls, says_entries t ks -> says_entries u ls -> says_entries (t ++ u) (ks ++ ls).
Proof. intros t u ks ls T U rest l final H. rewrite append_assoc, <- app_assoc. apply T, U, H. Qed.
Lemma said_joined : forall ts kss, Forall2 says_entries ts kss -> says_entries (joined ts) (concat kss).
Proof.
  intros ts kss F. induction F as [|t ks ts kss S F IH]; [apply said_nothing, skippable_nil|]. rewrite joined_cons. cbn [concat]. apply said_app; assumption.
Qed.
Lemma said_one : forall a k t b key p, skippable a -> skippable b -> says_text k key -> says t p -> says_entries (a ++ k ++ " = " ++ t ++ ";" ++ b) [(key, p)].
Proof.
  intros a k t b key p A B K T rest l final H. rewrite !append_assoc. cbn [app].
  destruct (K (" = " ++ t ++ ";" ++ b ++ rest)) as (r & R & Er); [split; [reflexivity|discriminate]|]. destruct (T (";" ++ b ++ rest)) as (r2 & R2 & E2); [split; [reflexivity|discriminate]|].
  apply (entries_more _ key r (" " ++ t ++ ";" ++ b ++ rest) p r2 (b ++ rest)).
  - apply (string_skip (k ++ " = " ++ t ++ ";" ++ b ++ rest)); [symmetry; apply A|exact R].
  - rewrite Er. reflexivity.
  - apply (reads_skip (t ++ ";" ++ b ++ rest)); [reflexivity|exact R2].
  - rewrite E2. reflexivity.
  - apply (entries_skip rest); [symmetry; apply B|exact H].
Qed.
Lemma said_dict : forall a b t ks, says_entries t ks -> skippable a -> skippable b -> says ("{" ++ a ++ t ++ b ++ "}") (Dict ks).
Proof.
  intros a b t ks T A B rest _. exists rest. split; [|reflexivity]. rewrite !append_assoc. apply (reads_dict _ (a ++ t ++ b ++ "}" ++ rest)); [reflexivity|].
  apply (entries_skip (t ++ b ++ "}" ++ rest)); [symmetry; apply A|]. rewrite <- (app_nil_r ks). apply T. apply entries_end. rewrite B. reflexivity.
Qed.

(** ** Sorting *)
Lemma insert_perm : forall A (key : A -> string) x l, Permutation (x :: l) (insert_by key x l).
Proof. intros A key x l. induction l as [|y l IH]; [reflexivity|]. cbn [insert_by]. destruct (String.leb (key x) (key y)); [reflexivity|]. rewrite perm_swap. constructor. exact IH. Qed.
Lemma sort_by_perm : forall A (key : A -> string) l, Permutation l (sort_by key l).
Proof. intros A key l. induction l as [|x l IH]; [reflexivity|]. cbn [sort_by]. rewrite <- insert_perm. constructor. exact IH. Qed.
Lemma perm_Forall2 : forall A B (R : A -> B -> Prop) m m', Permutation m m' -> forall l, Forall2 R l m -> exists l', Permutation l l' /\ Forall2 R l' m'.
Proof.
  intros A B R m m' P. induction P as [|x m m' P IH|x y m|m1 m2 m3 P1 IH1 P2 IH2]; intros l F.
  - exists []. inversion F; subst. split; constructor.
  - inversion F as [|a ? l0 ? Ra Fl]; subst. destruct (IH l0 Fl) as (l' & Q & F'). exists (a :: l'). split; constructor; assumption.
  - inversion F as [|a ? l0 ? Ra Fl]; subst. inversion Fl as [|b ? l1 ? Rb Fl']; subst. exists (b :: a :: l1). split; [apply perm_swap|]. constructor; [exact Rb|constructor; assumption].
  - destruct (IH1 l F) as (l' & Q & F'). destruct (IH2 l' F') as (l'' & Q' & F''). exists l''. split; [exact (Permutation_trans Q Q')|exact F''].
Qed.
Lemma all_some_Forall2 : forall A B (f : A -> option B) l r, all_some (map f l) = Some r -> Forall2 (fun x y => f x = Some y) l r.
Proof.
  intros A B f. induction l as [|x l IH]; intros r E; cbn [map all_some] in E; [injection E as <-; constructor|]. destruct (f x) as [y|] eqn:Ex; [|discriminate]. destruct (all_some (map f l)) as [r'|]; [|discriminate]. injection E as <-. constructor; [exact Ex|apply IH; reflexivity].
Qed.

(** ** Values *)
Lemma letters_naked : forall s, letters s -> all_naked s = true /\ forall r, s <> "//" ++ r.
Proof.
  intros s [t N H]. split.
  - clear N. induction t as [|a t IH]; [reflexivity|]. cbn [all_naked]. rewrite IH; [|intros b I; apply H; right; exact I]. rewrite andb_true_r. specialize (H a (or_introl eq_refl)). unfold naked.
    destruct H as [H|[H|H]].
    + replace (N.leb 65 (N_of_ascii a)) with true by (symmetry; apply N.leb_le; lia). replace (N.leb (N_of_ascii a) 90) with true by (symmetry; apply N.leb_le; lia). reflexivity.
    + replace (N.leb 97 (N_of_ascii a)) with true by (symmetry; apply N.leb_le; lia). replace (N.leb (N_of_ascii a) 122) with true by (symmetry; apply N.leb_le; lia). cbn [andb]. rewrite orb_true_r. reflexivity.
    + replace (N.leb 48 (N_of_ascii a)) with true by (symmetry; apply N.leb_le; lia). replace (N.leb (N_of_ascii a) 57) with true by (symmetry; apply N.leb_le; lia). cbn [andb]. rewrite !orb_true_r. reflexivity.
  - intros r ->. specialize (H "/"%char (or_introl eq_refl)). cbn in H. lia.
Qed.
Lemma says_letters : forall s, letters s -> says_text s s.
Proof.
  intros s L. destruct (letters_naked s L) as [A D]. destruct s as [|a s]; [inversion L as [t N Q Et]; contradiction|]. destruct (says_naked a s A D) as [G|[-> ->]]; [exact G|]. exfalso. inversion L as [t N H Et]. specialize (H "/"%char (or_introl eq_refl)). cbn in H. lia.
Qed.
Lemma uint_naked : forall u, all_naked (NilEmpty.string_of_uint u) = true.
Proof. induction u; cbn [NilEmpty.string_of_uint all_naked]; try reflexivity; rewrite IHu; reflexivity. Qed.
Lemma uint_first : forall u, NilEmpty.string_of_uint u = "" \/ exists a r, NilEmpty.string_of_uint u = String a r /\ a <> "/"%char.
Proof. intros [|u|u|u|u|u|u|u|u|u|u]; [left; reflexivity|..]; right; eexists; eexists; (split; [reflexivity|discriminate]). Qed.
Lemma number_says : forall z, says_text (Model_Text.int_str z) (Model_Text.int_str z).
Proof.
  intros z. unfold Model_Text.int_str. assert (G : exists a r, NilZero.string_of_int (Z.to_int z) = String a r /\ all_naked (String a r) = true /\ a <> "/"%char).
  { assert (U : forall u, exists a r, NilZero.string_of_uint u = String a r /\ all_naked (String a r) = true /\ a <> "/"%char).
    { intros u. pose proof (uint_naked u) as N. destruct (uint_first u) as [E|(a & r & E & D)].
      - destruct u; try discriminate E. exists "0"%char, "". repeat split. discriminate.
      - exists a, r. destruct u; [discriminate E|..]; (split; [exact E|]; split; [rewrite <- E; exact N|exact D]). }
    destruct (Z.to_int z) as [u|u]; [apply U|]. cbn [NilZero.string_of_int]. destruct (U u) as (a & r & E & N & D). rewrite E. exists "-"%char, (String a r). split; [reflexivity|]. split; [cbn [all_naked] in *; exact N|discriminate]. }
  destruct G as (a & r & -> & N & D). destruct (says_naked a r N) as [G|[-> ->]]; [intros x E; injection E as -> _; contradiction|exact G|contradiction].
Qed.
Fixpoint value_ind' (P : value -> Prop) (ht : forall s, P (Text s)) (hn : forall z, P (Number z)) (hr : forall i c, P (Reference i c)) (hi : forall l, Forall P l -> P (Items l)) (he : forall l, Forall (fun kv => P (snd kv)) l -> P (Entries l)) (v : value) : P v :=
  match v with
  | Text s => ht s
  | Number z => hn z
  | Reference i c => hr i c
  | Items l => hi l ((fix go l : Forall P l := match l with [] => Forall_nil _ | x :: r => Forall_cons _ (value_ind' P ht hn hr hi he x) (go r) end) l)
  | Entries l => he l ((fix go l : Forall (fun kv => P (snd kv)) l := match l with [] => Forall_nil _ | x :: r => Forall_cons _ (value_ind' P ht hn hr hi he (snd x)) (go r) end) l)
  end.
Lemma said_list : forall single alternate flat tabs l ts,
  Forall (fun v => tame_value v -> forall tabs t, printable single alternate flat tabs v = Some t -> exists p, same flat v p /\ says t p) l -> Forall tame_value l ->
  all_some (map (printable single alternate flat (S tabs)) l) = Some ts -> exists ps, Forall2 (same flat) l ps /\
  says ("(" ++ separator single ++ joined (map (fun t => indented single (S tabs) ++ t ++ "," ++ separator single) ts) ++ indented single tabs ++ ")") (Array ps).
Proof.
  intros single alternate flat tabs l ts IH T E. apply all_some_Forall2 in E.
  assert (G : exists ps, Forall2 (same flat) l ps /\ Forall2 says ts ps).
  { induction E as [|v t l ts Ev E IHE]; [exists []; split; constructor|]. inversion IH as [|? ? I1 I2]; subst. inversion T as [|? ? T1 T2]; subst. destruct (I1 T1 _ _ Ev) as (p & P1 & P2). destruct (IHE I2 T2) as (ps & Q1 & Q2). exists (p :: ps). split; constructor; assumption. }
  destruct G as (ps & G1 & G2). exists ps. split; [exact G1|]. intros rest _. exists rest. split; [|reflexivity]. rewrite !append_assoc. eapply reads_array; [reflexivity|].
  apply (items_skip (joined (map (fun t => indented single (S tabs) ++ t ++ "," ++ separator single) ts) ++ indented single tabs ++ ")" ++ rest)); [symmetry; apply skippable_separator|].
  apply items_said; [apply skippable_indented|apply skippable_separator|apply skippable_indented|exact G2].
Qed.
Theorem value_said : forall single alternate flat v, tame_value v -> forall tabs t, printable single alternate flat tabs v = Some t -> exists p, same flat v p /\ says t p.
Proof.
  intros single alternate flat. induction v as [s|z|i c|l IH|l IH] using value_ind'; intros T tabs t E.
  - injection E as <-. exists (Str s). split; [apply same_text|]. apply says_str, encode_says. inversion T; assumption.
  - injection E as <-. exists (Str (Model_Text.int_str z)). split; [apply same_number|]. apply says_str, number_says.
  - injection E as <-. exists (Str i). split; [apply same_reference|]. inversion T as [| |? ? L| |]; subst. destruct (String.eqb c "").
    + rewrite append_nil_r. apply says_str, says_letters, L.
    + intros rest S. destruct (says_letters i L (" " ++ encode_comment c ++ rest)) as (r & R & K); [split; [reflexivity|discriminate]|]. exists r. split.
      * apply reads_str. rewrite !append_assoc. exact R.
      * rewrite K. change (skip (" " ++ encode_comment c ++ rest)) with (skip (encode_comment c ++ rest)). apply skippable_comment.
  - inversion T as [| | |? F|]; subst. cbn [printable] in E.
    destruct flat.
    + destruct l as [|v l].
      * injection E as <-. exists (Str ""). split; [apply same_nothing; reflexivity|]. apply says_str, encode_says. split; [reflexivity|]. split; [intros (b & _ & X & _); destruct b; discriminate X|intros (r & X & _); discriminate X].
      * destruct l as [|w l].
        -- destruct v as [s|?|? ?|?|?]; try discriminate E. injection E as <-. exists (Str s). split; [apply same_one; reflexivity|]. apply says_str, encode_says. inversion F as [|? ? Ft _]; subst. inversion Ft; assumption.
        -- assert (X : exists ts, all_some (map (printable single alternate true (S tabs)) (v :: w :: l)) = Some ts /\ t = "(" ++ separator single ++ joined (map (fun t => indented single (S tabs) ++ t ++ "," ++ separator single) ts) ++ indented single tabs ++ ")").
           { destruct (all_some (map (printable single alternate true (S tabs)) (v :: w :: l))) as [ts|]; [|destruct v; discriminate E]. exists ts. split; [reflexivity|]. destruct v; injection E as <-; reflexivity. }
           destruct X as (ts & X & ->). destruct (said_list single alternate true tabs (v :: w :: l) ts IH F X) as (ps & P1 & P2). exists (Array ps). split; [|exact P2]. apply same_items; [right; cbn [length]; lia|exact P1].
    + destruct (all_some (map (printable single alternate false (S tabs)) l)) as [ts|] eqn:X; [|discriminate E]. injection E as <-.
      destruct (said_list single alternate false tabs l ts IH F X) as (ps & P1 & P2). exists (Array ps). split; [|exact P2]. apply same_items; [left; reflexivity|exact P1].
  - inversion T as [| | | |? F]; subst. cbn [printable] in E. destruct (all_some (map _ l)) as [kts|] eqn:X; [|discriminate E]. injection E as <-. apply all_some_Forall2 in X.
    assert (G : Forall2 (fun kv kt => exists p, tame (fst kv) /\ fst kv = fst kt /\ same flat (snd kv) p /\ says (snd kt) p) l kts).
    { induction X as [|[k v] kt l kts Ev X IHX]; [constructor|]. inversion IH as [|? ? I1 I2]; subst. inversion F as [|? ? [F0 F1] F2]; subst. constructor; [|apply IHX; try assumption; apply tame_entries; assumption].
      unfold with_key in Ev. cbn [fst snd] in *. destruct (printable single alternate flat (S tabs) v) as [tv|] eqn:Pv; [|discriminate Ev]. injection Ev as <-. destruct (I1 F1 _ _ Pv) as (p & P1 & P2). exists p. auto. }
    destruct (perm_Forall2 _ _ _ kts (sort_by fst kts) (sort_by_perm _ fst kts) l G) as (l' & Q & G').
    assert (K : exists r, Forall2 (fun kv kp => fst kv = fst kp /\ same flat (snd kv) (snd kp)) l' r /\
      says_entries (joined (map (fun kt => indented single (S tabs) ++ encode alternate (fst kt) ++ " = " ++ snd kt ++ ";" ++ separator single) (sort_by fst kts))) r).
    { clear Q G. induction G' as [|[k v] [k' tv] l' sk (p & H0 & H1 & H2 & H3) G' IHG]; [exists []; split; [constructor|apply said_nothing, skippable_nil]|]. cbn [fst snd] in *. subst k'. destruct IHG as (r & R1 & R2).
      exists ((k, p) :: r). split; [constructor; [split; [reflexivity|exact H2]|exact R1]|]. cbn [map]. rewrite joined_cons. apply (said_app _ _ [(k, p)] r); [|exact R2]. cbn [fst snd].
      apply said_one; [apply skippable_indented|apply skippable_separator|apply encode_says; exact H0|exact H3]. }
    destruct K as (r & K1 & K2). exists (Dict r). split; [exact (same_entries flat l l' r Q K1)|]. apply said_dict; [exact K2|apply skippable_separator|apply skippable_indented].
Qed.
