(** Proofs about the command line. *)
From Verif Require Import Lib LibFacts Model_Value Model_Cli Spec_Cli.
Local Open Scope string_scope.

(** ** parsing *)
Definition cmdb (w : word) : bool := js_in command_names w.
Lemma word_eqb_spec : forall a b, reflect (a = b) (word_eqb a b).
Proof. intros [x|x] [y|y]; cbn; try (constructor; discriminate); destruct (String.eqb_spec x y); constructor; congruence. Qed.

Lemma index_of_first : forall c l rest, ~ In c l -> index_of c (l ++ c :: rest)%list = Some (length l).
Proof.
  induction l as [|x l IH]; intros rest H; cbn [index_of app length].
  - destruct (word_eqb_spec c c); [reflexivity|congruence].
  - destruct (word_eqb_spec x c) as [->|]; [exfalso; apply H; left; reflexivity|]. rewrite IH by (intros X; apply H; right; exact X). reflexivity.
Qed.
Lemma set_last_args_snoc : forall args cs n a, set_last_args args (cs ++ [(n, a)])%list = (cs ++ [(n, args)])%list.
Proof. intros args. induction cs as [|[m b] cs IH]; intros n a; [reflexivity|]. cbn [app set_last_args]. rewrite IH. destruct (cs ++ [(n, a)])%list eqn:E; [destruct cs; discriminate|reflexivity]. Qed.

Definition unparse (cs : list command) : list word := flat_map (fun c => fst c :: snd c) cs.
(** the state after some words: [pend] are the words since the last command *)
Lemma parse_loop : forall todo pend cs, Forall (fun w => cmdb w = false) pend -> Forall (fun c => cmdb (fst c) = true /\ Forall (fun w => cmdb w = false) (snd c)) cs ->
  (cs = [] \/ exists cs' n, cs = (cs' ++ [(n, [])])%list) ->
  let '(rest, cs') := fold_left parse_word todo ((pend ++ todo)%list, cs) in
  Forall (fun c => cmdb (fst c) = true /\ Forall (fun w => cmdb w = false) (snd c)) (set_last_args rest cs') /\
  exists lead, Forall (fun w => cmdb w = false) lead /\ (cs <> [] -> lead = []) /\ (unparse cs ++ pend ++ todo = lead ++ unparse (set_last_args rest cs'))%list.
Proof.
  induction todo as [|w todo IH]; intros pend cs HP HC HL.
  - cbn [fold_left]. rewrite app_nil_r. destruct HL as [->|(cs' & n & ->)].
    + split; [constructor|]. exists pend. split; [exact HP|]. split; [congruence|]. cbn. rewrite app_nil_r. reflexivity.
    + rewrite set_last_args_snoc. apply Forall_app in HC. destruct HC as [HC1 HC2]. inversion HC2 as [|? ? [HC3 _] _]. split; [apply Forall_app; split; [exact HC1|constructor; [split; [exact HC3|exact HP]|constructor]]|].
      exists []. split; [constructor|]. split; [reflexivity|]. unfold unparse. rewrite !flat_map_app. cbn. rewrite !app_nil_r, <- app_assoc. reflexivity.
  - cbn [fold_left]. unfold parse_word at 2. fold (cmdb w). destruct (cmdb w) eqn:Ew.
    + assert (NP : ~ In w pend) by (intros X; rewrite Forall_forall in HP; rewrite (HP w X) in Ew; discriminate).
      rewrite (index_of_first w pend todo NP). rewrite firstn_app, Nat.sub_diag, firstn_O, app_nil_r, firstn_all. rewrite skipn_app, Nat.sub_diag, skipn_all, skipn_O. cbn [app tl].
      specialize (IH [] (set_last_args pend cs ++ [(w, [])])%list (Forall_nil _)). cbn [app] in IH.
      assert (HC' : Forall (fun c => cmdb (fst c) = true /\ Forall (fun w => cmdb w = false) (snd c)) (set_last_args pend cs ++ [(w, [])])).
      { apply Forall_app. split; [|constructor; [split; [exact Ew|constructor]|constructor]]. destruct HL as [->|(cs' & n & ->)]; [constructor|]. rewrite set_last_args_snoc. apply Forall_app in HC. destruct HC as [HC1 HC2]. inversion HC2 as [|? ? [HC3 _] _]. apply Forall_app. split; [exact HC1|constructor; [split; [exact HC3|exact HP]|constructor]]. }
      specialize (IH HC' (or_intror (ex_intro _ _ (ex_intro _ _ eq_refl)))). destruct (fold_left parse_word todo _) as [rest cs2]. destruct IH as (F & lead & FL & NL & EQ). split; [exact F|].
      assert (LN : lead = []) by (apply NL; intros X; apply app_eq_nil in X; destruct X; discriminate). subst lead. cbn [app] in EQ. destruct HL as [->|(cs' & n & ->)].
      * exists pend. split; [exact HP|]. split; [congruence|]. cbn [set_last_args app unparse flat_map fst snd] in *. rewrite <- EQ. reflexivity.
      * exists []. split; [constructor|]. split; [reflexivity|]. cbn [app]. rewrite <- EQ. rewrite set_last_args_snoc. unfold unparse. rewrite !flat_map_app. cbn. rewrite !app_nil_r, <- !app_assoc. reflexivity.
    + specialize (IH (pend ++ [w])%list cs). rewrite <- !app_assoc in IH. cbn [app] in IH. apply IH; [apply Forall_app; split; [exact HP|constructor; [exact Ew|constructor]]|exact HC|exact HL].
Qed.

Lemma parse_general : forall remain, Forall (fun c => cmdb (fst c) = true /\ Forall (fun w => cmdb w = false) (snd c)) (parse_argv remain) /\
  exists lead, Forall (fun w => cmdb w = false) lead /\ map unalias remain = (lead ++ unparse (parse_argv remain))%list.
Proof.
  intros remain. unfold parse_argv. pose proof (parse_loop (map unalias remain) [] [] (Forall_nil _) (Forall_nil _) (or_introl eq_refl)) as H. cbn [app unparse flat_map] in H.
  match type of H with context [fold_left ?f ?l ?i] => change (fold_left parse_word (map unalias remain) (map unalias remain, [])) with (fold_left f l i); destruct (fold_left f l i) as [rest cs] end. destruct H as (F & lead & FL & _ & E). split; [exact F|]. exists lead. tauto.
Qed.

Lemma unalias_plain : forall s, ~ In s inherited_names -> unalias s = Word (long_form s).
Proof.
  intros s H. unfold unalias, js_in, long_form. cbn [key_of map fst aliases]. rewrite (proj2 (mem_false s inherited_names) H), orb_false_r. cbn [mem existsb assoc aliases]. destruct (String.eqb s "ls") eqn:E1; [reflexivity|]. destruct (String.eqb s "rm") eqn:E2; reflexivity.
Qed.
Lemma long_form_plain : forall s, ~ In s inherited_names -> ~ In (long_form s) inherited_names.
Proof. intros s H. unfold long_form. destruct (String.eqb_spec s "ls"); [cbn; intuition discriminate|]. destruct (String.eqb_spec s "rm"); [cbn; intuition discriminate|exact H]. Qed.
Lemma cmdb_plain : forall s, ~ In s inherited_names -> cmdb (Word s) = true <-> is_command s.
Proof. intros s H. unfold cmdb, js_in. cbn [key_of]. rewrite (proj2 (mem_false s inherited_names) H), orb_false_r, mem_In. reflexivity. Qed.
Lemma cmdb_inherited : forall s, In s inherited_names -> cmdb (Inherited s) = false.
Proof. intros s H. cbn in H. repeat (destruct H as [<-|H]; [reflexivity|]). destruct H. Qed.

Definition plain_words (cs : list command) (ps : list (string * list string)) : Prop := cs = map (fun p => (Word (fst p), map Word (snd p))) ps.

Lemma map_word_inv : forall ws ss, map Word ss = ws -> forall l1 l2, ws = (l1 ++ l2)%list -> exists s1 s2, l1 = map Word s1 /\ l2 = map Word s2 /\ ss = (s1 ++ s2)%list.
Proof.
  intros ws ss E l1 l2 E2. subst ws. apply map_eq_app in E2. destruct E2 as (s1 & s2 & -> & <- & <-). exists s1, s2. auto.
Qed.
Lemma unparse_plain : forall cs ss, unparse cs = map Word ss -> exists ps, plain_words cs ps /\ ss = flat_map (fun c => fst c :: snd c) ps.
Proof.
  unfold plain_words. induction cs as [|[n a] cs IH]; intros ss H.
  - destruct ss; [|discriminate]. exists []. auto.
  - cbn [unparse flat_map fst snd app] in H. destruct ss as [|s ss]; [discriminate|]. cbn [map] in H. injection H as -> H. symmetry in H. apply map_eq_app in H. destruct H as (s1 & s2 & -> & <- & H2). destruct (IH s2 (eq_sym H2)) as (ps & -> & ->). exists ((s, s1) :: ps). split; [reflexivity|reflexivity].
Qed.

Lemma parse_spec : forall remain, Forall (fun s => ~ In s inherited_names) remain ->
  exists ps, plain_words (parse_argv remain) ps /\ reads_as (map long_form remain) ps.
Proof.
  intros remain HP. destruct (parse_general remain) as (F & lead & FL & E).
  assert (EM : map unalias remain = map Word (map long_form remain)).
  { rewrite map_map. apply map_ext_in. intros s Hs. rewrite Forall_forall in HP. apply unalias_plain, HP, Hs. }
  rewrite EM in E. destruct (map_word_inv _ _ eq_refl _ _ E) as (s1 & s2 & -> & E2 & E3). destruct (unparse_plain _ _ E2) as (ps & HW & ->). exists ps. split; [exact HW|].
  assert (PL : Forall (fun s => ~ In s inherited_names) (map long_form remain)) by (apply Forall_map; eapply Forall_impl; [|exact HP]; intros s; apply long_form_plain). rewrite E3 in PL. apply Forall_app in PL. destruct PL as [PL1 PL2].
  exists s1. split; [exact E3|]. split.
  - rewrite Forall_map in FL. rewrite Forall_forall in *. intros s Hs X. apply (cmdb_plain s (PL1 s Hs)) in X. rewrite (FL s Hs) in X. discriminate.
  - unfold plain_words in HW. rewrite HW in F. rewrite Forall_map in F. rewrite Forall_forall in *. intros [n a] Hp. specialize (F (n, a) Hp). cbn [fst snd] in *. destruct F as [F1 F2].
    assert (IN : forall s, In s (n :: a) -> ~ In s inherited_names) by (intros s Hs; apply PL2; apply in_flat_map; exists (n, a); split; [exact Hp|exact Hs]).
    split; [apply (cmdb_plain n); [apply IN; left; reflexivity|exact F1]|]. rewrite Forall_map in F2. rewrite Forall_forall in *. intros s Hs X. apply (cmdb_plain s) in X; [|apply IN; right; exact Hs]. rewrite (F2 s Hs) in X. discriminate.
Qed.

(** there is only one way to read the words *)
Lemma reads_as_unique : forall words cs cs', reads_as words cs -> reads_as words cs' -> cs = cs'.
Proof.
  assert (G : forall cs cs' lead lead', (lead ++ flat_map (fun c => fst c :: snd c) cs = lead' ++ flat_map (fun c : string * list string => fst c :: snd c) cs')%list ->
    Forall (fun s => ~ is_command s) lead -> Forall (fun s => ~ is_command s) lead' ->
    Forall (fun c => is_command (fst c) /\ Forall (fun s => ~ is_command s) (snd c)) cs -> Forall (fun c => is_command (fst c) /\ Forall (fun s => ~ is_command s) (snd c)) cs' -> lead = lead' /\ cs = cs').
  { assert (H : forall lead lead' t t', (lead ++ t = lead' ++ t')%list -> Forall (fun s => ~ is_command s) lead -> Forall (fun s => ~ is_command s) lead' ->
      (t = [] \/ exists c u, t = c :: u /\ is_command c) -> (t' = [] \/ exists c u, t' = c :: u /\ is_command c) -> lead = lead' /\ t = t').
    { induction lead as [|x lead IH]; intros lead' t t' E F F' T T'.
      - destruct lead' as [|y lead']; [split; [reflexivity|exact E]|]. cbn [app] in E. destruct T as [->|(c & u & -> & Hc)]; [discriminate|]. injection E as -> _. inversion F'; contradiction.
      - destruct lead' as [|y lead'].
        + cbn [app] in E. destruct T' as [->|(c & u & -> & Hc)]; [discriminate|]. injection E as <- _. inversion F; contradiction.
        + cbn [app] in E. injection E as -> E. inversion F; inversion F'; subst. destruct (IH lead' t t' E) as [-> ->]; auto. }
    assert (T : forall cs : list (string * list string), Forall (fun c => is_command (fst c) /\ Forall (fun s => ~ is_command s) (snd c)) cs -> flat_map (fun c => fst c :: snd c) cs = [] \/ exists c u, flat_map (fun c : string * list string => fst c :: snd c) cs = c :: u /\ is_command c).
    { intros [|[n a] cs] X; [left; reflexivity|]. right. exists n. eexists. split; [reflexivity|]. inversion X as [|? ? [Y _] _]. exact Y. }
    induction cs as [|[n a] cs IH]; intros cs' lead lead' E F F' C C'; destruct (H _ _ _ _ E F F' (T _ C) (T _ C')) as [-> E2]; (split; [reflexivity|]); clear E F F'.
    - destruct cs' as [|[m b] cs']; [reflexivity|discriminate].
    - destruct cs' as [|[m b] cs']; [discriminate|]. cbn [flat_map fst snd app] in E2. injection E2 as -> E2. inversion C as [|? ? [_ C1] C2]; inversion C' as [|? ? [_ C3] C4]; subst. cbn [snd] in *. destruct (IH cs' a b E2 C1 C3 C2 C4) as [-> ->]. reflexivity. }
  intros words cs cs' (lead & -> & F & C) (lead' & E & F' & C'). apply (G cs cs' lead lead' E F F' C C').
Qed.

(** ** running *)
Definition total (l : list task) : nat := fold_right (fun c n => task_weight c + n) 0 l.
Lemma total_app : forall a b, total (a ++ b)%list = total a + total b.
Proof. induction a as [|c a IH]; intros b; [reflexivity|]. cbn [app total fold_right]. fold (total a). fold (total (a ++ b)%list). rewrite IH. lia. Qed.
Lemma weight_pushed : forall denied hist c, total (pushed denied hist c) < task_weight c.
Proof.
  intros denied hist [n a]. unfold pushed, task_weight. cbn [fst]. destruct (String.eqb n "rebuild"); [cbn; lia|]. destruct (String.eqb n "install" || String.eqb n "configure"); cbn [andb]; [destruct (denied hist (n, a)); cbn; lia|cbn; lia].
Qed.

Lemma run_spec : forall fuel w denied todo hist, total todo < fuel ->
  exists more code, run fuel w denied todo hist = Some ((hist ++ more)%list, code) /\
    (forall h c e t, more = (h ++ (c, e) :: t)%list -> e = w (hist ++ h)%list c /\ (t <> [] -> e = Resolves)) /\
    (exists left, todo ++ appended denied hist more = map fst more ++ left /\
      (code = 0 <-> left = [] /\ Forall (fun e => snd e = Resolves) more))%list /\
    (code = 1 <-> exists h c, more = h ++ [(c, Rejects)])%list /\ (code = 6 <-> exists h c, more = h ++ [(c, Hangs)])%list /\ (code = 0 \/ code = 1 \/ code = 6).
Proof.
  induction fuel as [|fuel IH]; intros w denied todo hist HF; [lia|]. cbn [run]. destruct todo as [|c todo].
  - exists [], 0. rewrite app_nil_r. split; [reflexivity|]. split; [intros h c e t E; destruct h; discriminate|]. split; [exists []; split; [reflexivity|split; [split; [reflexivity|constructor]|reflexivity]]|].
    split; [split; [discriminate|intros (h & c & E); destruct h; discriminate]|]. split; [split; [discriminate|intros (h & c & E); destruct h; discriminate]|auto].
  - destruct (w hist c) eqn:EW.
    + cbn [total fold_right] in HF. fold (total todo) in HF. pose proof (weight_pushed denied hist c) as WP. destruct (IH w denied (todo ++ pushed denied hist c)%list (hist ++ [(c, Resolves)])%list) as (more & code & E & H1 & (left & L1 & L2) & H3 & H4 & H5); [rewrite total_app; lia|].
      exists ((c, Resolves) :: more), code. rewrite E, <- app_assoc. cbn [app]. split; [reflexivity|]. split.
      { intros h d e t X. destruct h as [|y h]; cbn [app] in X.
        - injection X as <- <- <-. rewrite app_nil_r. split; [symmetry; exact EW|reflexivity].
        - injection X as <- X. destruct (H1 h d e t X) as [Y Z]. rewrite <- app_assoc in Y. split; [exact Y|exact Z]. }
      split.
      { exists left. cbn [map fst appended snd app]. rewrite <- L1, <- !app_assoc. split; [reflexivity|]. rewrite L2. split; [intros [X Y]; split; [exact X|constructor; [reflexivity|exact Y]]|intros [X Y]; inversion Y; split; assumption]. }
      split; [rewrite H3|split; [rewrite H4|exact H5]]; (split; intros (h & d & X); [exists ((c, Resolves) :: h), d; rewrite X; reflexivity|destruct h as [|y h]; [discriminate|]; injection X as <- X; exists h, d; exact X]).
    + exists [(c, Rejects)], 1. split; [reflexivity|]. split.
      { intros h d e t X. destruct h as [|y h]; [|destruct h; discriminate]. injection X as <- <- <-. rewrite app_nil_r. split; [symmetry; exact EW|congruence]. }
      split; [exists todo; split; [cbn; rewrite app_nil_r; reflexivity|split; [discriminate|intros [_ X]; inversion X; discriminate]]|].
      split; [split; [exists [], c; reflexivity|reflexivity]|]. split; [split; [discriminate|intros (h & d & X); destruct h as [|y h]; [discriminate|destruct h; discriminate]]|auto].
    + exists [(c, Hangs)], 6. split; [reflexivity|]. split.
      { intros h d e t X. destruct h as [|y h]; [|destruct h; discriminate]. injection X as <- <- <-. rewrite app_nil_r. split; [symmetry; exact EW|congruence]. }
      split; [exists todo; split; [cbn; rewrite app_nil_r; reflexivity|split; [discriminate|intros [_ X]; inversion X; discriminate]]|].
      split; [split; [discriminate|intros (h & d & X); destruct h as [|y h]; [discriminate|destruct h; discriminate]]|]. split; [split; [exists [], c; reflexivity|reflexivity]|auto].
Qed.

Lemma rebuild_alone : forall w args hist code, run_all w (fun _ _ => false) [("rebuild", args)] = Some (hist, code) ->
  (exists left, [("rebuild", args); ("clean", []); ("configure", args); ("build", [])] = map fst hist ++ left /\ (code = 0 <-> left = [] /\ Forall (fun e => snd e = Resolves) hist))%list.
Proof.
  intros w args hist code. unfold run_all. cbn.
  repeat match goal with |- context [match w ?h ?c with _ => _ end] => destruct (w h c) eqn:?; cbn end; intros [= <- <-];
  eexists; (split; [first [reflexivity | rewrite ?app_nil_r; reflexivity]|]);
  first [ split; [intros _; split; [reflexivity|]; repeat (apply Forall_cons; [reflexivity|]); apply Forall_nil | reflexivity]
        | split; [discriminate | intros [_ X]; repeat first [discriminate (Forall_inv X) | apply Forall_inv_tail in X] ] ].
Qed.
