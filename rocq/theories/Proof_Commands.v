From Coq Require Import ZArith.
From Verif Require Import Lib Str StrFacts Model_Names Model_Path Model_Commands Spec_Commands.
Local Open Scope string_scope.

Lemma cat_fixed : forall s, fixed true s (cat_to_type s).
Proof.
  intros s. assert (K : (exists x, s = "cat " ++ x) \/ cat_to_type s = s /\ (forall x, s <> "cat " ++ x)).
  { destruct s as [|a s]; [right; split; [reflexivity|discriminate]|].
    destruct (Ascii.ascii_dec a "c") as [->|N]; [|right; split; [destruct a as [[] [] [] [] [] [] [] []]; try reflexivity; contradiction N; reflexivity | intros x E; injection E as E1 _; auto]].
    destruct s as [|b s]; [right; split; [reflexivity|discriminate]|].
    destruct (Ascii.ascii_dec b "a") as [->|N]; [|right; split; [destruct b as [[] [] [] [] [] [] [] []]; try reflexivity; contradiction N; reflexivity | intros x E; injection E as E1 _; auto]].
    destruct s as [|b s]; [right; split; [reflexivity|discriminate]|].
    destruct (Ascii.ascii_dec b "t") as [->|N]; [|right; split; [destruct b as [[] [] [] [] [] [] [] []]; try reflexivity; contradiction N; reflexivity | intros x E; injection E as E1 _; auto]].
    destruct s as [|b s]; [right; split; [reflexivity|discriminate]|].
    destruct (Ascii.ascii_dec b " ") as [->|N]; [|right; split; [destruct b as [[] [] [] [] [] [] [] []]; try reflexivity; contradiction N; reflexivity | intros x E; injection E as E1 _; auto]].
    left. exists s. reflexivity. }
  destruct K as [[x ->]|[E N]].
  - apply (fixed_cat true x eq_refl).
  - rewrite E. apply fixed_other. right. exact N.
Qed.
Lemma fixed_fun : forall win s a b, fixed win s a -> fixed win s b -> a = b.
Proof.
  intros win s a b A B. destruct A as [x W|s C].
  - remember ("cat " ++ x) as t eqn:T. destruct B as [y W2|s2 C2].
    + apply append_inj_l in T. subst. reflexivity.
    + destruct C2 as [?|C2]; [congruence|]. exfalso. exact (C2 x T).
  - destruct B as [y W2|s2 C2]; [|reflexivity]. destruct C as [?|C]; [congruence|]. exfalso. exact (C y eq_refl).
Qed.
Lemma fixup_given : forall win c c', fixup win c = inl c' <-> given win c c'.
Proof.
  intros win c c'. split.
  - unfold fixup. destruct win.
    + destruct c as [s|[|w ws]]; intros E; inversion E; subst; constructor; apply cat_fixed.
    + intros E. injection E as <-. destruct c as [s|[|w ws]]; constructor; try reflexivity; apply fixed_other; left; reflexivity.
  - intros G. unfold fixup. destruct win; inversion G as [s s' F|w w' ws F|F]; subst; try discriminate; try reflexivity.
    + rewrite (fixed_fun true s s' (cat_to_type s) F (cat_fixed s)). reflexivity.
    + rewrite (fixed_fun true w w' (cat_to_type w) F (cat_fixed w)). reflexivity.
    + inversion F; subst; [discriminate|reflexivity].
    + inversion F; subst; [discriminate|reflexivity].
Qed.

(** ** rstrip *)
Lemma rstrip_ws_trimmed : forall s, trimmed s (rstrip_ws s).
Proof.
  induction s as [|a s IH].
  - exists "". split; [reflexivity|]. split; [intros a []|]. intros y a E. destruct y; discriminate.
  - cbn [rstrip_ws]. destruct IH as (e & E & S & N). destruct (rstrip_ws s) as [|b r] eqn:R.
    + destruct (is_space a) eqn:A.
      * exists (String a s). split; [reflexivity|]. split; [|intros y c Q; destruct y; discriminate].
        intros c [<-|I]; [exact A|]. cbn in E. subst s. exact (S c I).
      * exists e. split; [cbn [append] in E |- *; rewrite E; reflexivity|]. split; [exact S|].
        intros y c Q. destruct y as [|z y]; [injection Q as <-; exact A|injection Q as _ Q; destruct y; discriminate].
    + exists e. split; [rewrite E; reflexivity|]. split; [exact S|].
      intros y c Q. destruct y as [|z y]; [discriminate|]. injection Q as _ Q. exact (N y c Q).
Qed.
Lemma snoc_or : forall s, s = "" \/ exists y a, s = y ++ String a "".
Proof.
  induction s as [|a s [->|(y & b & ->)]]; [left; reflexivity|right; exists "", a; reflexivity|right; exists (String a y), b; reflexivity].
Qed.
Lemma list_ascii_app : forall a b, list_ascii_of_string (a ++ b) = (list_ascii_of_string a ++ list_ascii_of_string b)%list.
Proof. induction a as [|x a IH]; intros b; [reflexivity|]. cbn [append list_ascii_of_string]. rewrite IH. reflexivity. Qed.
Lemma trimmed_spaces : forall e x, (forall a, In a (list_ascii_of_string e) -> is_space a = true) -> trimmed e x -> x = "".
Proof.
  intros e x S (t & E & _ & N). destruct (snoc_or x) as [->|(y & a & ->)]; [reflexivity|].
  exfalso. specialize (N y a eq_refl). rewrite S in N; [discriminate|].
  rewrite E, !list_ascii_app. apply in_or_app. left. apply in_or_app. right. left. reflexivity.
Qed.
Lemma trimmed_fun : forall s x y, trimmed s x -> trimmed s y -> x = y.
Proof.
  induction s as [|a s IH]; intros x y X Y.
  - rewrite (trimmed_spaces "" x); [symmetry; apply (trimmed_spaces "" y)|..]; auto; intros ? [].
  - assert (T : forall z, trimmed (String a s) z -> z = "" \/ exists z', z = String a z' /\ trimmed s z').
    { intros z (e & E & S & N). destruct z as [|b z]; [left; reflexivity|right]. injection E as <- E. exists z. split; [reflexivity|]. exists e. split; [exact E|]. split; [exact S|].
      intros y' c Q. apply (N (String a y') c). rewrite Q. reflexivity. }
    assert (K : forall z z', trimmed (String a s) "" -> trimmed (String a s) (String z z') -> False).
    { intros z z' (e & E & S & _) D. cbn in E. assert (Q : String z z' = ""); [|discriminate]. apply (trimmed_spaces (String a s)); [rewrite E; exact S|exact D]. }
    destruct (T x X) as [->|(x' & -> & X')], (T y Y) as [->|(y' & -> & Y')].
    + reflexivity.
    + exfalso. exact (K _ _ X Y).
    + exfalso. exact (K _ _ Y X).
    + f_equal. apply IH; assumption.
Qed.
Lemma trimmed_rstrip : forall s x, trimmed s x <-> x = rstrip_ws s.
Proof. intros s x. split; [intros T; exact (trimmed_fun s x _ T (rstrip_ws_trimmed s))|intros ->; apply rstrip_ws_trimmed]. Qed.

(** ** the directory *)
Lemma ends_slash_iff : forall p, ends_slash p = true <-> exists y, p = y ++ "/".
Proof.
  induction p as [|a p IH]; [split; [discriminate|intros (y & E); destruct y; discriminate]|].
  destruct p as [|b p].
  - cbn [ends_slash]. split.
    + intros E. apply Ascii.eqb_eq in E. exists "". rewrite E. reflexivity.
    + intros (y & E). destruct y as [|c y]; [injection E as ->; reflexivity|injection E as _ E; destruct y; discriminate].
  - change (ends_slash (String a (String b p))) with (ends_slash (String b p)). rewrite IH. split.
    + intros (y & E). exists (String a y). rewrite E. reflexivity.
    + intros (y & E). destruct y as [|c y]; [discriminate|]. injection E as _ E. exists y. exact E.
Qed.
Lemma works_join : forall at_ d x, works_in at_ d x <-> x = match d with None => at_ | Some d => path_join at_ d end.
Proof.
  assert (A : forall d, isabs d = false -> forall x, d <> String "/" x) by (intros d E x ->; discriminate).
  intros at_ d x. split.
  - intros H. inversion H as [|d' N E L|d' N C|y]; subst; try reflexivity; unfold path_join.
    + assert (I : isabs d' = false). { destruct d' as [|a d']; [reflexivity|]. cbn [isabs]. destruct (Ascii.eqb a slash) eqn:Q; [|reflexivity]. apply Ascii.eqb_eq in Q. subst. exfalso. exact (N d' eq_refl). }
      rewrite I. destruct (String.eqb_spec at_ ""); [contradiction|]. cbn [orb]. destruct (ends_slash at_) eqn:Q; [|reflexivity]. apply ends_slash_iff in Q. destruct Q as (y & Q). exfalso. exact (L y Q).
    + assert (I : isabs d' = false). { destruct d' as [|a d']; [reflexivity|]. cbn [isabs]. destruct (Ascii.eqb a slash) eqn:Q; [|reflexivity]. apply Ascii.eqb_eq in Q. subst. exfalso. exact (N d' eq_refl). }
      rewrite I. destruct C as [->|C]; [reflexivity|]. apply ends_slash_iff in C. rewrite C, orb_true_r. reflexivity.
  - intros ->. destruct d as [d|]; [|constructor]. unfold path_join. destruct (isabs d) eqn:I.
    + destruct d as [|a d]; [discriminate|]. cbn [isabs] in I. apply Ascii.eqb_eq in I. subst. constructor.
    + destruct (String.eqb_spec at_ "") as [->|N]; cbn [orb]; [apply works_root; [apply A; exact I|left; reflexivity]|].
      destruct (ends_slash at_) eqn:Q; [apply works_root; [apply A; exact I|right; apply ends_slash_iff; exact Q]|].
      apply works_below; [apply A; exact I|exact N|]. intros y E. assert (ends_slash at_ = true) by (apply ends_slash_iff; exists y; exact E). congruence.
Qed.

(** ** the cache *)
Lemma key_eqb_eq : forall a b, key_eqb a b = true <-> a = b.
Proof.
  intros [a d] [b e]. unfold key_eqb. cbn [fst snd]. split.
  - intros H. apply andb_true_iff in H. destruct H as [H K]. apply String.eqb_eq in H. subst. destruct d, e; try discriminate; [apply String.eqb_eq in K; subst|]; reflexivity.
  - intros E. injection E as -> ->. rewrite String.eqb_refl. destruct e; [apply String.eqb_refl|reflexivity].
Qed.

Section History.
Variables W M Source : Type.
Variable win : bool.
Variable literal : string -> list string + err.
Variable repr : list string -> string.
Variable split : string -> list string + err.
Variable decode : string -> option string.
Variable spawn : W -> command -> string -> W * ran.
Variable chdir : W -> string -> string -> option string.
Variable file_in : W -> string -> string -> string -> option Source.
Variable load_module : Source -> process W M -> process W M * (M + err).
Variable main : M -> process W M -> list string -> process W M * (string + err).
Notation answer := (answer W M Source win literal repr split decode spawn chdir file_in load_module main).
Notation execute := (execute W M Source win split decode spawn chdir file_in load_module main).
Notation history := (history W M Source win literal repr split decode spawn chdir file_in load_module main).
Notation answered := (answered literal repr).
Notation spelt c := (match c with Shell l => l | Argv ws => repr ws end).

Lemma contents_holds : forall r c, contents_of literal r = inl c <-> holds literal r c.
Proof.
  intros r c. unfold contents_of. split.
  - destruct (array r) eqn:A; [destruct (literal (text r)) as [l|e] eqn:L|]; intros E; inversion E; subst; econstructor; eauto.
  - intros H. inversion H as [A|l A L]; subst; rewrite A; [reflexivity|rewrite L; reflexivity].
Qed.
Lemma holds_fun : forall r c c', holds literal r c -> holds literal r c' -> c = c'.
Proof. intros r c c' A B. apply contents_holds in A. apply contents_holds in B. congruence. Qed.

(** the cache holds the first answers, and nothing else *)
Definition agrees (ca : cache) (h : list ((cache * process W M) * request * (string + err))) : Prop :=
  forall t d x, lookup (t, d) ca = Some x <-> answered h t d x.

Lemma answered_app : forall {S} (h h' : list (S * request * (string + err))) t d x, answered (h ++ h') t d x <-> answered h t d x \/ answered h' t d x.
Proof.
  intros S h h' t d x. split.
  - intros (s & r & c & I & K). apply in_app_or in I. destruct I as [I|I]; [left|right]; exists s, r, c; auto.
  - intros [(s & r & c & I & K)|(s & r & c & I & K)]; exists s, r, c; split; auto; apply in_or_app; auto.
Qed.

Lemma answer_step : forall h ca p r s' v, agrees ca h -> answer (ca, p) r = (s', v) -> agrees (fst s') (h ++ [((ca, p), r, v)]).
Proof.
  intros h ca p r s' v A E. unfold agrees in A. unfold Model_Commands.answer in E. destruct (contents_of literal r) as [c|e] eqn:C.
  - pose proof (proj1 (contents_holds r c) C) as HC. change (text_of repr c) with (spelt c) in E. destruct (lookup (spelt c, directory (build_file r)) ca) as [y|] eqn:L.
    + injection E as <- <-. intros t d x. cbn [fst]. rewrite answered_app, <- (A t d x). split; [auto|]. intros [K|(s & r' & c' & [Q|[]] & H & -> & <-)]; [exact K|].
      injection Q as <- <- <-. rewrite (holds_fun _ _ _ H HC). exact L.
    + destruct (execute p (word r) c (directory (build_file r))) as [p' [y|e]] eqn:X; injection E as <- <-; intros t d x; cbn [fst]; rewrite answered_app, <- (A t d x).
      * cbn [lookup]. destruct (key_eqb (t, d) (spelt c, directory (build_file r))) eqn:K.
        -- apply key_eqb_eq in K. injection K as -> ->. split.
           ++ intros Q. injection Q as <-. right. exists (ca, p), r, c. split; [left; reflexivity|auto].
           ++ intros [Q|(s & r' & c' & [Q|[]] & _)]; [congruence|]. injection Q as _ _ <-. reflexivity.
        -- split; [auto|]. intros [Q|(s & r' & c' & [Q|[]] & H & -> & <-)]; [exact Q|]. injection Q as <- <- <-. rewrite (holds_fun _ _ _ H HC) in K. assert (key_eqb (spelt c, directory (build_file r)) (spelt c, directory (build_file r)) = true) by (apply key_eqb_eq; reflexivity). cbn in *. congruence.
      * split; [auto|]. intros [Q|(s & r' & c' & [Q|[]] & _)]; [exact Q|discriminate].
  - injection E as <- <-. intros t d x. cbn [fst]. rewrite answered_app, <- (A t d x). split; [auto|]. intros [Q|(s & r' & c' & [Q|[]] & _)]; [exact Q|discriminate].
Qed.

Lemma history_at : forall rs s0 h0 pre s r v post, agrees (fst s0) h0 -> history s0 rs = (pre ++ (s, r, v) :: post)%list ->
  agrees (fst s) (h0 ++ pre) /\ snd (answer s r) = v /\ (exists rs', post = history (fst (answer s r)) rs') /\ In r rs.
Proof.
  induction rs as [|r1 rs IH]; intros s0 h0 pre s r v post A E.
  - destruct pre; discriminate.
  - cbn [Model_Commands.history] in E. destruct (answer s0 r1) as [s1 v1] eqn:X. destruct pre as [|q pre].
    + injection E as <- <- <- <-. rewrite app_nil_r. split; [exact A|]. rewrite X. split; [reflexivity|]. split; [exists rs; reflexivity|left; reflexivity].
    + injection E as <- E. destruct s0 as [ca p]. pose proof (answer_step h0 ca p r1 s1 v1 A X) as A1.
      destruct (IH s1 (h0 ++ [((ca, p), r1, v1)])%list pre s r v post A1 E) as (B & C & D & I). rewrite <- app_assoc in B. split; [exact B|]. split; [exact C|]. split; [exact D|right; exact I].
Qed.
Lemma agrees_nil : agrees [] [].
Proof. intros t d x. split; [discriminate|intros (s & r & c & [] & _)]. Qed.

(** a text answered before: the same answer, and nothing is run *)
Lemma from_cache : forall p0 rs pre s r v post c x,
  history ([], p0) rs = (pre ++ (s, r, v) :: post)%list -> holds literal r c -> answered pre (spelt c) (directory (build_file r)) x ->
  v = inl x /\ fst (answer s r) = s.
Proof.
  intros p0 rs pre s r v post c x E H A. destruct (history_at rs ([], p0) [] pre s r v post agrees_nil E) as (B & C & _ & _). cbn [app] in B.
  apply B in A. apply contents_holds in H. destruct s as [ca p]. cbn [fst] in A.
  assert (K : answer (ca, p) r = ((ca, p), inl x)) by (unfold Model_Commands.answer; rewrite H; change (text_of repr c) with (spelt c); rewrite A; reflexivity).
  rewrite K in C |- *. split; [symmetry; exact C|reflexivity].
Qed.
(** one not answered before is run *)
Lemma not_cached : forall p0 rs pre s r v post c,
  history ([], p0) rs = (pre ++ (s, r, v) :: post)%list -> holds literal r c -> (forall x, ~ answered pre (spelt c) (directory (build_file r)) x) ->
  v = snd (execute (snd s) (word r) c (directory (build_file r))) /\ snd (fst (answer s r)) = fst (execute (snd s) (word r) c (directory (build_file r))).
Proof.
  intros p0 rs pre s r v post c E H A. destruct (history_at rs ([], p0) [] pre s r v post agrees_nil E) as (B & C & _ & _). cbn [app] in B.
  apply contents_holds in H. destruct s as [ca p]. cbn [fst snd] in *. unfold Model_Commands.answer in C |- *. rewrite H in C |- *. change (text_of repr c) with (spelt c) in C |- *.
  destruct (lookup (spelt c, directory (build_file r)) ca) as [x|] eqn:L; [apply B in L; exfalso; exact (A x L)|].
  destruct (execute p (word r) c (directory (build_file r))) as [p' [y|e]]; subst v; split; reflexivity.
Qed.

(** what a command given to the system is answered with *)
Lemma subprocess_outputs : forall p c dir x, snd (execute p None c dir) = inl x <->
  exists c' at_, given win c c' /\ works_in (cwd p) dir at_ /\ outputs decode (snd (spawn (world p) c' at_)) x.
Proof.
  intros p c dir x. unfold Model_Commands.execute, subprocess. split.
  - destruct (fixup win c) as [c'|e] eqn:F; [|discriminate]. apply fixup_given in F. intros E. exists c', (match dir with None => cwd p | Some d => path_join (cwd p) d end). split; [exact F|]. split; [apply works_join; reflexivity|].
    destruct (spawn _ _ _) as [w [ab|st out]]; cbn [snd] in *; [discriminate|]. destruct (Z.ltb_spec 0 st) as [|L]; [discriminate|].
    destruct (decode out) as [y|] eqn:D; [|discriminate]. injection E as <-. exists st, out, y. split; [reflexivity|]. split; [exact L|]. split; [exact D|]. apply trimmed_rstrip. reflexivity.
  - intros (c' & at_ & G & A & (st & out & y & E & L & D & T)). apply fixup_given in G. rewrite G. apply works_join in A. subst at_. apply trimmed_rstrip in T. subst x.
    destruct (spawn _ _ _) as [w o]. cbn [snd] in *. subst o. destruct (Z.ltb_spec 0 st); [lia|]. rewrite D. reflexivity.
Qed.

(** ** the process is put back as it was *)

Lemma removelast_snoc : forall {A} (l : list A) x, removelast (l ++ [x]) = l.
Proof. intros A l x. rewrite removelast_app by discriminate. cbn [removelast]. apply app_nil_r. Qed.

(** whatever a module does except to sys.path *)
Lemma run_main_path : forall p c, (forall src q, path (fst (load_module src q)) = path q) -> (forall m q a, path (fst (main m q a)) = path q) ->
  path (fst (run_main W M Source split file_in load_module main p c)) = path p.
Proof.
  intros p c HL HM. unfold run_main. destruct c as [s|l]; [|reflexivity]. destruct (split s) as [[|n args]|e]; try reflexivity.
  unfold import. destruct (assoc n (modules p)) as [m|].
  - specialize (HM m p args). destruct (main m p args) as [q [y|e]]; exact HM.
  - destruct (search _ _ _ _ _ _ _) as [src|]; [|reflexivity]. specialize (HL src p). destruct (load_module src p) as [q [m|e]]; [|exact HL]. cbn [fst] in HL.
    specialize (HM m (with_module W M q n m) args). destruct (main m (with_module W M q n m) args) as [q2 [y|e]]; cbn [fst] in *; rewrite HM; exact HL.
Qed.
Lemma execute_restores : forall p w c dir,
  (forall src q, path (fst (load_module src q)) = path q) -> (forall m q a, path (fst (main m q a)) = path q) ->
  (forall u x, chdir u x (cwd p) = Some (cwd p)) ->
  cwd (fst (execute p w c dir)) = cwd p /\ path (fst (execute p w c dir)) = path p.
Proof.
  intros p w c dir HL HM HC. unfold Model_Commands.execute. destruct w as [w|].
  - destruct (String.eqb w "pymod_do_main"); [|split; reflexivity]. unfold pymod.
    destruct (match dir with None => Some (cwd p) | Some d => chdir (world p) (cwd p) d end) as [d|]; [|split; reflexivity].
    pose proof (run_main_path (with_path W M (with_cwd W M p d) (path p ++ [d])) c HL HM) as Q. cbn [with_path path] in Q.
    destruct (run_main _ _ _ _ _ _ _ _ _) as [q v]. cbn [fst] in Q. unfold restore.
    assert (HR : removelast (path q) = path p) by (rewrite Q; apply removelast_snoc).
    destruct (path q) as [|a l] eqn:P; [destruct (path p); discriminate|]. rewrite HC. split; [reflexivity|]. cbn [fst with_cwd with_path path]. exact HR.
  - unfold subprocess. destruct (fixup win c); [|split; reflexivity]. destruct (spawn _ _ _) as [u o]. split; reflexivity.
Qed.
Lemma answer_restores : forall ca p r,
  (forall src q, path (fst (load_module src q)) = path q) -> (forall m q a, path (fst (main m q a)) = path q) ->
  (forall u x, chdir u x (cwd p) = Some (cwd p)) ->
  cwd (snd (fst (answer (ca, p) r))) = cwd p /\ path (snd (fst (answer (ca, p) r))) = path p.
Proof.
  intros ca p r HL HM HC. unfold Model_Commands.answer. destruct (contents_of literal r) as [c|e]; [|split; reflexivity].
  destruct (lookup _ ca); [split; reflexivity|]. pose proof (execute_restores p (word r) c (directory (build_file r)) HL HM HC) as Q.
  destruct (execute p (word r) c (directory (build_file r))) as [q [v|e]]; exact Q.
Qed.
Lemma history_restores : forall rs ca p, 
  (forall src q, path (fst (load_module src q)) = path q) -> (forall m q a, path (fst (main m q a)) = path q) ->
  (forall u x, chdir u x (cwd p) = Some (cwd p)) ->
  forall s r v, In (s, r, v) (history (ca, p) rs) -> cwd (snd s) = cwd p /\ path (snd s) = path p.
Proof.
  induction rs as [|r1 rs IH]; intros ca p HL HM HC s r v I; [destruct I|]. cbn [Model_Commands.history] in I.
  pose proof (answer_restores ca p r1 HL HM HC) as Q. destruct (answer (ca, p) r1) as [[ca1 p1] v1]. cbn [fst snd] in Q. destruct Q as [Q1 Q2].
  destruct I as [I|I]; [injection I as <- _ _; split; reflexivity|].
  destruct (IH ca1 p1 HL HM ltac:(rewrite Q1; exact HC) s r v I) as [A B]. split; congruence.
Qed.

(** ** if nothing changes, every answer is the command's own *)
Lemma own_answer : forall p0 rs (prints : command -> string -> ran),
  (forall src q, path (fst (load_module src q)) = path q) -> (forall m q a, path (fst (main m q a)) = path q) ->
  (forall u x, chdir u x (cwd p0) = Some (cwd p0)) ->
  (forall u c d, snd (spawn u c d) = prints c d) ->
  (forall a b, repr a = repr b -> a = b) ->
  (forall r r' c c', In r rs -> In r' rs -> holds literal r c -> holds literal r' c' -> spelt c = spelt c' -> directory (build_file r) = directory (build_file r') -> word r = word r' /\ array r = array r') ->
  forall s r v c, In (s, r, v) (history ([], p0) rs) -> word r = None -> holds literal r c ->
  forall x, v = inl x <-> exists c' at_, given win c c' /\ works_in (cwd p0) (directory (build_file r)) at_ /\ outputs decode (prints c' at_) x.
Proof.
  intros p0 rs prints HL HM HC HP HR HK s r v c I HW HH x.
  assert (SELF : forall pre s r v post c, history ([], p0) rs = (pre ++ (s, r, v) :: post)%list -> holds literal r c -> (forall x, ~ answered pre (spelt c) (directory (build_file r)) x) -> word r = None ->
    forall x, v = inl x <-> exists c' at_, given win c c' /\ works_in (cwd p0) (directory (build_file r)) at_ /\ outputs decode (prints c' at_) x).
  { clear s r v c I HW HH x. intros pre s r v post c E HH NA HW x.
    assert (Q : cwd (snd s) = cwd p0) by (apply (history_restores rs [] p0 HL HM HC s r v); assert (I : In (s, r, v) (pre ++ (s, r, v) :: post)%list) by (apply in_or_app; right; left; reflexivity); rewrite <- E in I; exact I).
    destruct (not_cached p0 rs pre s r v post c E HH NA) as [-> _]. rewrite HW.
    rewrite subprocess_outputs, Q. split; intros (c' & a & G & A & O); exists c', a; (split; [exact G|]; split; [exact A|]); [rewrite HP in O; exact O|rewrite HP; exact O]. }
  (* the first reference with this text *)
  assert (FIRST : forall pre t d y, (exists post, history ([], p0) rs = (pre ++ post)%list) -> answered pre t d y ->
    exists pre1 s1 r1 post1 c1 y1, pre = (pre1 ++ (s1, r1, inl y1) :: post1)%list /\ holds literal r1 c1 /\ t = spelt c1 /\ directory (build_file r1) = d /\ (forall z, ~ answered pre1 t d z)).
  { clear s r v c I HW HH x SELF. induction pre as [|q pre IH] using rev_ind; intros t d y (post & E) A; [destruct A as (? & ? & ? & [] & _)|].
    destruct (answered_app pre [q] t d y) as [SP _]. specialize (SP A).
    assert (DEC : (exists z, answered pre t d z) \/ forall z, ~ answered pre t d z).
    { destruct q as [[sq rq] vq]. rewrite <- app_assoc in E. destruct (history_at rs ([], p0) [] pre sq rq vq post agrees_nil E) as (B & _). cbn [app] in B.
      destruct (lookup (t, d) (fst sq)) as [z|] eqn:L; [left; exists z; apply B; exact L|right; intros z Z; apply B in Z; congruence]. }
    destruct DEC as [(z & Z)|N].
    - destruct (IH t d z) as (pre1 & s1 & r1 & post1 & c1 & y1 & -> & K); [exists ([q] ++ post)%list; rewrite app_assoc; exact E|exact Z|].
      exists pre1, s1, r1, (post1 ++ [q])%list, c1, y1. split; [rewrite <- app_assoc; reflexivity|exact K].
    - destruct SP as [SP|(s & r & c & [->|[]] & H & -> & <-)]; [exfalso; exact (N _ SP)|]. exists pre, s, r, [], c, y. split; [reflexivity|]. split; [exact H|]. split; [reflexivity|]. split; [reflexivity|exact N]. }
  apply in_split in I. destruct I as (pre & post & E).
  destruct (history_at rs ([], p0) [] pre s r v post agrees_nil E) as (B & V & _ & INr). cbn [app] in B.
  destruct (lookup (spelt c, directory (build_file r)) (fst s)) as [y|] eqn:L.
  - apply B in L. destruct (from_cache p0 rs pre s r v post c y E HH L) as [-> _].
    destruct (FIRST pre _ _ y (ex_intro _ _ E) L) as (pre1 & s1 & r1 & post1 & c1 & y1 & P & H1 & T1 & D1 & N1).
    rewrite P, <- app_assoc in E. cbn [app] in E.
    assert (IN1 : In r1 rs) by (destruct (history_at rs ([], p0) [] pre1 s1 r1 (inl y1) _ agrees_nil E) as (_ & _ & _ & K); exact K).
    destruct (HK r r1 c c1 INr IN1 HH H1 T1 (eq_sym D1)) as [W1 A1].
    assert (EC : c1 = c).
    { inversion HH as [Ar|l Ar Lr]; subst; inversion H1 as [Ar1|l1 Ar1 Lr1]; subst; try congruence; cbn in T1; apply HR in T1; rewrite T1; reflexivity. }
    subst c1. pose proof (SELF pre1 s1 r1 (inl y1) _ c E H1 ltac:(rewrite D1; exact N1) ltac:(congruence) x) as S1. rewrite D1 in S1.
    assert (y = y1). { assert (Z : answered pre (spelt c) (directory (build_file r)) y1) by (exists s1, r1, c; split; [rewrite P; apply in_or_app; right; left; reflexivity|auto]). apply B in L. apply B in Z. congruence. }
    subst y1. exact S1.
  - apply (SELF pre s r v post c E HH); [|exact HW]. intros z Z. apply B in Z. congruence.
Qed.
End History.
