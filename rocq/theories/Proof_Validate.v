(** Proofs about the checks on targets. *)
From Verif Require Import Lib LibFacts Str StrFacts Model_Value Model_Validate Spec_Validate.
From Verif Require Model_Writer Proof_NinjaObject Proof_Install2.
Local Open Scope string_scope.

(** ** Small facts *)
Lemma mem_iff : forall x l, mem x l = true <-> In x l.
Proof. intros x l. unfold mem. rewrite existsb_exists. split; [intros (y & Y & E); apply String.eqb_eq in E; subst; exact Y|intros H; exists x; split; [exact H|apply String.eqb_refl]]. Qed.
Lemma true_on : forall k d, true_at k d = true <-> on k d.
Proof.
  intros k d. unfold true_at, on. destruct (assoc k d) as [v|]; split; [intros H; exists v; auto|intros (v' & E & T); injection E as <-; exact T|discriminate|intros (v' & E & _); discriminate].
Qed.
Lemma map_inj_dicts : forall a b, map VDict a = map VDict b -> a = b.
Proof. induction a as [|x a IH]; intros [|y b] E; try discriminate; [reflexivity|]. injection E as -> E. f_equal. auto. Qed.
Lemma dicts_fun : forall k d a b, dicts_at k d a -> dicts_at k d b -> a = b.
Proof.
  intros k d a b [[A ->]|A] [[B ->]|B]; rewrite A in B; try discriminate; [reflexivity|]. injection B as B. apply map_inj_dicts, B.
Qed.
Lemma named_fun : forall rs a b, Forall2 rule_named rs a -> Forall2 rule_named rs b -> a = b.
Proof.
  intros rs a b H. revert b. induction H as [|r n rs a [N _] H IH]; intros b B; inversion B as [|r' n' rs' b' [N' _] B']; subst; [reflexivity|]. f_equal; [congruence|auto].
Qed.
Lemma rule_for_fun : forall r e e', rule_for r e -> rule_for r e' -> e = e'.
Proof.
  intros r e e' [H|[H N]] [H'|[H' N']]; unfold text_at in *; rewrite H in H'; injection H' as H'; [exact H'|destruct (N' e (eq_sym H'))|destruct (N e' H')|exact H'].
Qed.
Lemma for_fun : forall rs a b, Forall2 rule_for rs a -> Forall2 rule_for rs b -> a = b.
Proof.
  intros rs a b H. revert b. induction H as [|r n rs a N H IH]; intros b B; inversion B as [|r' n' rs' b' N' B']; subst; [reflexivity|]. f_equal; [eapply rule_for_fun; eassumption|auto].
Qed.
Lemma rule_for_text : forall r e, rule_for r e -> exists t, assoc "extension" r = Some (VStr t) /\ without_dot t = e.
Proof.
  intros r e [H|[H N]]; unfold text_at in H; [exists ("." ++ e); split; [exact H|reflexivity]|]. exists e. split; [exact H|]. destruct e as [|a e]; [reflexivity|]. cbn [without_dot]. destruct (Ascii.eqb_spec a ".") as [->|]; [|reflexivity]. destruct (N e). reflexivity.
Qed.

(** ** Extensions *)
Lemma dots_iff : forall s, Model_Writer.only_dots s = true <-> dots s.
Proof.
  induction s as [|a s IH]; [split; [constructor|reflexivity]|]. cbn [Model_Writer.only_dots]. rewrite andb_true_iff, IH, Ascii.eqb_eq. split; [intros [-> H]; constructor; exact H|intros H; inversion H; auto].
Qed.
Lemma ends_split : forall s e, ends_in s e -> snd (Model_Writer.splitext s) = "." ++ e.
Proof.
  intros s e (d & n & -> & D & N & X & E & S). rewrite Proof_NinjaObject.splitext_is; [reflexivity|exact D|exact N| |exact E|exact S].
  destruct (Model_Writer.only_dots n) eqn:O; [apply dots_iff in O; contradiction|reflexivity].
Qed.
Lemma split_cases : forall s, snd (Model_Writer.splitext s) = "" \/ exists e, snd (Model_Writer.splitext s) = "." ++ e /\ ends_in s e.
Proof.
  intros s. unfold Model_Writer.splitext. destruct (rsplit1 "/" s) as [[d b]|] eqn:R.
  - apply rsplit1_Some in R. destruct R as [-> B]. destruct (rsplit1 "." b) as [[r e]|] eqn:R2; [|left; reflexivity]. destruct (Model_Writer.only_dots r) eqn:O; [left; reflexivity|].
    right. exists e. split; [reflexivity|]. apply rsplit1_Some in R2. destruct R2 as [-> E]. rewrite has_char_app in B. apply orb_false_iff in B. destruct B as [B1 B2]. cbn in B2.
    exists (d ++ "/"), r. split; [rewrite append_assoc; reflexivity|]. split; [right; exists d; reflexivity|]. split; [exact B1|]. split; [rewrite <- dots_iff; congruence|]. split; [exact E|exact B2].
  - destruct (rsplit1 "." s) as [[r e]|] eqn:R2; [|left; reflexivity]. destruct (Model_Writer.only_dots r) eqn:O; [left; reflexivity|].
    right. exists e. split; [reflexivity|]. apply rsplit1_Some in R2. destruct R2 as [-> E]. apply rsplit1_None in R. rewrite has_char_app in R. apply orb_false_iff in R. destruct R as [B1 B2]. cbn in B2.
    exists "", r. split; [reflexivity|]. split; [left; reflexivity|]. split; [exact B1|]. split; [rewrite <- dots_iff; congruence|]. split; [exact E|exact B2].
Qed.
Lemma extension_iff : forall s e, without_dot (snd (Model_Writer.splitext s)) = e <-> extension s e.
Proof.
  intros s e. unfold extension. destruct (split_cases s) as [Z|(x & Z & X)]; rewrite Z.
  - split; [cbn; intros <-; right; split; [reflexivity|]; intros x X; apply ends_split in X; rewrite Z in X; discriminate|].
    intros [H|[-> _]]; [apply ends_split in H; rewrite Z in H; discriminate|reflexivity].
  - split; [cbn; intros <-; left; exact X|]. intros [H|[-> N]]; [apply ends_split in H; rewrite Z in H; cbn in H |- *; congruence|destruct (N x X)].
Qed.
Lemma extension_fun : forall s e e', extension s e -> extension s e' -> e = e'.
Proof. intros s e e' H H'. apply extension_iff in H, H'. congruence. Qed.

(** ** The sources of a rule *)
Definition takes (e s : string) : bool := String.eqb (without_dot (snd (Model_Writer.splitext s))) e.
Lemma takes_chosen : forall e l, chosen e l (filter (takes e) l).
Proof.
  intros e. induction l as [|s l IH]; [constructor|]. cbn [filter]. unfold takes at 1. destruct (String.eqb_spec (without_dot (snd (Model_Writer.splitext s))) e) as [E|E]; [apply chosen_yes|apply chosen_no]; try exact IH; rewrite <- extension_iff; exact E.
Qed.
Lemma fold_matching : forall e l found, rfold (matching e) (map VStr l) found = Val (found ++ map VStr (filter (takes e) l))%list.
Proof.
  intros e. induction l as [|s l IH]; intros found; [cbn; rewrite app_nil_r; reflexivity|]. cbn [map rfold matching rbind]. rewrite IH. cbn [filter]. unfold takes at 2. destruct (String.eqb _ e); [cbn [map]; rewrite <- app_assoc|]; reflexivity.
Qed.
Lemma fold_keys : forall e d keys srcs, texts_below d keys srcs -> forall found,
  rfold (fun found key => rbind (items_at key d) (fun l => rfold (matching e) l found)) keys found = Val (found ++ map VStr (filter (takes e) srcs))%list.
Proof.
  intros e d keys srcs H. induction H as [|k ks l l' T H IH]; intros found; [cbn; rewrite app_nil_r; reflexivity|]. cbn [rfold].
  assert (I : items_at k d = Val (map VStr l)) by (unfold items_at; destruct T as [[T ->]|T]; rewrite T; reflexivity). rewrite I. cbn [rbind]. rewrite fold_matching. cbn [rbind]. rewrite IH, filter_app, map_app, app_assoc. reflexivity.
Qed.
Lemma below_exists : forall d keys, (forall k, In k keys -> exists l, texts_at k d l) -> exists srcs, texts_below d keys srcs.
Proof.
  intros d keys. induction keys as [|k ks IH]; intros H; [exists []; constructor|]. destruct (H k) as [l L]; [left; reflexivity|]. destruct IH as [l' L']; [intros x X; apply H; right; exact X|]. eexists. apply below_cons; eassumption.
Qed.

Section Texts.
  Variable show : value -> string.

  (** ** Rules *)
  Definition good_rules (names : list value) (exts : list string) (rs : list dict) (ns : list value) (es : list string) : Prop :=
    NoDup (names ++ ns) /\ NoDup (exts ++ es) /\ Forall (fun r => assoc "rule_sources" r = None) rs.
  Lemma named_in : forall n names, ((exists s, n = VStr s) \/ (exists z, n = VInt z)) -> existsb (same_name n) names = true <-> In n names.
  Proof.
    intros n names H. rewrite existsb_exists. split.
    - intros (x & X & E). unfold same_name, scalar_eqb in E. destruct n, x; try discriminate; [apply String.eqb_eq in E|apply Z.eqb_eq in E]; subst; exact X.
    - intros X. exists n. split; [exact X|]. destruct H as [(s & ->)|(z & ->)]; cbn; [apply String.eqb_refl|apply Z.eqb_refl].
  Qed.
  Lemma nodup_in_app : forall A (x : A) a b, In x a -> ~ NoDup (a ++ x :: b).
  Proof. intros A x a b I N. apply NoDup_remove_2 in N. apply N. apply in_or_app. auto. Qed.
  Lemma rules_fold : forall target d extra srcs, texts_below d ("sources" :: extra) srcs ->
    forall rs ns es, Forall2 rule_named rs ns -> Forall2 rule_for rs es -> forall names (exts : list (string * value)) done, NoDup names -> NoDup (map fst exts) ->
    (good_rules names (map fst exts) rs ns es /\ exists st rs', rfold (validate_rule show target d extra) (map VDict rs) (names, exts, done) = Val (st, (done ++ map VDict rs')%list) /\ Forall2 (with_sources srcs) rs rs') \/
    (~ good_rules names (map fst exts) rs ns es /\ exists m, rfold (validate_rule show target d extra) (map VDict rs) (names, exts, done) = Exn (GypError m) /\ mentions m target).
  Proof.
    intros target d extra srcs T rs ns es N. revert es. induction N as [|r n rs ns N1 N IH]; intros es E names exts done D1 D2.
    - inversion E; subst. left. split; [unfold good_rules; rewrite !app_nil_r; auto|]. exists (names, exts), []. split; [cbn; rewrite app_nil_r; reflexivity|constructor].
    - inversion E as [|r' e rs0 es' F1 E']; subst. destruct N1 as [N1 K]. destruct (rule_for_text r e F1) as (t & X & W). cbn [map rfold validate_rule]. rewrite N1.
      assert (KN := named_in n names K).
      assert (SC : forall A (x y : A), match n with VStr _ | VInt _ => x | _ => y end = x) by (intros; destruct K as [(s & ->)|(z & ->)]; reflexivity).
      rewrite SC. destruct (existsb (same_name n) names) eqn:EX.
      { right. split; [intros (G & _); exact (nodup_in_app _ _ _ _ (proj1 KN eq_refl) G)|]. eexists. split; [reflexivity|]. exists ("rule " ++ show n ++ " exists in duplicate, target "), "". rewrite !append_assoc, append_nil_r. reflexivity. }
      rewrite X, W. destruct (assoc e exts) as [other|] eqn:AE.
      { right. split; [intros (_ & G & _)|].
        - apply assoc_In in AE. apply (nodup_in_app _ e (map fst exts) es'); [apply in_map_iff; exists (e, other); auto|exact G].
        - eexists. split; [reflexivity|]. exists ("extension " ++ e ++ " associated with multiple rules, target "), (" rules " ++ show other ++ " and " ++ show n). rewrite !append_assoc. reflexivity. }
      unfold has_key. destruct (mem "rule_sources" (map fst r)) eqn:RS.
      { right. split; [intros (_ & _ & G)|].
        - apply Forall_cons_iff in G. destruct G as [G _]. apply assoc_None in G. apply mem_iff in RS. contradiction.
        - eexists. split; [reflexivity|]. exists "rule_sources must not exist in input, target ", (" rule " ++ show n). rewrite ?append_assoc. reflexivity. }
      unfold rule_sources. rewrite (fold_keys e d _ _ T). cbn [rbind app].
      set (l := filter (takes e) srcs). set (r1 := match map VStr l with [] => r | _ :: _ => set_key "rule_sources" (VList (map VStr l)) r end).
      assert (RN : assoc "rule_sources" r = None). { apply assoc_None. intros I. apply mem_iff in I. congruence. }
      assert (WS : with_sources srcs r r1).
      { exists e, l. split; [exact F1|]. split; [apply takes_chosen|]. unfold r1. split; [intros ->; reflexivity|]. intros NE. destruct l as [|x l']; [congruence|]. cbn [map]. split; [rewrite Proof_Install2.assoc_set, String.eqb_refl; reflexivity|].
        intros k Kk. rewrite Proof_Install2.assoc_set. destruct (String.eqb_spec "rule_sources" k); [congruence|reflexivity]. }
      assert (D1' : NoDup (names ++ [n])). { apply NoDup_app_intro; [exact D1|repeat constructor; intros []|]. intros x I [<-|[]]. apply KN in I. congruence. }
      assert (D2' : NoDup (map fst (exts ++ [(e, n)]))). { rewrite map_app. apply NoDup_app_intro; [exact D2|repeat constructor; intros []|]. intros x I [<-|[]]. apply (proj1 (assoc_None _ _ _) AE I). }
      destruct (IH es' E' (names ++ [n])%list (exts ++ [(e, n)])%list (done ++ [VDict r1])%list D1' D2') as [(G & st & rs' & R & F)|(G & m & R & M)].
      + left. split.
        * destruct G as (G1 & G2 & G3). rewrite map_app in G2. rewrite <- app_assoc in G1, G2. split; [exact G1|]. split; [exact G2|]. constructor; assumption.
        * exists st, (r1 :: rs'). split; [|constructor; assumption]. etransitivity; [exact R|]. f_equal. f_equal. rewrite <- app_assoc. reflexivity.
      + right. split; [|exists m; auto]. intros (G1 & G2 & G3). apply G. apply Forall_cons_iff in G3. split; [rewrite <- app_assoc; exact G1|]. split; [rewrite map_app, <- app_assoc; exact G2|apply G3].
  Qed.

  Definition verdict {A} (ok : Prop) (r : result A) (P : A -> Prop) (names : list string) : Prop :=
    (ok /\ exists a, r = Val a /\ P a) \/ (~ ok /\ exists m n, r = Exn (GypError m) /\ In n names /\ mentions m n).

  Lemma rules_verdict : forall target extra d, shaped extra d -> verdict (valid_rules d) (validate_rules show target d extra) (completed extra d) [target].
  Proof.
    intros target extra d ((rs & ns & es & R & N & E) & T & _). destruct (below_exists d _ T) as [srcs S].
    assert (V : valid_rules d <-> good_rules [] [] rs ns es).
    { split; [intros V; exact (V rs ns es R N E)|]. intros G rs0 ns0 es0 R0 N0 E0. rewrite <- (dicts_fun _ _ _ _ R R0) in *. rewrite <- (named_fun _ _ _ N N0), <- (for_fun _ _ _ E E0). exact G. }
    destruct (rules_fold target d extra srcs S rs ns es N E [] [] [] (NoDup_nil _) (NoDup_nil _)) as [(G & st & rs' & F & W)|(G & m & F & M)].
    - left. split; [apply V, G|]. unfold validate_rules. destruct R as [[R Z]|R]; rewrite R.
      + subst rs. inversion W; subst. exists d. split; [reflexivity|]. exists [], [], srcs. split; [left; auto|]. split; [exact S|]. split; [left; auto|]. split; [constructor|reflexivity].
      + cbn [items rbind]. rewrite F. cbn [rbind snd app]. eexists. split; [reflexivity|]. destruct rs as [|r rs].
        * inversion W; subst. exists [], [], srcs. split; [right; exact R|]. split; [exact S|]. split; [right; exact R|]. split; [constructor|reflexivity].
        * cbn [map]. exists (r :: rs), rs', srcs. split; [right; exact R|]. split; [exact S|]. split; [right; rewrite Proof_Install2.assoc_set, String.eqb_refl; reflexivity|]. split; [exact W|].
          intros k K. rewrite Proof_Install2.assoc_set. destruct (String.eqb_spec "rules" k); [congruence|reflexivity].
    - right. split; [rewrite V; exact G|]. exists m, target. unfold validate_rules. destruct R as [[R Z]|R]; rewrite R; [subst rs; cbn in F; discriminate|].
      cbn [items rbind]. rewrite F. cbn. auto.
  Qed.

  (** ** The type *)
  Lemma type_verdict : forall target d, verdict (valid_type d) (validate_target_type show target d) (fun _ => True) [target].
  Proof.
    intros target d. unfold validate_target_type. cbv zeta. unfold valid_type, text_at.
    destruct (assoc "type" d) as [[s|z|l|x|c]|] eqn:T;
      try (right; split; [intros (t & E & _); discriminate|]; cbn [negb]; eexists _, target; split; [reflexivity|]; split; [left; reflexivity|]; eexists "Target ", _; reflexivity).
    destruct (mem s valid_target_types) eqn:M; cbn [negb].
    - apply mem_iff in M. destruct (true_at "standalone_static_library" d) eqn:A; cbn [andb].
      + apply true_on in A. destruct (String.eqb_spec s "static_library") as [->|NE]; cbn [negb].
        * left. split; [exists "static_library"; auto|]. exists tt. auto.
        * right. split; [intros (t & E & _ & I); injection E as <-; apply NE, I, A|]. eexists _, target; split; [reflexivity|]; split; [left; reflexivity|]; eexists "Target ", _; reflexivity.
      + left. split; [|exists tt; auto]. exists s. split; [reflexivity|]. split; [exact M|]. intros H. apply true_on in H. congruence.
    - right. split; [|eexists _, target; split; [reflexivity|]; split; [left; reflexivity|]; eexists "Target ", _; reflexivity].
      intros (t & E & I & _). injection E as <-. apply mem_iff in I. unfold valid_target_types in M. congruence.
  Qed.

  (** ** How to run it *)
  Lemma run_verdict : forall bf d, verdict (valid_run_as d) (validate_run_as show d bf) (fun _ => True) [show_at show "target_name" d].
  Proof.
    intros bf d. unfold validate_run_as. cbv zeta. set (name := show_at show "target_name" d). unfold valid_run_as. destruct (true_at "run_as" d) eqn:O; cbn [negb].
    2:{ left. split; [intros H; apply true_on in H; congruence|exists tt; auto]. }
    apply true_on in O. destruct (assoc "run_as" d) as [[s|z|l|r|c]|] eqn:R;
      try (right; split; [intros H; destruct (H O) as (r' & x & l' & E & _); discriminate|]; eexists _, name; split; [reflexivity|]; split; [left; reflexivity|]; eexists "The 'run_as' in target ", _; reflexivity).
    destruct (true_at "action" r) eqn:A; cbn [negb].
    2:{ right. split; [|eexists _, name; split; [reflexivity|]; split; [left; reflexivity|]; eexists "The 'run_as' in target ", _; reflexivity].
        intros H. destruct (H O) as (r' & x & l' & E & E2 & _). injection E as <-. assert (on "action" r) by (exists (VList (x :: l')); auto). apply true_on in H0. congruence. }
    apply true_on in A. destruct A as (v & EA & TA). unfold is_at at 1. rewrite EA. destruct v as [s|z|l|x|c]; cbn [is_list negb];
      try (right; split; [intros H; destruct (H O) as (r' & y & l' & E & E2 & _); injection E as <-; congruence|]; eexists _, name; split; [reflexivity|]; split; [left; reflexivity|]; eexists "The 'action' for 'run_as' in target ", _; reflexivity).
    destruct l as [|x l]; [discriminate|].
    destruct (true_at "working_directory" r && negb (is_at is_str "working_directory" r)) eqn:WD.
    { right. split; [|eexists _, name; split; [reflexivity|]; split; [left; reflexivity|]; eexists "The 'working_directory' for 'run_as' in target ", _; reflexivity].
      apply andb_true_iff in WD. destruct WD as [W1 W2]. apply true_on in W1. apply negb_true_iff in W2. intros H. destruct (H O) as (r' & y & l' & E & E2 & E3 & _). injection E as <-. destruct (E3 W1) as (s & S). unfold text_at in S. unfold is_at in W2. rewrite S in W2. discriminate. }
    destruct (true_at "environment" r && negb (is_at is_dict "environment" r)) eqn:EN.
    { right. split; [|eexists _, name; split; [reflexivity|]; split; [left; reflexivity|]; eexists "The 'environment' for 'run_as' in target ", _; reflexivity].
      apply andb_true_iff in EN. destruct EN as [W1 W2]. apply true_on in W1. apply negb_true_iff in W2. intros H. destruct (H O) as (r' & y & l' & E & E2 & _ & E3). injection E as <-. destruct (E3 W1) as (s & S). unfold is_at in W2. rewrite S in W2. discriminate. }
    left. split; [|exists tt; auto]. intros _. exists r, x, l. split; [reflexivity|]. split; [exact EA|]. split.
    - intros H. destruct H as (v & E & TV). assert (H := proj2 (true_on "working_directory" r) (ex_intro _ v (conj E TV))). rewrite H in WD. cbn [andb] in WD. apply negb_false_iff in WD. unfold is_at in WD. rewrite E in WD. destruct v; try discriminate. exists s. exact E.
    - intros H. destruct H as (v & E & TV). assert (H := proj2 (true_on "environment" r) (ex_intro _ v (conj E TV))). rewrite H in EN. cbn [andb] in EN. apply negb_false_iff in EN. unfold is_at in EN. rewrite E in EN. destruct v; try discriminate. exists d0. exact E.
  Qed.

  (** ** Actions *)
  Lemma action_verdict : forall name a u, (forall v, assoc "action" a = Some v -> (exists s, v = VStr s) \/ (exists l, v = VList l)) ->
    verdict (valid_action a) (validate_action name u (VDict a)) (fun _ => True) [name].
  Proof.
    intros name a u SH. unfold validate_action. destruct (true_at "action_name" a) eqn:N; cbn [negb].
    2:{ right. split; [intros (H & _); apply true_on in H; congruence|]. eexists _, name; split; [reflexivity|]; split; [left; reflexivity|]; eexists "Anonymous action in target ", _; reflexivity. }
    apply true_on in N. destruct (match assoc "inputs" a with None => true | Some v => is_none v end) eqn:I.
    { right. split; [|eexists _, name; split; [reflexivity|]; split; [left; reflexivity|]; eexists "Action in target ", _; reflexivity]. intros (_ & (v & E & NE) & _). rewrite E in I. destruct v; try discriminate. cbn in I. apply String.eqb_eq in I. congruence. }
    assert (IN : exists v, assoc "inputs" a = Some v /\ v <> VOther "NoneType") by (destruct (assoc "inputs" a) as [v|]; [|discriminate]; exists v; split; [reflexivity|]; intros ->; discriminate).
    destruct (true_at "action" a) eqn:A; cbn [negb].
    2:{ left. split; [|exists tt; auto]. split; [exact N|]. split; [exact IN|]. intros x l E. unfold true_at in A. rewrite E in A. discriminate. }
    unfold true_at in A. destruct (assoc "action" a) as [v|] eqn:E; [|discriminate]. destruct (SH v eq_refl) as [(s & ->)|(l & ->)].
    - left. split; [|exists tt; auto]. split; [exact N|]. split; [exact IN|]. intros; congruence.
    - destruct l as [|x l]; [discriminate|]. destruct (truthy x) eqn:TX.
      + left. split; [|exists tt; auto]. split; [exact N|]. split; [exact IN|]. intros x' l' H. congruence.
      + right. split; [intros (_ & _ & H); specialize (H x l E); congruence|]. eexists _, name; split; [reflexivity|]; split; [left; reflexivity|]; eexists "Empty action as command in target ", _; reflexivity.
  Qed.
  Lemma actions_verdict : forall d l, dicts_at "actions" d l -> Forall (fun a => forall v, assoc "action" a = Some v -> (exists s, v = VStr s) \/ (exists l, v = VList l)) l ->
    verdict (valid_actions d) (validate_actions show d) (fun _ => True) [show_at show "target_name" d].
  Proof.
    intros d l D F. unfold validate_actions. set (name := show_at show "target_name" d).
    assert (I : items_at "actions" d = Val (map VDict l)) by (unfold items_at; destruct D as [[D ->]|D]; rewrite D; reflexivity). rewrite I. cbn [rbind].
    assert (V : valid_actions d <-> Forall valid_action l). { split; [intros V; exact (V l D)|]. intros G l0 D0. rewrite <- (dicts_fun _ _ _ _ D D0). exact G. }
    assert (G : verdict (Forall valid_action l) (rfold (validate_action name) (map VDict l) tt) (fun _ => True) [name]).
    { clear D I V. induction F as [|a l A F IH]; [left; split; [constructor|exists tt; auto]|]. cbn [map rfold]. destruct (action_verdict name a tt A) as [(O & u & R & _)|(O & m & n & R & H)]; rewrite R; cbn [rbind].
      - destruct u. destruct IH as [(O' & u & R' & _)|(O' & m & n & R' & H)]; [left; split; [constructor; assumption|exists u; auto]|right; split; [intros X; apply Forall_cons_iff in X; apply O', X|exists m, n; auto]].
      - right. split; [intros X; apply Forall_cons_iff in X; apply O, X|exists m, n; auto]. }
    unfold verdict in *. rewrite V. exact G.
  Qed.

  (** ** Whole targets *)
  Section Target.
    Variable build_file : string -> string.
    Variable extra : list string.

    Lemma run_same : forall d d' bf, (forall k, k <> "rules" -> assoc k d' = assoc k d) -> validate_run_as show d' bf = validate_run_as show d bf.
    Proof. intros d d' bf H. unfold validate_run_as, true_at, show_at. rewrite !H by discriminate. reflexivity. Qed.
    Lemma actions_same : forall d d', (forall k, k <> "rules" -> assoc k d' = assoc k d) -> validate_actions show d' = validate_actions show d.
    Proof. intros d d' H. unfold validate_actions, items_at, show_at. rewrite !H by discriminate. reflexivity. Qed.

    Theorem target_verdict : forall target d, shaped extra d ->
      verdict (valid d) (validate_target show build_file extra target d) (completed extra d) [target; show_at show "target_name" d].
    Proof.
      intros target d S. unfold validate_target, valid. destruct (type_verdict target d) as [(O1 & u & R1 & _)|(O1 & m & n & R & I & M)]; [|rewrite R; right; split; [tauto|]; exists m, n; split; [reflexivity|]; split; [cbn in *; tauto|exact M]].
      rewrite R1. cbn [rbind]. destruct (rules_verdict target extra d S) as [(O2 & d' & R2 & C)|(O2 & m & n & R & I & M)]; [|rewrite R; right; split; [tauto|]; exists m, n; split; [reflexivity|]; split; [cbn in *; tauto|exact M]].
      rewrite R2. cbn [rbind]. assert (K : forall k, k <> "rules" -> assoc k d' = assoc k d) by (destruct C as (? & ? & ? & _ & _ & _ & _ & K); exact K). rewrite (run_same d d' _ K), (actions_same d d' K).
      destruct (run_verdict (build_file target) d) as [(O3 & u3 & R3 & _)|(O3 & m & n & R & I & M)]; [|rewrite R; right; split; [tauto|]; exists m, n; split; [reflexivity|]; split; [cbn in *; tauto|exact M]].
      rewrite R3. cbn [rbind]. destruct S as (_ & _ & l & L & F). destruct (actions_verdict d l L F) as [(O4 & u4 & R4 & _)|(O4 & m & n & R & I & M)]; [|rewrite R; right; split; [tauto|]; exists m, n; split; [reflexivity|]; split; [cbn in *; tauto|exact M]].
      rewrite R4. cbn [rbind]. left. split; [tauto|]. exists d'. auto.
    Qed.

    Theorem all_verdict : forall targets, Forall (fun e => shaped extra (snd e)) targets ->
      (Forall (fun e => valid (snd e)) targets /\ exists out, validate show build_file extra targets = Val out /\ Forall2 (fun e e' => fst e' = fst e /\ completed extra (snd e) (snd e')) targets out) \/
      (exists before t d after m n, targets = (before ++ (t, d) :: after)%list /\ Forall (fun e => valid (snd e)) before /\ ~ valid d /\
        validate show build_file extra targets = Exn (GypError m) /\ In n [t; show_at show "target_name" d] /\ mentions m n).
    Proof.
      intros targets F. induction F as [|[t d] ts S F IH]; [left; split; [constructor|]; exists []; split; [reflexivity|constructor]|]. unfold validate in *. cbn [rmap fst snd] in *.
      destruct (target_verdict t d S) as [(O & d' & R & C)|(O & m & n & R & I & M)]; rewrite R; cbn [rbind].
      - destruct IH as [(O' & out & R' & C')|(b & t1 & d1 & a & m & n & E & O' & NV & R' & I & M)]; rewrite R'; cbn [rbind].
        + left. split; [constructor; assumption|]. eexists. split; [reflexivity|]. constructor; [cbn; auto|exact C'].
        + right. exists ((t, d) :: b), t1, d1, a, m, n. split; [rewrite E; reflexivity|]. split; [constructor; assumption|]. auto.
      - right. exists [], t, d, ts, m, n. split; [reflexivity|]. split; [constructor|]. auto.
    Qed.
  End Target.
End Texts.

(** ** No source goes to two rules *)
Lemma chosen_in : forall e l r s, chosen e l r -> In s r -> extension s e /\ In s l.
Proof.
  intros e l r s H. induction H as [|x l r X H IH|x l r X H IH]; cbn [In]; [tauto| |intros I; destruct (IH I); auto]. intros [<-|I]; [auto|]. destruct (IH I). auto.
Qed.
Lemma with_sources_for : forall srcs r r' s l, with_sources srcs r r' -> assoc "rule_sources" r = None -> assoc "rule_sources" r' = Some (VList l) -> In (VStr s) l -> exists e, rule_for r e /\ extension s e.
Proof.
  intros srcs r r' s l (e & c & R & C & Z & NZ) N A I. exists e. split; [exact R|]. destruct c as [|x c]; [rewrite (Z eq_refl) in A; congruence|]. destruct NZ as [NZ _]; [discriminate|]. rewrite A in NZ. injection NZ as ->. change (VStr x :: map VStr c) with (map VStr (x :: c)) in I. apply in_map_iff in I. destruct I as (y & Y & I). injection Y as ->. apply (chosen_in _ _ _ _ C I).
Qed.
Lemma one_rule : forall d rs ns es rs' sources, valid_rules d -> dicts_at "rules" d rs -> Forall2 rule_named rs ns -> Forall2 rule_for rs es -> Forall2 (with_sources sources) rs rs' ->
  forall i j r1 r2 l1 l2 s, nth_error rs' i = Some r1 -> nth_error rs' j = Some r2 -> assoc "rule_sources" r1 = Some (VList l1) -> assoc "rule_sources" r2 = Some (VList l2) -> In (VStr s) l1 -> In (VStr s) l2 -> i = j.
Proof.
  intros d rs ns es rs' sources V R N E W i j r1 r2 l1 l2 s I J A1 A2 S1 S2. destruct (V rs ns es R N E) as (_ & DE & NS).
  assert (P : forall k r l, nth_error rs' k = Some r -> assoc "rule_sources" r = Some (VList l) -> In (VStr s) l -> exists e, nth_error es k = Some e /\ extension s e).
  { clear - W E NS. intros k. revert rs rs' es E W NS. induction k as [|k IH]; intros rs rs' es E W NS r l K A S.
    - destruct W as [|r0 r1 rs rs' W0 W]; [discriminate|]. inversion E as [|? e ? es' F E']; subst. injection K as ->. apply Forall_cons_iff in NS. destruct (with_sources_for _ _ _ _ _ W0 (proj1 NS) A S) as (e' & R' & X). rewrite (rule_for_fun _ _ _ F R'). exists e'. auto.
    - destruct W as [|r0 r1 rs rs' W0 W]; [discriminate|]. inversion E as [|? e ? es' F E']; subst. apply Forall_cons_iff in NS. exact (IH rs rs' es' E' W (proj2 NS) r l K A S). }
  destruct (P i r1 l1 I A1 S1) as (e1 & I1 & X1). destruct (P j r2 l2 J A2 S2) as (e2 & J2 & X2). rewrite <- (extension_fun _ _ _ X1 X2) in J2.
  apply (proj1 (NoDup_nth_error es) DE); [apply nth_error_Some; congruence|congruence].
Qed.
