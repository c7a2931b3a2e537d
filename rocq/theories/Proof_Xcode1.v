(** Architectures, and all flags for compilers. *)
From Verif Require Import Lib LibFacts Str StrFacts.
From Verif Require Model_Build Model_Path Model_Names Proof_Commands Proof_Flags5.
From Verif Require Import Model_Writer Model_Xcode Spec_Flags Spec_Xcode Proof_Xcode.
From Verif Require Proof_Vs Proof_Suffix Proof_Parts.
Local Open Scope string_scope.

(** ** The last part of a path *)
Lemma last_part_iff : forall p n, last_part p n <-> n = snd (Model_Names.path_split p).
Proof.
  intros p n. unfold Model_Names.path_split, slash. split.
  - intros (H & [->|(d & ->)]).
    + rewrite (proj2 (rsplit1_None "/" n) H). reflexivity.
    + assert (X : rsplit1 "/" (d ++ "/" ++ n) = Some (d, n)) by (apply rsplit1_Some; split; [reflexivity|exact H]). rewrite X. reflexivity.
  - intros ->. destruct (rsplit1 "/" p) as [(d & n)|] eqn:E.
    + apply rsplit1_Some in E. destruct E as (-> & H). split; [exact H|]. right. exists d. reflexivity.
    + apply rsplit1_None in E. split; [exact E|]. left. reflexivity.
Qed.
Lemma simulator_iff : forall p, simulator p <-> String.prefix "iphonesimulator" (Model_Build.to_lower (snd (Model_Names.path_split p))) = true.
Proof.
  intros p. rewrite Proof_Vs.prefix_iff. split.
  - intros (n & r & L & E). apply last_part_iff in L. subst n. exists r. exact E.
  - intros (r & E). exists (snd (Model_Names.path_split p)), r. split; [apply last_part_iff; reflexivity|exact E].
Qed.
Lemma phone_iff : forall m s w, proper s ->
  (phone m s w <-> match assoc "IPHONEOS_DEPLOYMENT_TARGET" s with
                   | None => w = []
                   | Some _ => exists p, sdk_path m s = Some (Some p) /\
                       w = appendf m s "IPHONEOS_DEPLOYMENT_TARGET" (if String.prefix "iphonesimulator" (Model_Build.to_lower (snd (Model_Names.path_split p))) then "-mios-simulator-version-min=" else "-miphoneos-version-min=") None
                   end).
Proof.
  intros m s w P. split.
  - intros [L|v p I A S|v p I A S].
    + apply lacks_iff in L. rewrite L. reflexivity.
    + apply assoc_iff in I; [|apply P]. rewrite I. exists p. split; [apply sdk_iff; assumption|]. apply simulator_iff in S. rewrite S. unfold appendf. rewrite I. reflexivity.
    + apply assoc_iff in I; [|apply P]. rewrite I. exists p. split; [apply sdk_iff; assumption|]. unfold appendf. rewrite I.
      destruct (String.prefix "iphonesimulator" (Model_Build.to_lower (snd (Model_Names.path_split p)))) eqn:E; [destruct S; apply simulator_iff; exact E|]. reflexivity.
  - destruct (assoc "IPHONEOS_DEPLOYMENT_TARGET" s) as [v|] eqn:E.
    + destruct (text_of _ _ _ P (not_listed "IPHONEOS_DEPLOYMENT_TARGET" eq_refl) E) as (x & ->). intros (p & A & ->). apply sdk_iff in A; [|exact P]. unfold appendf. rewrite E. cbn [shown].
      assert (I : In ("IPHONEOS_DEPLOYMENT_TARGET", Text x) s) by (apply assoc_iff; [apply P|exact E]).
      destruct (String.prefix "iphonesimulator" (Model_Build.to_lower (snd (Model_Names.path_split p)))) eqn:F.
      * apply (phone_simulator m s x p I A). apply simulator_iff. exact F.
      * apply (phone_device m s x p I A). intros S. apply simulator_iff in S. congruence.
    + intros ->. apply phone_none. apply lacks_iff. exact E.
Qed.
Lemma oldest_iff : forall m s w, proper s -> (oldest m s w <-> version_min m s = Some w).
Proof.
  intros m s w P. unfold oldest, version_min. assert (L : ~ In "MACOSX_DEPLOYMENT_TARGET" list_keys) by (apply not_listed; reflexivity). split.
  - intros (a & b & -> & A & B). apply (worded_iff m) in A; [|exact P|exact L]. apply phone_iff in B; [|exact P]. subst a.
    destruct (assoc "IPHONEOS_DEPLOYMENT_TARGET" s); [|subst b; rewrite app_nil_r; reflexivity]. destruct B as (p & -> & ->). reflexivity.
  - intros H. exists (appendf m s "MACOSX_DEPLOYMENT_TARGET" "-mmacosx-version-min=" None).
    destruct (assoc "IPHONEOS_DEPLOYMENT_TARGET" s) eqn:E.
    + destruct (sdk_path m s) as [[p|]|] eqn:F; try discriminate H. injection H as <-. eexists. split; [reflexivity|]. split; [apply (worded_iff m); auto|]. apply phone_iff; [exact P|]. rewrite E. exists p. split; [exact F|reflexivity].
    + injection H as <-. exists []. rewrite app_nil_r. split; [reflexivity|]. split; [apply (worded_iff m); auto|]. apply phone_iff; [exact P|]. rewrite E. reflexivity.
Qed.

(** ** Variables in ARCHS *)
Lemma letter_iff : forall a, Model_Xcode.letter a = true <-> word_letter a.
Proof. intros a. unfold Model_Xcode.letter, word_letter. cbv zeta. rewrite !orb_true_iff, !andb_true_iff, !N.leb_le, N.eqb_eq. tauto. Qed.
Lemma digit_iff : forall a, digit a = true <-> word_digit a.
Proof. intros a. unfold digit, word_digit. cbv zeta. rewrite andb_true_iff, !N.leb_le. tauto. Qed.
Lemma reference_iff : forall s, is_variable s = true <-> reference s.
Proof.
  intros s. unfold is_variable, reference. split.
  - destruct (list_ascii_of_string s) as [|d [|p [|l rest]]] eqn:E; try discriminate. destruct (rev rest) as [|c name] eqn:R; [rewrite andb_false_r; discriminate|]. rewrite !andb_true_iff, forallb_forall.
    intros (((D & Q) & L) & (C & F)). apply Ascii.eqb_eq in D, Q, C. subst d p c. assert (rest = rev name ++ [")"%char])%list by (rewrite <- (rev_involutive rest), R; reflexivity). subst rest.
    exists l, (string_of_list_ascii (rev name)). split; [|split; [apply letter_iff; exact L|]].
    + rewrite <- (string_of_list_ascii_of_string s), E. clear. cbn. do 3 f_equal. induction (rev name) as [|a n IH]; [reflexivity|]. cbn. f_equal. exact IH.
    + intros b I. rewrite list_ascii_of_string_of_list_ascii in I. apply in_rev in I. apply F in I. apply orb_true_iff in I. destruct I as [I|I]; [left; apply letter_iff; exact I|right; apply digit_iff; exact I].
  - intros (a & n & -> & L & F). assert (X : list_ascii_of_string ("$(" ++ String a n ++ ")") = ("$" :: "(" :: a :: list_ascii_of_string n ++ [")"])%char%list) by (cbn; rewrite Proof_Commands.list_ascii_app; reflexivity).
    rewrite X. rewrite rev_app_distr. cbn [rev app]. rewrite !andb_true_iff, forallb_forall. repeat split; try reflexivity; [apply letter_iff; exact L|].
    intros b I. apply in_rev in I. apply orb_true_iff. destruct (F b I) as [Y|Y]; [left; apply letter_iff; exact Y|right; apply digit_iff; exact Y].
Qed.
Definition era_of (m : machine) : era := if String.ltb (version m) "0500" then Before_5_0 else if String.ltb (version m) "0510" then From_5_0 else From_5_1.
Lemma era_iff : forall m e, in_era m e <-> e = era_of m.
Proof. intros m e. unfold era_of. destruct e; cbn; destruct (String.ltb (version m) "0500"), (String.ltb (version m) "0510"); split; intros H; try discriminate H; try reflexivity; try (destruct H; discriminate); auto. Qed.
Definition family_of (p : platform) : sdk_family := match p with Mac => For_mac | Ios => For_phone | Simulator => For_simulator end.
Lemma mentions_iff : forall s p, mentions s p <-> contains p (Model_Build.to_lower s) = true.
Proof. intros s p. unfold mentions. rewrite Proof_Flags5.contains_iff. tauto. Qed.
Lemma family_iff : forall s f r, NoDup (map fst s) -> says s "SDKROOT" r "" -> (in_family s f <-> f = family_of (platform_of r)).
Proof.
  intros s f r N R. unfold in_family, platform_of, family_of. split.
  - intros (r' & R' & H). assert (r' = r) by (eapply says_fun; eassumption). subst r'. clear R'.
    destruct (contains "iphoneos" (Model_Build.to_lower r)) eqn:E, (contains "iphonesimulator" (Model_Build.to_lower r)) eqn:F; destruct f; rewrite ?mentions_iff, ?E, ?F in H; try reflexivity; try discriminate H; destruct H; congruence.
  - intros ->. exists r. split; [exact R|]. destruct (contains "iphoneos" (Model_Build.to_lower r)) eqn:E.
    + apply mentions_iff. exact E.
    + destruct (contains "iphonesimulator" (Model_Build.to_lower r)) eqn:F; rewrite !mentions_iff, E, ?F; repeat split; discriminate || reflexivity.
Qed.
Definition expansion (m : machine) (p : platform) (a : string) : list string := if is_variable a then match assoc a (mapping m p) with Some l => l | None => [] end else [a].
Lemma assoc_std : forall m p, match assoc "$(ARCHS_STANDARD)" (mapping m p) with Some l => l | None => [] end = standard (era_of m) (family_of p).
Proof. intros m p. unfold mapping, era_of. destruct (String.ltb (version m) "0500"), (String.ltb (version m) "0510"), p; reflexivity. Qed.
Lemma assoc_64 : forall m p, match assoc "$(ARCHS_STANDARD_INCLUDING_64_BIT)" (mapping m p) with Some l => l | None => [] end = with_64_bit (era_of m) (family_of p).
Proof. intros m p. unfold mapping, era_of. destruct (String.ltb (version m) "0500"), (String.ltb (version m) "0510"), p; reflexivity. Qed.
Lemma assoc_neither : forall m p a, a <> "$(ARCHS_STANDARD)" -> a <> "$(ARCHS_STANDARD_INCLUDING_64_BIT)" -> assoc a (mapping m p) = None.
Proof.
  intros m p a A B. apply assoc_None. intros I. assert (X : In a ["$(ARCHS_STANDARD)"; "$(ARCHS_STANDARD_INCLUDING_64_BIT)"]).
  { unfold mapping in I. destruct (String.ltb (version m) "0500"), (String.ltb (version m) "0510"), p; cbn [map fst In] in I |- *; tauto. }
  cbn [In] in X. destruct X as [X|[X|[]]]; congruence.
Qed.
Lemma stands_iff : forall m p a l, stands_for (era_of m) (family_of p) a l <-> l = expansion m p a.
Proof.
  intros m p a l. unfold expansion. split.
  - intros [b N| | |b R A B].
    + destruct (is_variable b) eqn:E; [apply reference_iff in E; contradiction|reflexivity].
    + change (is_variable "$(ARCHS_STANDARD)") with true. rewrite assoc_std. reflexivity.
    + change (is_variable "$(ARCHS_STANDARD_INCLUDING_64_BIT)") with true. rewrite assoc_64. reflexivity.
    + apply reference_iff in R. rewrite R, assoc_neither by assumption. reflexivity.
  - intros ->. destruct (is_variable a) eqn:E.
    + destruct (String.string_dec a "$(ARCHS_STANDARD)") as [->|A]; [rewrite assoc_std; constructor|]. destruct (String.string_dec a "$(ARCHS_STANDARD_INCLUDING_64_BIT)") as [->|B]; [rewrite assoc_64; constructor|].
      rewrite assoc_neither by assumption. apply stands_nothing; [apply reference_iff; exact E|exact A|exact B].
    + apply stands_itself. intros R. apply reference_iff in R. congruence.
Qed.
Lemma stands_all : forall m p asked parts, Forall2 (stands_for (era_of m) (family_of p)) asked parts <-> parts = map (expansion m p) asked.
Proof.
  intros m p. induction asked as [|a asked IH]; intros parts.
  - split; [intros H; inversion H; reflexivity|intros ->; constructor].
  - split.
    + intros H. inversion H as [|x y l l' A B]; subst. apply stands_iff in A. apply IH in B. cbn [map]. congruence.
    + intros ->. cbn [map]. constructor; [apply stands_iff; reflexivity|apply IH; reflexivity].
Qed.
Definition add_all (l out : list string) : list string := fold_left (fun o x => oset_add x o) l out.
Lemma add_all_app : forall a b out, add_all (a ++ b) out = add_all b (add_all a out). Proof. intros. unfold add_all. apply fold_left_app. Qed.
Lemma expand_archs_eq : forall m root archs, expand_archs m root archs = add_all (concat (map (expansion m (platform_of root)) archs)) [].
Proof.
  intros m root archs. unfold expand_archs. generalize (@nil string). induction archs as [|a archs IH]; intros out; [reflexivity|]. cbn [fold_left map concat]. rewrite IH, add_all_app. f_equal. unfold expansion.
  destruct (is_variable a); [|reflexivity]. destruct (assoc a (mapping m (platform_of root))); reflexivity.
Qed.
Lemma once_iff : forall l seen out r, (forall x, In x seen <-> In x out) -> (once_each seen l r <-> add_all l out = (out ++ r)%list).
Proof.
  induction l as [|x l IH]; intros seen out r Q; cbn [add_all fold_left].
  - split; [intros H; inversion H; rewrite app_nil_r; reflexivity|]. intros H. rewrite <- (app_nil_r out) in H at 1. apply app_inv_head in H. subst r. constructor.
  - change (fold_left (fun o y => oset_add y o) l (oset_add x out)) with (add_all l (oset_add x out)). unfold oset_add. destruct (mem x out) eqn:M.
    + apply mem_In in M. rewrite <- (IH seen out r Q). split; [intros H; inversion H; subst; [assumption|exfalso; apply Q in M; contradiction]|]. intros H. apply once_again; [apply Q; exact M|exact H].
    + apply mem_false in M. assert (Q' : forall y, In y (x :: seen) <-> In y (out ++ [x])%list) by (intros y; cbn [In]; rewrite in_app_iff, (Q y); cbn [In]; tauto). split.
      * intros H. inversion H; subst; [exfalso; apply M, Q; assumption|]. assert (Z := proj1 (IH _ _ r0 Q')). rewrite Z by assumption. rewrite <- app_assoc. reflexivity.
      * intros H. assert (G : exists r', add_all l (out ++ [x]) = ((out ++ [x]) ++ r')%list).
        { clear. generalize (out ++ [x])%list. induction l as [|y l IH]; intros o; [exists []; rewrite app_nil_r; reflexivity|]. cbn [add_all fold_left]. change (fold_left (fun o y => oset_add y o) l (oset_add y o)) with (add_all l (oset_add y o)).
          destruct (IH (oset_add y o)) as (r & ->). unfold oset_add. destruct (mem y o); [exists r; reflexivity|]. exists (y :: r). rewrite <- app_assoc. reflexivity. }
        destruct G as (r' & G). rewrite G, <- app_assoc in H. apply app_inv_head in H. cbn [app] in H. subst r. apply once_first; [intros I; apply M, Q; exact I|]. apply (IH _ _ r' Q'). exact G.
Qed.
Lemma kept_iff : forall valid all l, kept_of valid all l <-> l = filter (fun a => mem a valid) all.
Proof.
  intros valid. induction all as [|a all IH]; intros l.
  - split; [intros H; inversion H; reflexivity|intros ->; constructor].
  - cbn [filter]. destruct (mem a valid) eqn:M.
    + apply mem_In in M. split; [intros H; inversion H; subst; [f_equal; apply IH; assumption|contradiction]|]. intros ->. apply kept_yes; [exact M|apply IH; reflexivity].
    + apply mem_false in M. split; [intros H; inversion H; subst; [contradiction|apply IH; assumption]|]. intros ->. apply kept_no; [exact M|apply IH; reflexivity].
Qed.
Lemma default_eq : forall m, default_archs m = default_of (era_of m).
Proof. intros m. unfold default_archs, era_of. destruct (String.ltb (version m) "0500"); [reflexivity|]. destruct (String.ltb (version m) "0510"); reflexivity. Qed.
Lemma root_total : forall s, proper s -> exists r, says s "SDKROOT" r "" /\ get s "SDKROOT" (Text "") = Text r.
Proof.
  intros s P. unfold get. destruct (assoc "SDKROOT" s) as [v|] eqn:E.
  - destruct (text_of _ _ _ P (not_listed "SDKROOT" eq_refl) E) as (x & ->). exists x. split; [left; apply assoc_iff; [apply P|exact E]|reflexivity].
  - exists "". split; [right; split; [apply lacks_iff; exact E|reflexivity]|reflexivity].
Qed.
Definition arch_items (m : machine) (s : settings) : list string := match items_of s "ARCHS" with [] => [default_archs m] | l => l end.
Lemma active_eq : forall m s r, proper s -> get s "SDKROOT" (Text "") = Text r ->
  active_archs m s = Some (let out := expand_archs m r (arch_items m s) in match items_of s "VALID_ARCHS" with [] => out | valid => filter (fun a => mem a valid) out end).
Proof.
  intros m s r P R. unfold active_archs. rewrite R. unfold arch_items, items_of. f_equal.
  destruct (assoc "ARCHS" s) as [v|] eqn:E; [destruct (items_in _ _ _ P (is_listed "ARCHS" eq_refl) E) as (l & ->)|]; destruct (assoc "VALID_ARCHS" s) as [w|] eqn:F;
    try (destruct (items_in _ _ _ P (is_listed "VALID_ARCHS" eq_refl) F) as (l' & ->)); cbn [items empty]; try destruct l; try destruct l'; reflexivity.
Qed.
Lemma active_iff : forall m s l, proper s -> (active m s l <-> active_archs m s = Some l).
Proof.
  intros m s l P. destruct (root_total s P) as (r & R & G). rewrite (active_eq m s r P G). cbv zeta. unfold active. split.
  - intros (e & f & given & asked & parts & all & valid & HE & HF & HG & -> & HP & HO & HV & HK).
    apply era_iff in HE. subst e. apply (family_iff s f r) in HF; [|apply P|exact R]. subst f. apply lists_iff in HG; [|exact P|apply is_listed; reflexivity]. apply lists_iff in HV; [|exact P|apply is_listed; reflexivity].
    apply stands_all in HP. apply (once_iff _ [] []) in HO; [|tauto]. cbn [app] in HO. rewrite expand_archs_eq.
    assert (AI : arch_items m s = match given with [] => [default_of (era_of m)] | _ => given end) by (unfold arch_items; rewrite default_eq, <- HG; destruct given; reflexivity). rewrite AI, <- HV, <- HP, HO.
    destruct valid as [|v valid]; [congruence|]. apply kept_iff in HK. congruence.
  - intros H. injection H as H. exists (era_of m), (family_of (platform_of r)), (items_of s "ARCHS"), (arch_items m s), (map (expansion m (platform_of r)) (arch_items m s)), (expand_archs m r (arch_items m s)), (items_of s "VALID_ARCHS").
    split; [apply era_iff; reflexivity|]. split; [apply (family_iff s _ r); [apply P|exact R|reflexivity]|]. split; [apply lists_iff; [exact P|apply is_listed; reflexivity|reflexivity]|].
    split; [unfold arch_items; rewrite default_eq; destruct (items_of s "ARCHS"); reflexivity|]. split; [apply stands_all; reflexivity|]. split; [apply (once_iff _ [] []); [tauto|]; rewrite expand_archs_eq; reflexivity|].
    split; [apply lists_iff; [exact P|apply is_listed; reflexivity|reflexivity]|]. revert H. destruct (items_of s "VALID_ARCHS") as [|v valid]; intros H; [symmetry; exact H|]. apply kept_iff. symmetry. exact H.
Qed.
Lemma built_iff : forall m c a, proper (xcode c) -> (built_for m c a <-> one_arch m c = Some a).
Proof.
  intros m c a P. unfold one_arch. split.
  - intros [b E|b E A|l E A L].
    + rewrite E. reflexivity.
    + rewrite E. apply active_iff in A; [|exact P]. rewrite A. reflexivity.
    + rewrite E. apply active_iff in A; [|exact P]. rewrite A. destruct l as [|x [|y l]]; [reflexivity|cbn in L; lia|reflexivity].
  - destruct (arch c) as [b|] eqn:E; [intros H; injection H as <-; apply built_platform; exact E|]. destruct (active_archs m (xcode c)) as [l|] eqn:A; [|discriminate]. apply active_iff in A; [|exact P].
    destruct l as [|x [|y l]]; intros H; injection H as <-; [apply (built_other m c [] E A); discriminate|apply built_active; assumption|apply (built_other m c _ E A); discriminate].
Qed.
Lemma intel_eq : forall a, (String.eqb a "i386" || String.eqb a "x86_64") = true <-> a = "i386" \/ a = "x86_64".
Proof. intros a. rewrite orb_true_iff, !String.eqb_eq. tauto. Qed.
Lemma architecture_iff : forall m c w, proper (xcode c) -> (architecture m c w <-> arch_flags m c = Some w).
Proof.
  intros m c w P. assert (T : forall s, flat_map (flag_of s) intel_switches = (flag_if (test s "GCC_ENABLE_SSE3_EXTENSIONS" "YES" "NO") "-msse3" ++ flag_if (test s "GCC_ENABLE_SUPPLEMENTAL_SSE3_INSTRUCTIONS" "YES" "NO") "-mssse3" ++
         flag_if (test s "GCC_ENABLE_SSE41_EXTENSIONS" "YES" "NO") "-msse4.1" ++ flag_if (test s "GCC_ENABLE_SSE42_EXTENSIONS" "YES" "NO") "-msse4.2")%list) by (intros s; cbn [flat_map intel_switches flag_of]; rewrite app_nil_r; reflexivity).
  unfold arch_flags. rewrite <- T. split.
  - intros [C|a w' C B I S|a C B N1 N2]; rewrite C; [reflexivity| |].
    + apply built_iff in B; [|exact P]. rewrite B. cbn [bind]. apply intel_eq in I. rewrite I. apply switched_iff in S; [|apply P]. rewrite S. reflexivity.
    + apply built_iff in B; [|exact P]. rewrite B. cbn [bind]. destruct (String.eqb a "i386" || String.eqb a "x86_64") eqn:I; [apply intel_eq in I; tauto|]. reflexivity.
  - destruct (crossing m) eqn:C; [intros H; injection H as <-; constructor; exact C|]. destruct (one_arch m c) as [a|] eqn:B; [|discriminate]. cbn [bind]. apply built_iff in B; [|exact P].
    destruct (String.eqb a "i386" || String.eqb a "x86_64") eqn:I; intros H; injection H as <-.
    + apply architecture_intel; [exact C|exact B|apply intel_eq; exact I|]. apply switched_iff; [apply P|reflexivity].
    + assert (X : ~ (a = "i386" \/ a = "x86_64")) by (intros X; apply intel_eq in X; congruence). apply architecture_other; tauto.
Qed.
