(** Compilers' flags. *)
From Verif Require Import Lib LibFacts Str StrFacts.
From Verif Require Model_Build Model_Path.
From Verif Require Import Model_Writer Model_Xcode Spec_Flags Spec_Xcode.
From Verif Require Proof_Vs Proof_Suffix Proof_Parts.
Local Open Scope string_scope.

Lemma assoc_iff : forall s k (v : value), NoDup (map fst s) -> (assoc k s = Some v <-> In (k, v) s).
Proof. intros s k v N. split; [apply assoc_In|intros I; apply In_assoc; assumption]. Qed.
Lemma lacks_iff : forall s k, lacks s k <-> assoc k s = None.
Proof. intros s k. unfold lacks. symmetry. apply assoc_None. Qed.
Lemma is_text_iff : forall v t, is_text v t = true <-> v = Text t.
Proof. intros [x|l] t; cbn; [rewrite String.eqb_eq; split; congruence|split; discriminate]. Qed.
Lemma test_iff : forall s k v d, NoDup (map fst s) -> (test s k v d = true <-> says s k v d).
Proof.
  intros s k v d N. unfold test, get, says. rewrite is_text_iff, lacks_iff. destruct (assoc k s) as [x|] eqn:E.
  - apply assoc_iff in E; [|exact N]. split.
    + intros ->. left. exact E.
    + intros [I|(X & _)]; [|discriminate X]. apply assoc_iff in E; [|exact N]. apply assoc_iff in I; [|exact N]. congruence.
  - split; [intros X; right; split; congruence|]. intros [I|(_ & ->)]; [|reflexivity]. apply assoc_iff in I; [congruence|exact N].
Qed.
Definition flag_of (s : settings) (x : switch) : list string := let '(k, v, d, f) := x in flag_if (test s k v d) f.
Lemma switched_iff : forall s t l, NoDup (map fst s) -> (switched s t l <-> l = flat_map (flag_of s) t).
Proof.
  intros s t l N. split.
  - induction 1 as [|k v d f r l H _ IH|k v d f r l H _ IH]; [reflexivity| |]; cbn [flat_map flag_of].
    + apply test_iff in H; [|exact N]. rewrite H, IH. reflexivity.
    + destruct (test s k v d) eqn:E; [apply test_iff in E; [contradiction|exact N]|]. exact IH.
  - intros ->. induction t as [|(((k & v) & d) & f) t IH]; [constructor|]. cbn [flat_map flag_of]. destruct (test s k v d) eqn:E; cbn [flag_if app].
    + constructor; [|exact IH]. apply test_iff; assumption.
    + constructor; [|exact IH]. intros X. apply test_iff in X; [congruence|exact N].
Qed.
Lemma text_of : forall s k v, proper s -> ~ In k list_keys -> assoc k s = Some v -> exists x, v = Text x.
Proof. intros s k v (N & P) L E. apply assoc_In in E. destruct (P _ _ E) as [(X & _)|(_ & X)]; [contradiction|exact X]. Qed.
Lemma items_in : forall s k v, proper s -> In k list_keys -> assoc k s = Some v -> exists l, v = Items l.
Proof. intros s k v (N & P) L E. apply assoc_In in E. destruct (P _ _ E) as [(_ & X)|(X & _)]; [exact X|contradiction]. Qed.
Lemma worded_iff : forall m s k f w, proper s -> ~ In k list_keys -> (worded s k f w <-> w = appendf m s k f None).
Proof.
  intros m s k f w P L. unfold appendf. split.
  - intros [v I|X]; [|apply lacks_iff in X; rewrite X; reflexivity]. apply assoc_iff in I; [|apply P]. rewrite I. reflexivity.
  - intros ->. destruct (assoc k s) as [v|] eqn:E; [|constructor; apply lacks_iff; exact E]. destruct (text_of _ _ _ P L E) as (x & ->). cbn [shown]. constructor. apply assoc_iff; [apply P|exact E].
Qed.
Lemma lists_iff : forall s k l, proper s -> In k list_keys -> (lists s k l <-> l = items_of s k).
Proof.
  intros s k l P L. unfold lists, items_of. rewrite lacks_iff. split.
  - intros [I|(E & ->)]; [|rewrite E; reflexivity]. apply assoc_iff in I; [|apply P]. rewrite I. reflexivity.
  - intros ->. destruct (assoc k s) as [v|] eqn:E; [|right; split; reflexivity]. destruct (items_in _ _ _ P L E) as (x & ->). left. apply assoc_iff; [apply P|exact E].
Qed.
Lemma not_listed : forall k, existsb (String.eqb k) list_keys = false -> ~ In k list_keys.
Proof. intros k E I. assert (X : existsb (String.eqb k) list_keys = true) by (apply existsb_exists; exists k; split; [exact I|apply String.eqb_refl]). congruence. Qed.
Lemma is_listed : forall k, existsb (String.eqb k) list_keys = true -> In k list_keys.
Proof. intros k E. apply existsb_exists in E. destruct E as (x & I & Q). apply String.eqb_eq in Q. subst x. exact I. Qed.

Lemma slash_prefix : forall n, String.prefix "/" n = true <-> exists p, n = "/" ++ p.
Proof. intros n. apply Proof_Vs.prefix_iff. Qed.
Lemma sdk_iff : forall m s o, proper s -> (sdk_at m s o <-> sdk_path m s = Some o).
Proof.
  intros m s o P. unfold sdk_path, get. split.
  - intros [p I|n S N].
    + apply assoc_iff in I; [|apply P]. rewrite I. rewrite (proj2 (slash_prefix ("/" ++ p)) (ex_intro _ p eq_refl)). reflexivity.
    + assert (F : String.prefix "/" n = false) by (destruct (String.prefix "/" n) eqn:E; [apply slash_prefix in E; destruct E as (p & E); destruct (N p E)|reflexivity]).
      destruct S as [I|(L & ->)]; [apply assoc_iff in I; [|apply P]; rewrite I, F; reflexivity|]. apply lacks_iff in L. rewrite L. reflexivity.
  - destruct (assoc "SDKROOT" s) as [v|] eqn:E.
    + destruct (text_of _ _ _ P (not_listed "SDKROOT" eq_refl) E) as (x & ->). apply assoc_iff in E; [|apply P]. destruct (String.prefix "/" x) eqn:F.
      * apply slash_prefix in F. destruct F as (p & ->). intros X. injection X as <-. constructor. exact E.
      * intros X. injection X as <-. constructor; [left; exact E|]. intros p ->. rewrite (proj2 (slash_prefix ("/" ++ p)) (ex_intro _ p eq_refl)) in F. discriminate F.
    + intros X. cbn in X. injection X as <-. apply (sdk_named m s ""); [right; split; [apply lacks_iff; exact E|reflexivity]|]. intros p X. discriminate X.
Qed.
Lemma sdk_total : forall m s, proper s -> exists o, sdk_path m s = Some o.
Proof.
  intros m s P. unfold sdk_path, get. destruct (assoc "SDKROOT" s) as [v|] eqn:E; [|eexists; reflexivity].
  destruct (text_of _ _ _ P (not_listed "SDKROOT" eq_refl) E) as (x & ->). eexists; reflexivity.
Qed.
Lemma sysroot_iff : forall m s o w, proper s -> sdk_path m s = Some o -> (sysroot m s w <-> w = root_flags s o).
Proof.
  intros m s o w P O. unfold root_flags. split.
  - intros [p L A N|L|A].
    + apply sdk_iff in A; [|exact P]. rewrite A in O. injection O as <-. destruct (assoc "SDKROOT" s) eqn:E; [|destruct L; apply lacks_iff; exact E]. destruct p; [congruence|reflexivity].
    + apply lacks_iff in L. rewrite L. rewrite andb_false_r. reflexivity.
    + destruct A as [A|A]; apply sdk_iff in A; try exact P; rewrite A in O; injection O as <-; reflexivity.
  - intros ->. destruct o as [[|a p]|]; cbn [truthy andb].
    + apply sysroot_unknown. right. apply sdk_iff; assumption.
    + destruct (assoc "SDKROOT" s) eqn:E; [|apply sysroot_unset; apply lacks_iff; exact E]. constructor; [|apply sdk_iff; assumption|discriminate]. intros L. apply lacks_iff in L. congruence.
    + apply sysroot_unknown. left. apply sdk_iff; assumption.
Qed.
Lemma root_iff : forall m s o r, proper s -> sdk_path m s = Some o -> (root_at m s r <-> r = or_empty o).
Proof.
  intros m s o r P O. unfold root_at. rewrite !(sdk_iff m s _ P), O. split.
  - intros [E|(E & ->)]; injection E as ->; reflexivity.
  - intros ->. destruct o as [p|]; [left; reflexivity|right; split; reflexivity].
Qed.
Lemma in_sdk_iff : forall root d r, (exists p, has_char "$" p = false /\ (d = p \/ d = "$(SDKROOT)" ++ p)) -> (in_sdk root d r <-> r = replace "$(SDKROOT)" root d).
Proof.
  intros root d r (p & H & D). split.
  - intros [q Q|q Q].
    + change "$(SDKROOT)" with (String "$" "(SDKROOT)"). rewrite Proof_Suffix.replace_hit, Proof_Suffix.replace_none by exact Q. reflexivity.
    + rewrite Proof_Suffix.replace_none by exact Q. reflexivity.
  - intros ->. destruct D as [->| ->].
    + rewrite Proof_Suffix.replace_none by exact H. constructor. exact H.
    + change "$(SDKROOT)" with (String "$" "(SDKROOT)") at 1 2. rewrite Proof_Suffix.replace_hit, Proof_Suffix.replace_none by exact H. constructor. exact H.
Qed.
Lemma dirs_iff : forall root c ds, plain_dirs c -> (Forall2 (in_sdk root) (framework_dirs c) ds <-> ds = map (replace "$(SDKROOT)" root) (framework_dirs c)).
Proof.
  intros root c ds. unfold plain_dirs. revert ds. generalize (framework_dirs c). induction l as [|d l IH]; intros ds P.
  - split; [intros H; inversion H; reflexivity|intros ->; constructor].
  - assert (X := P d (or_introl eq_refl)). assert (Y : forall d, In d l -> exists p, has_char "$" p = false /\ (d = p \/ d = "$(SDKROOT)" ++ p)) by (intros d' I; apply P; right; exact I). split.
    + intros H. inversion H as [|d0 r l0 l' A B]; subst. apply in_sdk_iff in A; [|exact X]. apply IH in B; [|exact Y]. cbn [map]. congruence.
    + intros ->. cbn [map]. constructor; [apply in_sdk_iff; [exact X|reflexivity]|apply IH; [exact Y|reflexivity]].
Qed.

Lemma says_fun : forall s k v v' d, NoDup (map fst s) -> says s k v d -> says s k v' d -> v = v'.
Proof.
  intros s k v v' d N A B. apply test_iff in A; [|exact N]. apply test_iff in B; [|exact N]. unfold test in A, B. apply is_text_iff in A. apply is_text_iff in B. congruence.
Qed.
Lemma debugging_iff : forall s w, proper s -> (debugging s w <-> debug_flags s = Some w).
Proof.
  intros s w P. assert (N := proj1 P). unfold debug_flags.
  assert (G : forall f, is_text (get s "DEBUG_INFORMATION_FORMAT" (Text "dwarf")) f = test s "DEBUG_INFORMATION_FORMAT" f "dwarf") by reflexivity. rewrite !G. clear G. split.
  - intros [f A B C|A].
    + apply test_iff in A; [|exact N]. rewrite A. apply test_iff in B; [|exact N]. destruct C as [->| ->]; rewrite B; [reflexivity|].
      destruct (test s "DEBUG_INFORMATION_FORMAT" "dwarf" "dwarf"); [reflexivity|]. destruct (test s "DEBUG_INFORMATION_FORMAT" "stabs" "dwarf") eqn:E; [|reflexivity].
      apply test_iff in E; [|exact N]. apply test_iff in B; [|exact N]. assert (X := says_fun _ _ _ _ _ N E B). discriminate X.
    + destruct (test s "GCC_GENERATE_DEBUGGING_SYMBOLS" "YES" "YES") eqn:E; [|reflexivity]. apply test_iff in E; [contradiction|exact N].
  - destruct (test s "GCC_GENERATE_DEBUGGING_SYMBOLS" "YES" "YES") eqn:E.
    + apply test_iff in E; [|exact N]. destruct (test s "DEBUG_INFORMATION_FORMAT" "dwarf" "dwarf") eqn:F.
      * apply test_iff in F; [|exact N]. intros X. injection X as <-. apply (debugging_on s "dwarf"); auto.
      * destruct (test s "DEBUG_INFORMATION_FORMAT" "stabs" "dwarf"); [discriminate|]. destruct (test s "DEBUG_INFORMATION_FORMAT" "dwarf-with-dsym" "dwarf") eqn:H; [|discriminate].
        apply test_iff in H; [|exact N]. intros X. injection X as <-. apply (debugging_on s "dwarf-with-dsym"); auto.
    + intros X. injection X as <-. apply debugging_off. intros Y. apply test_iff in Y; [congruence|exact N].
Qed.
