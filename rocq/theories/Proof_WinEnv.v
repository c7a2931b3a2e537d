From Coq Require Import NArith Lia DecimalString.
From Verif Require Import Lib LibFacts Str StrFacts Model_Path Model_WinEnv Spec_WinEnv Proof_Path.
Local Open Scope string_scope.

(** ** Characters *)
Lemma clean_breaks : forall a, (32 <= N_of_ascii a)%N -> breaks a = false.
Proof. intros a H. unfold breaks. destruct (N.leb_spec (N_of_ascii a) 13); [lia|]. destruct (N.leb_spec (N_of_ascii a) 30); [lia|]. rewrite !andb_false_r. reflexivity. Qed.
Lemma clean_app : forall a b, clean (a ++ b) <-> clean a /\ clean b.
Proof. induction a as [|x a IH]; intros b; cbn [append clean]; [tauto|]. rewrite IH. tauto. Qed.
Lemma clean_nul : forall s, clean s -> has_char nul s = false.
Proof. induction s as [|a s IH]; intros H; [reflexivity|]. destruct H as [H1 H2]. cbn [has_char]. destruct (Ascii.eqb_spec a nul) as [->|]; [cbn in H1; lia|]. exact (IH H2). Qed.
Lemma capital_upper : forall s, each_char upper s = capitals s.
Proof. induction s as [|a s IH]; [reflexivity|]. cbn [each_char capitals]. rewrite IH. reflexivity. Qed.
Lemma lower_equals : forall a, Ascii.eqb (lower a) "=" = Ascii.eqb a "=".
Proof. intros [[] [] [] [] [] [] [] []]; reflexivity. Qed.
Lemma lower_upper : forall a, lower (upper a) = lower a.
Proof. intros [[] [] [] [] [] [] [] []]; reflexivity. Qed.
Lemma upper_lower : forall a, upper (lower a) = upper a.
Proof. intros [[] [] [] [] [] [] [] []]; reflexivity. Qed.
Lemma upper_equals : forall a, Ascii.eqb (upper a) "=" = Ascii.eqb a "=".
Proof. intros [[] [] [] [] [] [] [] []]; reflexivity. Qed.
Lemma upper_clean : forall a, (32 <= N_of_ascii a)%N -> (32 <= N_of_ascii (upper a))%N.
Proof. intros [[] [] [] [] [] [] [] []]; vm_compute; congruence. Qed.
Lemma each_app : forall f a b, each_char f (a ++ b) = each_char f a ++ each_char f b.
Proof. intros f a b. induction a as [|x a IH]; [reflexivity|]. cbn [append each_char]. rewrite IH. reflexivity. Qed.
Lemma lower_no_equals : forall s, has_char "=" (each_char lower s) = has_char "=" s.
Proof. induction s as [|a s IH]; [reflexivity|]. cbn [each_char has_char]. rewrite lower_equals, IH. reflexivity. Qed.
Lemma capitals_no_equals : forall s, has_char "=" (capitals s) = has_char "=" s.
Proof. intros s. rewrite <- capital_upper. induction s as [|a s IH]; [reflexivity|]. cbn [each_char has_char]. rewrite upper_equals, IH. reflexivity. Qed.
Lemma capitals_clean : forall s, clean s -> clean (capitals s).
Proof. intros s. rewrite <- capital_upper. induction s as [|a s IH]; intros H; [exact I|]. destruct H as [H1 H2]. split; [exact (upper_clean a H1)|exact (IH H2)]. Qed.
Lemma lower_capitals : forall s, each_char lower (capitals s) = each_char lower s.
Proof. intros s. rewrite <- capital_upper. induction s as [|a s IH]; [reflexivity|]. cbn [each_char]. rewrite lower_upper, IH. reflexivity. Qed.
Lemma capitals_lower : forall s, capitals (each_char lower s) = capitals s.
Proof. intros s. rewrite <- !capital_upper. induction s as [|a s IH]; [reflexivity|]. cbn [each_char]. rewrite upper_lower, IH. reflexivity. Qed.

Lemma str_length_app : forall a b, String.length (a ++ b) = String.length a + String.length b.
Proof. induction a as [|x a IH]; intros b; [reflexivity|]. cbn [append String.length]. rewrite IH. reflexivity. Qed.

(** ** Lines *)
Lemma splitlines_line : forall l rest, clean l -> splitlines (l ++ String "013" (String "010" rest)) = l :: splitlines rest.
Proof.
  induction l as [|a l IH]; intros rest H; [reflexivity|]. destruct H as [H1 H2]. cbn [append]. cbn [splitlines]. rewrite (clean_breaks a H1), (IH rest H2). reflexivity.
Qed.
Lemma splitlines_printed : forall vars, Forall variable vars -> splitlines (printed vars) = map (fun '(k, v) => k ++ "=" ++ v) vars.
Proof.
  unfold printed. induction vars as [|[k v] vars IH]; intros F; [reflexivity|]. inversion F as [|? ? (C1 & C2 & _) F']; subst. cbn [fst snd] in C1, C2. cbn [map].
  assert (E : String.concat "" ((k ++ "=" ++ v ++ String "013" (String "010" "")) :: map (fun '(k0, v0) => k0 ++ "=" ++ v0 ++ String "013" (String "010" "")) vars) = (k ++ "=" ++ v) ++ String "013" (String "010" (String.concat "" (map (fun '(k0, v0) => k0 ++ "=" ++ v0 ++ String "013" (String "010" "")) vars)))).
  { destruct vars as [|x vars]; [cbn [map String.concat]; rewrite !append_assoc; reflexivity|]. cbn [map]. cbn [String.concat]. rewrite ?append_assoc. cbn [append]. rewrite ?append_assoc. reflexivity. }
  rewrite E, splitlines_line; [rewrite (IH F'); reflexivity|]. apply clean_app. split; [exact C1|]. apply clean_app. split; [split; [vm_compute; congruence|exact I]|exact C2].
Qed.
Lemma split_line : forall k v, has_char "=" k = false -> split_equals (k ++ "=" ++ v) = Some (k, v).
Proof. induction k as [|a k IH]; intros v H; [reflexivity|]. cbn [has_char] in H. destruct (Ascii.eqb a "=") eqn:E; [discriminate H|]. change (String a k ++ "=" ++ v) with (String a (k ++ "=" ++ v)). cbn [split_equals]. rewrite E. rewrite (IH v H). reflexivity. Qed.

(** ** Which lines are saved *)
Lemma prefix_name : forall e k v, has_char "=" e = false -> has_char "=" k = false -> String.prefix (e ++ "=") (k ++ "=" ++ v) = String.eqb e k.
Proof.
  induction e as [|a e IH]; intros k v He Hk.
  - destruct k as [|b k]; [cbn; destruct v; reflexivity|]. cbn [has_char] in Hk. destruct (Ascii.eqb b "=") eqn:E; [discriminate Hk|]. cbn [append String.prefix]. destruct (ascii_dec "=" b) as [X|X]; [subst b; discriminate E|reflexivity].
  - cbn [has_char] in He. destruct (Ascii.eqb a "=") eqn:E; [discriminate He|]. destruct k as [|b k]; cbn [append String.prefix String.eqb].
    + destruct (ascii_dec a "=") as [X|X]; [subst a; discriminate E|reflexivity].
    + cbn [has_char] in Hk. destruct (Ascii.eqb b "=") eqn:E'; [discriminate Hk|]. destruct (ascii_dec a b) as [->|X]; [rewrite Ascii.eqb_refl; exact (IH k v He Hk)|]. apply Ascii.eqb_neq in X. rewrite X. reflexivity.
Qed.
Lemma prefix_within : forall p k v, has_char "=" p = false -> String.prefix p (k ++ "=" ++ v) = String.prefix p k.
Proof.
  induction p as [|a p IH]; intros k v H; [destruct k; [destruct v|]; reflexivity|]. cbn [has_char] in H. destruct (Ascii.eqb a "=") eqn:E; [discriminate H|]. destruct k as [|b k]; cbn [append String.prefix].
  - destruct (ascii_dec a "=") as [X|X]; [subst a; discriminate E|reflexivity].
  - destruct (ascii_dec a b) as [->|X]; [exact (IH k v H)|reflexivity].
Qed.
Lemma substring_all : forall s n, String.length s <= n -> String.substring 0 n s = s.
Proof. induction s as [|a s IH]; intros [|n] H; cbn in *; try reflexivity; [lia|]. rewrite IH by lia. reflexivity. Qed.
Lemma substring_after : forall p s n, String.length s <= n -> String.substring (String.length p) n (p ++ s) = s.
Proof. induction p as [|a p IH]; intros s n H; [exact (substring_all s n H)|]. cbn [append String.length String.substring]. exact (IH s n H). Qed.
Lemma prefix_split : forall p s, String.prefix p s = true -> exists r, s = p ++ r.
Proof.
  induction p as [|a p IH]; intros s H; [exists s; reflexivity|]. destruct s as [|b s]; [discriminate H|]. cbn [String.prefix] in H. destruct (ascii_dec a b) as [->|]; [|discriminate H]. destruct (IH s H) as [r ->]. exists r. reflexivity.
Qed.
Lemma matches_name : forall e k v, has_char "=" k = false -> In e envvars_to_save -> matches e (k ++ "=" ++ v) = if String.eqb e "goma_.*" then String.prefix "goma_" k else String.eqb e k.
Proof.
  intros e k v H I. unfold matches. destruct (String.eqb_spec e "goma_.*") as [->|D].
  - rewrite prefix_within by reflexivity. destruct (String.prefix "goma_" k) eqn:P; [|reflexivity]. cbn [andb]. destruct (prefix_split _ _ P) as [r ->]. rewrite append_assoc. change 5 with (String.length "goma_"). rewrite substring_after; [|rewrite !str_length_app; cbn; lia]. rewrite has_char_app. cbn [append has_char]. rewrite Ascii.eqb_refl. apply orb_true_r.
  - apply prefix_name; [|exact H]. repeat (destruct I as [<-|I]; [first [reflexivity|congruence]|]). destruct I.
Qed.
