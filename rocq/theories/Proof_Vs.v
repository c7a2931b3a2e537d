(** Proofs about the search for Visual Studio: numbers, packages, one
    installation. *)
From Verif Require Import Lib LibFacts Str StrFacts Js Model_Value Model_Vs Spec_Vs.
From Coq Require Import ZArith.
Local Open Scope string_scope.

(** ** digits *)
Fixpoint all_digits (s : string) : bool := match s with "" => true | String a s' => digit a && all_digits s' end.
Definition dval (a : ascii) : Z := Z.of_nat (nat_of_ascii a - 48).
Lemma digit_value_iff : forall a n, digit_value a n <-> digit a = true /\ n = dval a.
Proof.
  intros a n. unfold digit_value, digit, dval. rewrite andb_true_iff, !Nat.leb_le. split.
  - intros [H E]. lia.
  - intros [H E]. lia.
Qed.
Lemma string_snoc : forall s, s = "" \/ exists s' a, s = s' ++ String a "".
Proof. induction s as [|a s IH]; [left; reflexivity|]. right. destruct IH as [->|(s' & b & ->)]; [exists "", a; reflexivity|exists (String a s'), b; reflexivity]. Qed.
Lemma length_append : forall a b, String.length (a ++ b) = String.length a + String.length b.
Proof. induction a as [|x a IH]; intros b; [reflexivity|]. cbn. rewrite IH. reflexivity. Qed.
Lemma all_digits_app : forall a b, all_digits (a ++ b) = all_digits a && all_digits b.
Proof. induction a as [|x a IH]; intros b; [reflexivity|]. cbn. rewrite IH, andb_assoc. reflexivity. Qed.
Lemma decimal_snoc : forall s acc a, decimal acc (s ++ String a "") = (10 * decimal acc s + dval a)%Z.
Proof. induction s as [|x s IH]; intros acc a; [reflexivity|]. cbn [append decimal]. apply IH. Qed.
Lemma denotes_iff : forall s n, denotes s n <-> s <> "" /\ all_digits s = true /\ n = decimal 0 s.
Proof.
  intros s n. split.
  - induction 1 as [a n H|s a m n H IH Hd].
    + apply digit_value_iff in H. destruct H as [H ->]. split; [discriminate|]. cbn [all_digits]. rewrite H. split; reflexivity.
    + destruct IH as (N & D & ->). apply digit_value_iff in Hd. destruct Hd as [Hd ->]. split; [destruct s; discriminate|]. rewrite all_digits_app, D. cbn [all_digits]. rewrite Hd. split; [reflexivity|]. rewrite decimal_snoc. reflexivity.
  - intros (N & D & ->). remember (String.length s) as k eqn:K. revert s N D K. induction k as [k IH] using lt_wf_ind. intros s N D K.
    destruct (string_snoc s) as [->|(s' & a & ->)]; [congruence|]. rewrite all_digits_app in D. cbn [all_digits] in D. rewrite andb_true_r in D. apply andb_prop in D. destruct D as [D1 D2].
    rewrite decimal_snoc. destruct s' as [|b s'].
    + cbn [append decimal]. replace (10 * 0 + dval a)%Z with (dval a) by lia. constructor. apply digit_value_iff. auto.
    + constructor; [|apply digit_value_iff; auto]. eapply IH; [|discriminate|exact D1|reflexivity]. rewrite K, length_append. cbn. lia.
Qed.
Lemma starts_iff : forall s, starts_with_digit s <-> exists a s', s = String a s' /\ digit a = true.
Proof.
  intros s. unfold starts_with_digit. split.
  - intros (a & s' & n & E & H). apply digit_value_iff in H. exists a, s'. tauto.
  - intros (a & s' & E & H). exists a, s', (dval a). rewrite digit_value_iff. auto.
Qed.
Lemma span_digits_spec : forall s d r, span_digits s = (d, r) <-> s = d ++ r /\ all_digits d = true /\ ~ starts_with_digit r.
Proof.
  intros s d r. setoid_rewrite starts_iff. revert d r. induction s as [|a s IH]; intros d r; cbn [span_digits].
  - split; [intros [= <- <-]; split; [reflexivity|split; [reflexivity|intros (x & y & E & _); discriminate]]|intros (E & _ & _)]. destruct d, r; try discriminate. reflexivity.
  - destruct (digit a) eqn:Ea.
    + destruct (span_digits s) as [d0 r0] eqn:Es. split.
      * intros [= <- <-]. destruct (proj1 (IH d0 r0) eq_refl) as (E & D & NS). split; [cbn; rewrite E; reflexivity|]. split; [cbn; rewrite Ea; exact D|exact NS].
      * intros (E & D & NS). destruct d as [|b d].
        -- cbn in E. exfalso. apply NS. exists a, s. auto.
        -- cbn in E, D. injection E as <- E. apply andb_prop in D. pose proof (proj2 (IH d r) (conj E (conj (proj2 D) NS))) as X. injection X as <- <-. reflexivity.
    + split.
      * intros [= <- <-]. split; [reflexivity|]. split; [reflexivity|]. intros (x & y & [= -> ->] & X). congruence.
      * intros (E & D & NS). destruct d as [|b d]; [cbn in E; rewrite E; reflexivity|]. cbn in E, D. injection E as <- E. rewrite Ea in D. discriminate.
Qed.

Lemma year_spec : forall v y, version_year v = Some y <-> is_year v y.
Proof.
  intros v y. unfold version_year, is_year, year_of_major. destruct (span_digits v) as [d r] eqn:E. pose proof E as E0. apply span_digits_spec in E. destruct E as (EV & D & NS). split.
  - destruct d as [|a d]; [discriminate|]. destruct r as [|dot rest]; [discriminate|]. destruct (Ascii.eqb_spec dot "."); [subst dot|discriminate]. destruct (span_digits rest) as [d2 r2] eqn:E2. cbn [fst]. apply span_digits_spec in E2. destruct E2 as (ER & D2 & _).
    destruct d2 as [|b d2]; [discriminate|]. intros H. exists (String a d), rest, (decimal 0 (String a d)). split; [exact EV|]. split; [apply denotes_iff; split; [discriminate|split; [exact D|reflexivity]]|].
    split; [apply starts_iff; exists b, (d2 ++ r2); split; [exact ER|]; cbn in D2; apply andb_prop in D2; apply D2|].
    destruct (Z.eqb_spec (decimal 0 (String a d)) 15); [injection H as <-; auto|]. destruct (Z.eqb_spec (decimal 0 (String a d)) 16); [injection H as <-; auto|]. destruct (Z.eqb_spec (decimal 0 (String a d)) 17); [injection H as <-; auto|discriminate].
  - intros (major & rest & m & EV2 & DM & SR & Y). apply denotes_iff in DM. destruct DM as (NM & AM & ->).
    assert (E3 : span_digits v = (major, "." ++ rest)) by (apply span_digits_spec; split; [exact EV2|]; split; [exact AM|]; intros X; apply starts_iff in X; destruct X as (x & z & [= <- _] & X); discriminate X).
    rewrite E3 in E0. injection E0 as <- <-. destruct major as [|a d]; [congruence|]. cbn [append]. rewrite Ascii.eqb_refl. apply starts_iff in SR. destruct SR as (b & s' & -> & Db).
    cbn [span_digits]. rewrite Db. destruct (span_digits s') as [d3 r3]. cbn [fst]. destruct Y as [[Y ->]|[[Y ->]|[Y ->]]]; rewrite Y; reflexivity.
Qed.

(** ** packages *)
Lemma split_dots_no : forall s, has_char "." s = false -> split_dots s = [s].
Proof. induction s as [|a s IH]; intros H; [reflexivity|]. cbn [has_char] in H. cbn [split_dots]. destruct (Ascii.eqb a "."); [discriminate|]. rewrite (IH H). reflexivity. Qed.
Lemma split_dots_sep : forall a b, has_char "." a = false -> split_dots (a ++ "." ++ b) = a :: split_dots b.
Proof. induction a as [|x a IH]; intros b H; [reflexivity|]. cbn [has_char] in H. cbn [append split_dots]. destruct (Ascii.eqb x "."); [discriminate|]. cbn [append] in IH. rewrite (IH b H). reflexivity. Qed.
Lemma split_first : forall t, exists p, has_char "." p = false /\ ((t = p /\ split_dots t = [p]) \/ (exists u, t = p ++ "." ++ u /\ split_dots t = p :: split_dots u)).
Proof.
  induction t as [|a t (p & HP & IH)]; [exists ""; split; [reflexivity|left; auto]|]. destruct (Ascii.eqb a ".") eqn:Ea.
  - apply Ascii.eqb_eq in Ea. subst a. exists "". split; [reflexivity|]. right. exists t. auto.
  - exists (String a p). split; [cbn; rewrite Ea; exact HP|]. destruct IH as [[-> E]|(u & -> & E)].
    + left. split; [reflexivity|]. cbn [split_dots]. rewrite Ea, E. reflexivity.
    + right. exists u. split; [reflexivity|]. cbn [append split_dots] in *. rewrite Ea, E. reflexivity.
Qed.

Lemma trim_start_spec : forall s, exists w, s = w ++ trim_start s /\ (forall a, has_char a w = true -> js_space a = true).
Proof.
  induction s as [|a s (w & E & IH)]; [exists ""; split; [reflexivity|intros a X; discriminate]|]. cbn [trim_start]. destruct (js_space a) eqn:Ea.
  - exists (String a w). split; [cbn; rewrite <- E; reflexivity|]. intros b. cbn. destruct (Ascii.eqb_spec a b) as [->|]; [auto|apply IH].
  - exists "". split; [reflexivity|intros b X; discriminate].
Qed.
Lemma trim_start_app : forall w t, (forall a, has_char a w = true -> js_space a = true) -> trim_start (w ++ t) = trim_start t.
Proof.
  induction w as [|a w IH]; intros t H; [reflexivity|]. cbn [append trim_start]. rewrite (H a) by (cbn; rewrite Ascii.eqb_refl; reflexivity). apply IH. intros b X. apply H. cbn. rewrite X. destruct (Ascii.eqb a b); reflexivity.
Qed.
Lemma digit_not_space : forall a, digit a = true -> js_space a = false.
Proof. intros a H. unfold digit, js_space in *. apply andb_prop in H. rewrite !Nat.leb_le in H. destruct H. apply orb_false_intro; [apply andb_false_intro2, Nat.leb_gt; lia|apply Nat.eqb_neq; lia]. Qed.
Lemma digit_not_sign : forall a, digit a = true -> Ascii.eqb a "-" = false /\ Ascii.eqb a "+" = false.
Proof. intros a H. split; [destruct (Ascii.eqb_spec a "-") as [->|]|destruct (Ascii.eqb_spec a "+") as [->|]]; first [discriminate H|reflexivity]. Qed.
Lemma decimal_nonneg : forall s acc, (0 <= acc)%Z -> (0 <= decimal acc s)%Z.
Proof. induction s as [|a s IH]; intros acc H; [exact H|]. cbn [decimal]. apply IH. lia. Qed.

Lemma parse_int_spec : forall s n, (0 < n)%Z -> (parse_int s = Some n <-> whole s n).
Proof.
  intros s n Hn. unfold parse_int, whole. split.
  - destruct (trim_start_spec s) as (w & E & HW). remember (trim_start s) as t eqn:ET. clear ET. intros H.
    assert (G : forall sign u, t = sign ++ u -> sign = "" \/ sign = "+" -> match fst (span_digits u) with "" => None | d => Some (decimal 0 d) end = Some n ->
       exists white sign ds junk, s = white ++ sign ++ ds ++ junk /\ (forall a, has_char a white = true -> js_space a = true) /\ (sign = "" \/ sign = "+") /\ denotes ds n /\ ~ starts_with_digit junk).
    { intros sign u EU HS H1. destruct (span_digits u) as [d r] eqn:ES. cbn [fst] in H1. apply span_digits_spec in ES. destruct ES as (EU2 & D & NS). destruct d as [|a d]; [discriminate|]. exists w, sign, (String a d), r.
      split; [rewrite E, EU, EU2; reflexivity|]. split; [exact HW|]. split; [exact HS|]. split; [apply denotes_iff; split; [discriminate|]; split; [exact D|congruence]|exact NS]. }
    destruct t as [|a t']; [discriminate|]. destruct (Ascii.eqb_spec a "-") as [->|].
    + destruct (fst (span_digits t')) as [|b e]; [discriminate|]. assert (X : (- decimal 0 (String b e))%Z = n) by congruence. clear H. pose proof (decimal_nonneg (String b e) 0 (Z.le_refl 0)). lia.
    + destruct (Ascii.eqb_spec a "+") as [->|]; [apply (G "+" t'); auto|apply (G "" (String a t')); auto].
  - intros (white & sign & ds & junk & -> & HW & HS & DN & NJ). rewrite (trim_start_app _ _ HW). apply denotes_iff in DN. destruct DN as (ND & AD & ->). destruct ds as [|a d]; [congruence|].
    assert (Da : digit a = true) by (cbn in AD; apply andb_prop in AD; apply AD).
    assert (SP : span_digits (String a d ++ junk) = (String a d, junk)) by (apply span_digits_spec; auto).
    destruct HS as [->| ->].
    + cbn [append trim_start]. rewrite (digit_not_space a Da). destruct (digit_not_sign a Da) as [-> ->]. change (String a (d ++ junk)) with (String a d ++ junk). rewrite SP. reflexivity.
    + change (trim_start ("+" ++ String a d ++ junk)) with (String "+" (String a d ++ junk)). cbv iota beta. change (Ascii.eqb "+" "-") with false. change (Ascii.eqb "+" "+") with true. cbv iota beta. rewrite SP. reflexivity.
Qed.

Lemma prefix_iff : forall p s, String.prefix p s = true <-> exists t, s = p ++ t.
Proof.
  induction p as [|a p IH]; intros s.
  - split; [exists s; reflexivity|]. intros _. destruct s; reflexivity.
  - destruct s as [|b s]; cbn; [split; [discriminate|intros (t & [= ])]|]. destruct (ascii_dec a b) as [->|N]; [rewrite IH; split; intros (t & E); exists t; [rewrite E; reflexivity|congruence]|split; [discriminate|intros (t & [= ? _]); congruence]].
Qed.

Definition sdk_tail (t : string) : option Z :=
  match split_dots t with
  | part4 :: part5 :: _ => if String.eqb part5 "Desktop" then parse_int part4 else None
  | [part4] => parse_int part4
  | [] => None
  end.
Lemma sdk_number_tail : forall w t, w = "10" \/ w = "11" -> sdk_number ("Microsoft.VisualStudio.Component.Windows" ++ w ++ "SDK." ++ t) = sdk_tail t.
Proof.
  intros w t [->| ->]; unfold sdk_number, sdk_tail.
  - rewrite (proj2 (prefix_iff "Microsoft.VisualStudio.Component.Windows10SDK." _)) by (exists t; reflexivity). cbn [orb].
    change (split_dots ("Microsoft.VisualStudio.Component.Windows" ++ "10" ++ "SDK." ++ t)) with ("Microsoft" :: "VisualStudio" :: "Component" :: "Windows10SDK" :: split_dots t). destruct (split_dots t) as [|a [|b l]]; reflexivity.
  - rewrite (proj2 (prefix_iff "Microsoft.VisualStudio.Component.Windows11SDK." _)) by (exists t; reflexivity). rewrite orb_true_r.
    change (split_dots ("Microsoft.VisualStudio.Component.Windows" ++ "11" ++ "SDK." ++ t)) with ("Microsoft" :: "VisualStudio" :: "Component" :: "Windows11SDK" :: split_dots t). destruct (split_dots t) as [|a [|b l]]; reflexivity.
Qed.
Lemma sdk_tail_spec : forall t n, (0 < n)%Z -> (sdk_tail t = Some n <-> exists num rest, t = num ++ rest /\ has_char "." num = false /\ (rest = "" \/ rest = ".Desktop" \/ exists more, rest = ".Desktop." ++ more) /\ whole num n).
Proof.
  intros t n Hn. unfold sdk_tail. split.
  - destruct (split_first t) as (p & HP & [[-> E]|(u & -> & E)]); rewrite E.
    + intros H. apply (parse_int_spec _ _ Hn) in H. exists p, "". rewrite append_nil_r. auto.
    + destruct (split_first u) as (q & HQ & [[-> E2]|(v & -> & E2)]); rewrite E2; (destruct (String.eqb_spec q "Desktop") as [->|]; [|discriminate]); intros H; apply (parse_int_spec _ _ Hn) in H.
      * exists p, ".Desktop". split; [reflexivity|]. auto.
      * exists p, (".Desktop." ++ v). split; [reflexivity|]. split; [exact HP|]. split; [right; right; exists v; reflexivity|exact H].
  - intros (num & rest & -> & HN & HR & HW). apply (parse_int_spec _ _ Hn) in HW. destruct HR as [->|[->|(more & ->)]].
    + rewrite append_nil_r, (split_dots_no _ HN). exact HW.
    + change ".Desktop" with ("." ++ "Desktop"). rewrite (split_dots_sep _ _ HN). exact HW.
    + change (".Desktop." ++ more) with ("." ++ ("Desktop" ++ "." ++ more)). rewrite (split_dots_sep _ _ HN), (split_dots_sep "Desktop" more eq_refl). exact HW.
Qed.
Lemma sdk_number_spec : forall pkg n, (sdk_number pkg = Some n /\ (0 < n)%Z) <-> desktop_sdk pkg n.
Proof.
  intros pkg n. unfold desktop_sdk. split.
  - intros [H Hn]. assert (P : exists w t, (w = "10" \/ w = "11") /\ pkg = "Microsoft.VisualStudio.Component.Windows" ++ w ++ "SDK." ++ t).
    { unfold sdk_number in H. destruct (String.prefix "Microsoft.VisualStudio.Component.Windows10SDK." pkg) eqn:E1; [apply prefix_iff in E1; destruct E1 as (t & ->); exists "10", t; auto|].
      destruct (String.prefix "Microsoft.VisualStudio.Component.Windows11SDK." pkg) eqn:E2; [apply prefix_iff in E2; destruct E2 as (t & ->); exists "11", t; auto|]. discriminate. }
    destruct P as (w & t & W & ->). rewrite (sdk_number_tail _ _ W) in H. apply (sdk_tail_spec _ _ Hn) in H. destruct H as (num & rest & -> & H1 & H2 & H3). exists w, num, rest. auto 10.
  - intros (w & num & rest & W & -> & H1 & H2 & H3 & Hn). split; [|exact Hn]. rewrite (sdk_number_tail _ _ W). apply (sdk_tail_spec _ _ Hn). exists num, rest. auto.
Qed.

Definition best_number (pkgs : list string) (acc : Z) : Z := fold_left (fun m pkg => match sdk_number pkg with Some n => Z.max m n | None => m end) pkgs acc.
Lemma best_number_ge : forall pkgs acc, (acc <= best_number pkgs acc)%Z.
Proof. induction pkgs as [|p pkgs IH]; intros acc; [apply Z.le_refl|]. cbn [best_number fold_left]. fold (best_number pkgs (match sdk_number p with Some n => Z.max acc n | None => acc end)). pose proof (IH (match sdk_number p with Some n => Z.max acc n | None => acc end)). destruct (sdk_number p); lia. Qed.
Lemma best_number_max : forall pkgs acc p n, In p pkgs -> sdk_number p = Some n -> (n <= best_number pkgs acc)%Z.
Proof.
  induction pkgs as [|q pkgs IH]; intros acc p n []; intros HN; cbn [best_number fold_left]; fold (best_number pkgs (match sdk_number q with Some n => Z.max acc n | None => acc end)).
  - subst q. rewrite HN. pose proof (best_number_ge pkgs (Z.max acc n)). lia.
  - eapply IH; eauto.
Qed.
Lemma best_number_from : forall pkgs acc, best_number pkgs acc = acc \/ exists p, In p pkgs /\ sdk_number p = Some (best_number pkgs acc).
Proof.
  induction pkgs as [|q pkgs IH]; intros acc; [left; reflexivity|]. cbn [best_number fold_left]. fold (best_number pkgs (match sdk_number q with Some n => Z.max acc n | None => acc end)).
  destruct (IH (match sdk_number q with Some n => Z.max acc n | None => acc end)) as [E|(p & HP & E)]; [|right; exists p; split; [right; exact HP|exact E]]. rewrite E. destruct (sdk_number q) as [n|] eqn:EQ; [|left; reflexivity].
  destruct (Z.max_spec acc n) as [[_ ->]|[_ ->]]; [right; exists q; split; [left; reflexivity|exact EQ]|left; reflexivity].
Qed.
Lemma get_sdk_spec : forall info s, get_sdk info = Some s <-> best_sdk (r_packages info) s.
Proof.
  intros info s. unfold get_sdk. fold (best_number (r_packages info) 0). set (pkgs := r_packages info). pose proof (best_number_ge pkgs 0) as G. destruct (Z.eqb_spec (best_number pkgs 0) 0) as [E|N]; cbn [negb].
  - assert (NO : forall pkg m, In pkg pkgs -> ~ desktop_sdk pkg m). { intros pkg m I D. apply sdk_number_spec in D. destruct D as [D P]. pose proof (best_number_max pkgs 0 pkg m I D). lia. }
    destruct (mem "Microsoft.VisualStudio.Component.Windows81SDK" pkgs) eqn:M.
    + apply mem_In in M. split; [intros [= <-]; split; assumption|]. destruct s as [n|]; [|reflexivity]. intros ((pkg & I & D) & _). destruct (NO pkg n I D).
    + apply mem_false in M. split; [discriminate|]. destruct s as [n|]; [intros ((pkg & I & D) & _); destruct (NO pkg n I D)|intros [_ X]; contradiction].
  - destruct (best_number_from pkgs 0) as [E|(p & HP & E)]; [contradiction|]. assert (D : desktop_sdk p (best_number pkgs 0)) by (apply sdk_number_spec; split; [exact E|lia]).
    split.
    + intros [= <-]. split; [exists p; auto|]. intros pkg m I DM. apply sdk_number_spec in DM. destruct DM as [DM _]. exact (best_number_max pkgs 0 pkg m I DM).
    + destruct s as [n|].
      * intros ((q & IQ & DQ) & MX). f_equal. f_equal. apply Z.le_antisymm; [apply (MX p _ HP D)|]. apply sdk_number_spec in DQ. destruct DQ as [DQ _]. exact (best_number_max pkgs 0 q n IQ DQ).
      * intros [NO _]. destruct (NO _ _ HP D).
Qed.

(** ** one installation *)
Section One.
Variable pl : platform.

Lemma msbuild_logic : forall (P7 P9 PK : Prop) (b7 b9 bk ba be bu : bool) (m m17 usual arm : string),
  reflect P7 b7 -> reflect P9 b9 -> reflect PK bk -> ~ (P7 /\ P9) ->
  ((if bk then if b7 then Some m17 else if b9 then if ba && be then Some arm else Some usual
      else (if ba && be then Some arm else if bu then Some usual else None)
    else (if ba && be then Some arm else if bu then Some usual else None)) = Some m <->
   (P7 /\ PK /\ m = m17) \/
   (~ (P7 /\ PK) /\
    ((ba = true /\ be = true /\ m = arm) \/
     (~ (ba = true /\ be = true) /\ (bu = true \/ (P9 /\ PK)) /\ m = usual)))).
Proof.
  intros P7 P9 PK b7 b9 bk ba be bu m m17 usual arm H7 H9 HK N.
  destruct H7 as [H7|H7], H9 as [H9|H9], HK as [HK|HK]; try tauto; destruct ba, be, bu; cbn [andb];
  (split; [first [discriminate | intros [= <-]; intuition congruence] | intros H; first [f_equal; intuition congruence | exfalso; intuition congruence]]).
Qed.
Lemma mem_reflect : forall x l, reflect (In x l) (mem x l).
Proof. intros x l. destruct (mem x l) eqn:E; constructor; [apply mem_In|apply mem_false]; exact E. Qed.
Lemma msbuild_spec : forall info p y m, get_msbuild pl info p (Some y) = Some m <-> is_msbuild pl (r_packages info) p y m.
Proof.
  intros info p y m. apply msbuild_logic; [apply Z.eqb_spec|apply Z.eqb_spec|apply mem_reflect|lia].
Qed.
Lemma toolset_logic : forall (P7 P9 P2 PA PX PE : Prop) (b7 b9 b2 ba bA bX bE : bool) (t t1 t2 t3 : string),
  reflect P7 b7 -> reflect P9 b9 -> reflect P2 b2 -> reflect PA bA -> reflect PX bX -> reflect PE bE -> (P7 -> P9 -> False) -> (P7 -> P2 -> False) -> (P9 -> P2 -> False) ->
  ((if (ba && bA) || bX || bE then if b7 then Some t1 else if b9 then Some t2 else if b2 then Some t3 else None else None) = Some t <->
   ((ba = true /\ PA) \/ PX \/ PE) /\ ((P7 /\ t = t1) \/ (P9 /\ t = t2) \/ (P2 /\ t = t3))).
Proof.
  intros P7 P9 P2 PA PX PE b7 b9 b2 ba bA bX bE t t1 t2 t3 H7 H9 H2 HA HX HE N1 N2 N3.
  assert (G : (ba && bA) || bX || bE = true <-> (ba = true /\ PA) \/ PX \/ PE).
  { destruct HA, HX, HE, ba; cbn; intuition discriminate. }
  destruct ((ba && bA) || bX || bE); [|split; [discriminate|intros [X _]; apply G in X; discriminate]]. split.
  - intros H. split; [apply G; reflexivity|]. destruct H7; [injection H as <-; auto|]. destruct H9; [injection H as <-; auto|]. destruct H2; [injection H as <-; auto|discriminate].
  - intros [_ H]. destruct H7; [f_equal; intuition congruence|]. destruct H9; [f_equal; intuition congruence|]. destruct H2; [f_equal; intuition congruence|tauto].
Qed.
Lemma toolset_spec : forall info y t, get_toolset pl info (Some y) = Some t <-> has_tools pl (r_packages info) /\ toolset_of y t.
Proof.
  intros info y t. apply toolset_logic; try apply mem_reflect; try apply Z.eqb_spec; lia.
Qed.

Lemma four_digits_iff : forall s, four_digits s = true <-> String.length s = 4 /\ all_digits s = true.
Proof.
  intros s. destruct s as [|a [|b [|c [|d [|e s]]]]]; cbn; try (split; [discriminate|intros [H _]; discriminate]).
  rewrite andb_true_r, !andb_assoc. split; [auto|intros [_ H]; exact H].
Qed.
Lemma check_config_spec : forall mv vc y p, check_config pl (wishes_of pl mv vc) y p = true <-> as_wished pl mv vc y p.
Proof.
  intros mv vc y p. unfold check_config, wishes_of, as_wished. cbn [w_year w_path w_prompt]. rewrite !andb_true_iff, and_assoc.
  assert (D4 : four_digits mv = true <-> String.length mv = 4 /\ exists n, denotes mv n).
  { rewrite four_digits_iff. split; intros [L H]; (split; [exact L|]); [exists (decimal 0 mv); apply denotes_iff; split; [intros ->; discriminate|auto]|destruct H as (n & H); apply denotes_iff in H; tauto]. }
  assert (A : (match (if four_digits mv then Some (decimal 0 mv) else None) with Some y0 => (y0 =? 0)%Z || (y0 =? y)%Z | None => true end = true) <-> (forall n, String.length mv = 4 -> denotes mv n -> n <> 0%Z -> n = y)).
  { destruct (four_digits mv) eqn:F.
    - rewrite orb_true_iff, !Z.eqb_eq. split.
      + intros H n L DN NZ. apply denotes_iff in DN. destruct DN as (_ & _ & ->). destruct H; [contradiction|assumption].
      + intros H. destruct (Z.eq_dec (decimal 0 mv) 0) as [E|NE]; [left; exact E|right]. apply H; [apply D4; reflexivity| |exact NE]. apply denotes_iff. apply four_digits_iff in F. destruct F as [L A]. split; [intros ->; discriminate|auto].
    - split; [|reflexivity]. intros _ n L DN _. assert (X : false = true) by (apply D4; split; [exact L|exists n; exact DN]). discriminate. }
  assert (B : (match (if four_digits mv || String.eqb mv "" then None else Some (resolve pl mv)) with Some q => same_path pl q p | None => true end = true) <-> (mv <> "" -> ~ (String.length mv = 4 /\ exists n, denotes mv n) -> same_path pl (resolve pl mv) p = true)).
  { rewrite <- D4. destruct (four_digits mv); cbn [orb]; [split; [intros _ _ X; destruct (X eq_refl)|reflexivity]|]. destruct (String.eqb_spec mv "") as [->|NE]; [split; [intros _ X; congruence|reflexivity]|]. split; [auto|]. intros H. apply H; [exact NE|discriminate]. }
  assert (C : (match (if String.eqb vc "" then None else Some (parent pl vc)) with Some q => same_path pl q p | None => true end = true) <-> (vc <> "" -> same_path pl (parent pl vc) p = true)).
  { destruct (String.eqb_spec vc "") as [->|NE]; [split; [congruence|reflexivity]|]. split; auto. }
  rewrite A, B, C. reflexivity.
Qed.

(** what the loop makes of one entry *)
Definition pick (w : wishes) (e : entry) : option found :=
  match e_msbuild e, e_toolset e, e_sdk e with
  | Some m, Some t, Some s =>
    if check_config pl w (year_of e) (e_path e)
    then Some {| f_year := year_of e; f_version := e_version e; f_path := e_path e; f_msbuild := m; f_toolset := t; f_sdk := Some s |} else None
  | _, _, _ => None
  end.
Lemma pick_year : forall w e r, pick w e = Some r -> f_year r = year_of e.
Proof. intros w e r. unfold pick. destruct (e_msbuild e), (e_toolset e), (e_sdk e); try discriminate. destruct (check_config pl w (year_of e) (e_path e)); [intros [= <-]; reflexivity|discriminate]. Qed.
Lemma pick_spec : forall mv vc info r, pick (wishes_of pl mv vc) (process_one pl info) = Some r <-> usable pl mv vc info r.
Proof.
  intros mv vc info r. unfold pick, process_one, usable, year_of. cbn [e_year e_version e_path e_msbuild e_toolset e_sdk]. set (p := resolve pl (r_path info)).
  destruct (version_year (r_version info)) as [y|] eqn:EY.
  - pose proof EY as HY. apply year_spec in HY. split.
    + destruct (get_msbuild pl info p (Some y)) as [m|] eqn:EM; [|discriminate]. destruct (get_toolset pl info (Some y)) as [t|] eqn:ET; [|discriminate]. destruct (get_sdk info) as [s|] eqn:ES; [|discriminate].
      destruct (check_config pl (wishes_of pl mv vc) y p) eqn:EC; [|discriminate]. intros [= <-]. cbn [f_year f_version f_path f_msbuild f_toolset f_sdk].
      apply msbuild_spec in EM. apply toolset_spec in ET. apply get_sdk_spec in ES. apply check_config_spec in EC. destruct ET as [ET1 ET2]. split; [exact HY|]. split; [reflexivity|]. split; [reflexivity|]. split; [exact EM|]. split; [exact ET1|]. split; [exact ET2|]. split; [exists s; auto|exact EC].
    + destruct r as [y' v' p' m' t' s']. cbn [f_year f_version f_path f_msbuild f_toolset f_sdk]. intros (Y & -> & -> & M & T1 & T2 & (s & -> & S) & W).
      assert (y' = y) by (apply year_spec in Y; congruence). subst y'. apply msbuild_spec in M. rewrite M. rewrite (proj2 (toolset_spec info y t') (conj T1 T2)). rewrite (proj2 (get_sdk_spec info s) S). rewrite (proj2 (check_config_spec mv vc y p) W). reflexivity.
  - split.
    + unfold get_toolset. cbn [is_year_opt]. destruct (get_msbuild pl info p None); [|discriminate]. destruct (_ || _); discriminate.
    + intros (Y & _). apply year_spec in Y. congruence.
Qed.

(** ** sorting *)
Definition ok (w : wishes) (e : entry) : bool := match pick w e with Some _ => true | None => false end.
Lemma first_usable_find : forall w l, first_usable pl w l = match find (ok w) l with Some e => pick w e | None => None end.
Proof.
  intros w. induction l as [|e l IH]; [reflexivity|].
  assert (E : first_usable pl w (e :: l) = match pick w e with Some r => Some r | None => first_usable pl w l end).
  { cbn [first_usable]. unfold pick. destruct (e_msbuild e); [|reflexivity]. destruct (e_toolset e); [|reflexivity]. destruct (e_sdk e); [|reflexivity]. destruct (check_config pl w (year_of e) (e_path e)); reflexivity. }
  rewrite E. cbn [find]. unfold ok at 1. destruct (pick w e) eqn:P; [rewrite P; reflexivity|exact IH].
Qed.
Inductive desc : list entry -> Prop :=
| desc_nil : desc []
| desc_cons : forall e l, (forall x, In x l -> (year_of x <= year_of e)%Z) -> desc l -> desc (e :: l).
Lemma insert_In : forall e l x, In x (insert_entry e l) <-> x = e \/ In x l.
Proof. induction l as [|y l IH]; intros x; cbn [insert_entry]; [cbn; intuition congruence|]. destruct ((year_of y <=? year_of e)%Z); [cbn; intuition congruence|]. cbn [In]. rewrite IH. tauto. Qed.
Lemma insert_desc : forall e l, desc l -> desc (insert_entry e l).
Proof.
  intros e. induction l as [|y l IH]; intros H; cbn [insert_entry]; [constructor; [intros x []|constructor]|]. inversion H as [|? ? H1 H2]; subst. destruct (Z.leb_spec (year_of y) (year_of e)).
  - constructor; [|exact H]. intros x [<-|X]; [assumption|]. specialize (H1 x X). lia.
  - constructor; [|apply IH; exact H2]. intros x X. apply insert_In in X. destruct X as [->|X]; [lia|apply H1; exact X].
Qed.
Lemma sort_desc : forall l, desc (sort_entries l).
Proof. induction l as [|e l IH]; [constructor|]. apply insert_desc, IH. Qed.
Lemma find_insert : forall p e l, desc l -> find p (insert_entry e l) =
  match find p l with Some x => if p e && (year_of x <=? year_of e)%Z then Some e else Some x | None => if p e then Some e else None end.
Proof.
  intros p e. induction l as [|y l IH]; intros H; cbn [insert_entry].
  - cbn. reflexivity.
  - inversion H as [|? ? H1 H2]; subst. destruct (Z.leb_spec (year_of y) (year_of e)) as [L|L].
    + cbn [find]. destruct (p e) eqn:PE; cbn [andb].
      * destruct (p y) eqn:PY; [rewrite (proj2 (Z.leb_le _ _) L); reflexivity|]. destruct (find p l) as [x|] eqn:F; [|reflexivity]. apply find_some in F. destruct F as [F _]. specialize (H1 x F). rewrite (proj2 (Z.leb_le _ _)) by lia. reflexivity.
      * destruct (p y); [reflexivity|]. destruct (find p l); reflexivity.
    + cbn [find]. destruct (p y) eqn:PY; [|apply IH; exact H2]. rewrite (proj2 (Z.leb_gt _ _) L), andb_false_r. reflexivity.
Qed.
(** the leftmost of the newest *)
Lemma find_sorted : forall p l, match find p (sort_entries l) with
  | Some e => exists pre post, l = (pre ++ e :: post)%list /\ p e = true /\ (forall x, In x pre -> p x = true -> (year_of x < year_of e)%Z) /\ (forall x, In x post -> p x = true -> (year_of x <= year_of e)%Z)
  | None => forall x, In x l -> p x = false
  end.
Proof.
  intros p. induction l as [|a l IH]; [intros x []|]. change (sort_entries (a :: l)) with (insert_entry a (sort_entries l)). rewrite (find_insert p a _ (sort_desc l)). destruct (find p (sort_entries l)) as [e|] eqn:F.
  - destruct IH as (pre & post & -> & PE & H1 & H2). destruct (p a) eqn:PA; cbn [andb].
    + destruct (Z.leb_spec (year_of e) (year_of a)) as [L|L].
      * exists [], (pre ++ e :: post)%list. split; [reflexivity|]. split; [exact PA|]. split; [intros x []|]. intros x X PX. apply in_app_or in X. destruct X as [X|[<-|X]]; [specialize (H1 x X PX); lia|exact L|specialize (H2 x X PX); lia].
      * exists (a :: pre), post. split; [reflexivity|]. split; [exact PE|]. split; [intros x [<-|X] PX; [exact L|auto]|exact H2].
    + exists (a :: pre), post. split; [reflexivity|]. split; [exact PE|]. split; [intros x [<-|X] PX; [congruence|auto]|exact H2].
  - destruct (p a) eqn:PA.
    + exists [], l. split; [reflexivity|]. split; [exact PA|]. split; [intros x []|]. intros x X PX. rewrite (IH x X) in PX. discriminate.
    + intros x [<-|X]; auto.
Qed.

Lemma filter_split : forall (A : Type) (f : A -> bool) l pre e post, filter f l = (pre ++ e :: post)%list -> exists p q, l = (p ++ e :: q)%list /\ pre = filter f p /\ post = filter f q.
Proof.
  intros A f. induction l as [|x l IH]; intros pre e post H; [destruct pre; discriminate|]. cbn [filter] in H. destruct (f x) eqn:Fx.
  - destruct pre as [|y pre]; injection H as -> H.
    + exists [], l. auto.
    + destruct (IH _ _ _ H) as (p & q & -> & -> & ->). exists (y :: p), q. cbn. rewrite Fx. auto.
  - destruct (IH _ _ _ H) as (p & q & -> & -> & ->). exists (x :: p), q. cbn. rewrite Fx. auto.
Qed.

Lemma process_data_spec : forall mv vc infos years,
  match process_data pl (wishes_of pl mv vc) infos years with
  | Some r => exists pre info post, infos = (pre ++ info :: post)%list /\ usable pl mv vc info r /\ In (f_year r) years /\
      (forall i r', In i pre -> usable pl mv vc i r' -> In (f_year r') years -> (f_year r' < f_year r)%Z) /\
      (forall i r', In i post -> usable pl mv vc i r' -> In (f_year r') years -> (f_year r' <= f_year r)%Z)
  | None => forall i r, In i infos -> usable pl mv vc i r -> ~ In (f_year r) years
  end.
Proof.
  intros mv vc infos years. unfold process_data. set (sup := fun e => match e_year e with Some y => existsb (Z.eqb y) years | None => false end). set (w := wishes_of pl mv vc).
  assert (US : forall i r, usable pl mv vc i r -> ok w (process_one pl i) = true /\ f_year r = year_of (process_one pl i) /\ (In (f_year r) years -> sup (process_one pl i) = true)).
  { intros i r U. pose proof U as U0. apply pick_spec in U. fold w in U. split; [unfold ok; rewrite U; reflexivity|]. split; [eapply pick_year; exact U|]. intros I. unfold sup. destruct U0 as (Y & _). apply year_spec in Y. unfold process_one. cbn [e_year]. rewrite Y. apply existsb_exists. exists (f_year r). split; [exact I|apply Z.eqb_refl]. }
  rewrite first_usable_find. pose proof (find_sorted (ok w) (filter sup (map (process_one pl) infos))) as H. destruct (find (ok w) (sort_entries (filter sup (map (process_one pl) infos)))) as [e|].
  - destruct H as (pre & post & E & OK & H1 & H2). pose proof (filter_split _ _ _ _ _ _ E) as (pe & qe & E2 & -> & ->). apply map_eq_app in E2. destruct E2 as (pi & qi & -> & <- & E2). destruct qi as [|i qi]; [discriminate|]. cbn [map] in E2. injection E2 as EI EQ. subst e qe.
    assert (OK2 := OK). unfold ok in OK2. destruct (pick w (process_one pl i)) as [r|] eqn:PI; [clear OK2|discriminate]. exists pi, i, qi. split; [reflexivity|]. pose proof PI as PI2. apply pick_spec in PI2. split; [exact PI2|].
    assert (SE : sup (process_one pl i) = true) by (assert (X : In (process_one pl i) (filter sup (map (process_one pl) (pi ++ i :: qi)))) by (rewrite E; apply in_or_app; right; left; reflexivity); apply filter_In in X; tauto).
    assert (YE : e_year (process_one pl i) = Some (f_year r)) by (unfold process_one; cbn [e_year]; apply year_spec; apply PI2).
    split; [unfold sup in SE; rewrite YE in SE; apply existsb_exists in SE; destruct SE as (x & X & Y); apply Z.eqb_eq in Y; subst x; exact X|].
    rewrite (pick_year _ _ _ PI). split; intros j r' J U IY; destruct (US j r' U) as (O & YR & S); rewrite YR; [apply H1|apply H2]; try exact O; apply filter_In; split; try (apply in_map; exact J); apply S, IY.
  - intros i r I U IY. destruct (US i r U) as (O & YE & S). assert (F : ok w (process_one pl i) = false) by (apply H; apply filter_In; split; [apply in_map; exact I|apply S, IY]). congruence.
Qed.
End One.
