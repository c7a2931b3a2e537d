(** What hashes are fed determines the hashables; ids are 24 digits (Model_XcodeIds). *)
From Coq Require Import NArith ZArith Lia.
From Verif Require Import Lib Str StrFacts LibFacts Model_Names Model_Path Model_XcodeGroups Model_XcodeIds Spec_XcodeGroups Spec_XcodeIds.
Local Open Scope string_scope.

Lemma concat_cons : forall a l, String.concat "" (a :: l) = a ++ String.concat "" l.
Proof. intros a [|b l]; [rewrite append_nil_r|]; reflexivity. Qed.
Lemma feeds_cons : forall a l, feeds (a :: l) = feed a ++ feeds l.
Proof. intros a l. unfold feeds. cbn [map]. apply concat_cons. Qed.
Lemma feeds_app : forall a b, feeds (a ++ b)%list = feeds a ++ feeds b.
Proof. induction a as [|x a IH]; intros b; [reflexivity|]. cbn [app]. rewrite !feeds_cons, IH, append_assoc. reflexivity. Qed.
Lemma append_inj : forall a b c : string, a ++ b = a ++ c -> b = c.
Proof. induction a as [|x a IH]; intros b c E; [exact E|]. injection E as E. exact (IH b c E). Qed.

(** ** lengths *)
Lemma byte_inj : forall n m, byte n = byte m -> (n mod 256 = m mod 256)%N.
Proof.
  intros n m E. unfold byte in E. apply (f_equal N_of_ascii) in E. rewrite !N_ascii_embedding in E by (apply N.mod_lt; discriminate). exact E.
Qed.
Lemma pack_inj : forall n m r r', (n < 2147483648)%N -> (m < 2147483648)%N -> pack n ++ r = pack m ++ r' -> n = m /\ r = r'.
Proof.
  intros n m r r' A B E. unfold pack in E. cbn [append] in E. injection E as E1 E2 E3 E4 E5. split; [|exact E5].
  apply byte_inj in E1, E2, E3, E4. 
  assert (X : forall k, (k < 2147483648)%N -> (k = ((k / 16777216) mod 256) * 16777216 + ((k / 65536) mod 256) * 65536 + ((k / 256) mod 256) * 256 + k mod 256)%N).
  { intros k K. assert (D2 : (k / 65536 = k / 256 / 256)%N) by (rewrite N.div_div by discriminate; reflexivity). assert (D3 : (k / 16777216 = k / 256 / 256 / 256)%N) by (rewrite !N.div_div by discriminate; reflexivity). rewrite D2, D3.
    pose proof (N.div_mod k 256 ltac:(discriminate)) as E0. pose proof (N.div_mod (k / 256) 256 ltac:(discriminate)) as F1. pose proof (N.div_mod (k / 256 / 256) 256 ltac:(discriminate)) as F2.
    assert (S : (k / 256 / 256 / 256 < 256)%N) by (rewrite <- D3; apply N.div_lt_upper_bound; [discriminate|]; apply (N.lt_le_trans _ 2147483648); [exact K|discriminate]).
    pose proof (N.mod_small _ _ S) as F3. rewrite F3.
    set (x0 := (k mod 256)%N) in *. set (y1 := (k / 256)%N) in *. set (x1 := (y1 mod 256)%N) in *. set (y2 := (y1 / 256)%N) in *. set (x2 := (y2 mod 256)%N) in *. set (y3 := (y2 / 256)%N) in *.
    clearbody x0 x1 x2 y3. rewrite E0, F1, F2. ring. }
  rewrite (X n A), (X m B), E1, E2, E3, E4. reflexivity.
Qed.

(** ** texts *)
Lemma further_continues : forall c, further_byte c -> continues c = true.
Proof. intros c [A B]. unfold continues. apply andb_true_iff. split; [apply N.leb_le; exact A|apply N.ltb_lt; exact B]. Qed.
Lemma first_not : forall c k, first_byte c k -> continues c = false.
Proof.
  intros c k F. unfold continues. unfold first_byte in F. apply andb_false_iff. destruct (N.ltb (N_of_ascii c) 192) eqn:E; [left|right; reflexivity]. apply N.ltb_lt in E. apply N.leb_gt. lia.
Qed.
Lemma first_same : forall c k k', first_byte c k -> first_byte c k' -> k = k'.
Proof. intros c k k' A B. unfold first_byte in A, B. lia. Qed.
Lemma characters_further : forall more s, Forall further_byte more -> characters (string_of_list_ascii more ++ s) = characters s.
Proof.
  induction more as [|c more IH]; intros s F; [reflexivity|]. apply Forall_cons_iff in F. destruct F as [A F]. cbn [string_of_list_ascii append characters]. rewrite (further_continues c A). exact (IH s F).
Qed.
Lemma same_head : forall a b r r' : list ascii, length a = length b -> forall s s', string_of_list_ascii a ++ s = string_of_list_ascii b ++ s' -> a = b /\ s = s'.
Proof.
  intros a. induction a as [|x a IH]; intros [|y b] r r' L s s' E; try discriminate L; [split; [reflexivity|exact E]|]. cbn in E. injection E as -> E. destruct (IH b r r' (f_equal Nat.pred L) s s' E) as [-> ->]. split; reflexivity.
Qed.
Lemma utf8_cut : forall a, utf8 a -> forall b r r', utf8 b -> characters a = characters b -> a ++ r = b ++ r' -> a = b /\ r = r'.
Proof.
  intros a U. induction U as [|c more s F M U IH]; intros b r r' V C E.
  - destruct V as [|c' more' s' F' M' V]; [split; [reflexivity|exact E]|]. cbn [characters] in C. rewrite (first_not c' _ F'), (characters_further more' s' M') in C. lia.
  - cbn [characters] in C. rewrite (first_not c _ F), (characters_further more s M) in C. destruct V as [|c' more' s' F' M' V]; [cbn [characters] in C; lia|]. cbn [characters] in C. rewrite (first_not c' _ F'), (characters_further more' s' M') in C. apply N.succ_inj in C.
    cbn [append] in E. rewrite !append_assoc in E. injection E as -> E. assert (L := first_same c' _ _ F F'). destruct (same_head more more' [] [] L _ _ E) as [-> E']. destruct (IH s' r r' V C E') as [-> ->]. split; reflexivity.
Qed.
Lemma characters_length : forall s, (characters s <= N.of_nat (String.length s))%N.
Proof. induction s as [|c s IH]; cbn [characters String.length]; [lia|]. destruct (continues c); lia. Qed.
Lemma feed_cut : forall a b r r', utf8 a -> utf8 b -> short a -> short b -> feed a ++ r = feed b ++ r' -> a = b /\ r = r'.
Proof.
  intros a b r r' U V A B E. unfold feed in E. rewrite !append_assoc in E. pose proof (characters_length a). pose proof (characters_length b). unfold short in *.
  assert (Sa : (characters a < 2147483648)%N) by lia. assert (Sb : (characters b < 2147483648)%N) by lia. destruct (pack_inj _ _ _ _ Sa Sb E) as [C E']. exact (utf8_cut a U b r r' V C E').
Qed.
Theorem feeds_inj : forall l l', Forall (fun s => utf8 s /\ short s) l -> Forall (fun s => utf8 s /\ short s) l' -> feeds l = feeds l' -> l = l'.
Proof.
  induction l as [|a l IH]; intros [|b l'] F G E.
  - reflexivity.
  - rewrite feeds_cons in E. discriminate E.
  - rewrite feeds_cons in E. discriminate E.
  - apply Forall_cons_iff in F, G. destruct F as [[U A] F], G as [[V B] G]. rewrite !feeds_cons in E. destruct (feed_cut a b _ _ U V A B E) as [-> E']. rewrite (IH l' F G E'). reflexivity.
Qed.

(** ** ids *)
Lemma hex_two : forall k w b, (b < 256)%N -> hex (S (S k)) (w * 256 + b) = hex k w ++ two_digits b.
Proof.
  intros k w b B. cbn [hex]. assert (A0 : (w * 256 + b = w * 16 * 16 + b)%N) by (rewrite <- N.mul_assoc; reflexivity).
  assert (A1 : ((w * 256 + b) / 16 = w * 16 + b / 16)%N) by (rewrite A0; apply N.div_add_l; discriminate).
  assert (A2 : ((w * 256 + b) mod 16 = b mod 16)%N) by (rewrite A0, N.add_comm; apply N.mod_add; discriminate).
  assert (S : (b / 16 < 16)%N) by (apply N.div_lt_upper_bound; [discriminate|exact B]).
  assert (A3 : ((w * 16 + b / 16) / 16 = w)%N) by (rewrite N.div_add_l by discriminate; rewrite (N.div_small _ _ S); apply N.add_0_r).
  assert (A4 : ((w * 16 + b / 16) mod 16 = b / 16)%N) by (rewrite N.add_comm, N.mod_add by discriminate; apply N.mod_small; exact S). rewrite A1, A2, A3, A4. unfold two_digits, hex_digit. rewrite append_assoc. reflexivity.
Qed.
Lemma no_carry : forall w b, (b < 256)%N -> (w * 256 + b = N.lxor (N.shiftl w 8) b)%N.
Proof.
  intros w b B. rewrite N.shiftl_mul_pow2. change (2 ^ 8)%N with 256%N. apply N.add_nocarry_lxor. apply N.bits_inj. intros i. rewrite N.land_spec, N.bits_0. change 256%N with (2 ^ 8)%N. destruct (N.lt_ge_cases i 8) as [L|L].
  - rewrite N.mul_pow2_bits_low by exact L. reflexivity.
  - rewrite (N.bits_above_log2 b i); [apply andb_false_r|]. destruct (N.eq_dec b 0) as [->|Z]; [cbn; lia|]. apply N.log2_lt_pow2; [lia|]. apply (N.lt_le_trans _ 256); [exact B|]. change 256%N with (2 ^ 8)%N. apply N.pow_le_mono_r; [discriminate|exact L].
Qed.
Lemma xor_small : forall a b, (a < 256)%N -> (b < 256)%N -> (N.lxor a b < 256)%N.
Proof.
  intros a b A B. destruct (N.eq_dec (N.lxor a b) 0) as [->|Z]; [lia|]. change 256%N with (2 ^ 8)%N. apply N.log2_lt_pow2; [lia|]. apply (N.le_lt_trans _ (N.max (N.log2 a) (N.log2 b))); [apply N.log2_lxor|].
  apply N.max_lub_lt; [destruct (N.eq_dec a 0) as [->|X]; [cbn; lia|]|destruct (N.eq_dec b 0) as [->|X]; [cbn; lia|]]; apply N.log2_lt_pow2; try lia; assumption.
Qed.
Lemma xor_words : forall w b w' b', (b < 256)%N -> (b' < 256)%N -> N.lxor (w * 256 + b) (w' * 256 + b') = (N.lxor w w' * 256 + N.lxor b b')%N.
Proof.
  intros w b w' b' B B'. rewrite (no_carry w b B), (no_carry w' b' B'), (no_carry (N.lxor w w') (N.lxor b b') (xor_small b b' B B')), N.shiftl_lxor. rewrite !N.lxor_assoc. f_equal. rewrite <- !N.lxor_assoc. f_equal. apply N.lxor_comm.
Qed.
Lemma hex_word : forall a b c d, (b < 256)%N -> (c < 256)%N -> (d < 256)%N -> (a < 256)%N -> hex 8 (((a * 256 + b) * 256 + c) * 256 + d) = two_digits a ++ two_digits b ++ two_digits c ++ two_digits d.
Proof.
  intros a b c d B C D A. rewrite !hex_two by assumption. replace a with (0 * 256 + a)%N at 1 by lia. rewrite hex_two by exact A. cbn [hex append]. rewrite !append_assoc. reflexivity.
Qed.
Lemma below : forall c, (N_of_ascii c < 256)%N.
Proof. intros c. apply N_ascii_bounded. Qed.
Lemma twenty : forall s, String.length s = 20 -> exists a b c d e f g h i j k l m n o p q r t u,
  s = string_of_list_ascii [a; b; c; d; e; f; g; h; i; j; k; l; m; n; o; p; q; r; t; u].
Proof.
  intros s H. assert (X : exists l, s = string_of_list_ascii l /\ length l = 20).
  { exists (list_ascii_of_string s). split; [symmetry; apply string_of_list_ascii_of_string|]. rewrite <- H. clear H. induction s as [|c s IH]; [reflexivity|]. cbn. rewrite IH. reflexivity. }
  destruct X as (l & -> & L). do 20 (destruct l as [|? l]; [discriminate L|]). destruct l; [|discriminate L]. do 20 eexists. reflexivity.
Qed.
Theorem id_is : forall digest, String.length digest = 20 -> id_for digest (id_of digest).
Proof.
  intros digest L. destruct (twenty digest L) as (a & b & c & d & e & f & g & h & i & j & k & l & m & n & o & p & q & r & t & u & ->). unfold id_for. cbn [string_of_list_ascii list_ascii_of_string map].
  do 20 eexists. split; [reflexivity|]. unfold id_of. cbn [words fold_words xor_at Nat.modulo Nat.divmod fst snd Nat.sub map]. rewrite !N.lxor_0_l. rewrite !xor_words by apply below. rewrite !hex_word by (apply below || (apply xor_small; apply below)).
  cbn [String.concat map append]. rewrite !append_assoc. cbn [append]. reflexivity.
Qed.
Lemma digit_ok : forall n, (n < 16)%N -> exists c, hex_digit n = String c "" /\ In c (list_ascii_of_string "0123456789ABCDEF").
Proof.
  intros n H. unfold hex_digit. assert (X : In n [0; 1; 2; 3; 4; 5; 6; 7; 8; 9; 10; 11; 12; 13; 14; 15]%N) by (cbn [In]; lia). cbn [In] in X. decompose [or] X; subst; try contradiction; eexists; (split; [reflexivity|]); cbn; tauto.
Qed.
Lemma hex_digits : forall k n, String.length (hex k n) = k /\ Forall (fun c => In c (list_ascii_of_string "0123456789ABCDEF")) (list_ascii_of_string (hex k n)).
Proof.
  induction k as [|k IH]; intros n; [split; [reflexivity|constructor]|]. cbn [hex]. destruct (digit_ok (n mod 16)%N) as (c & -> & C); [apply N.mod_lt; discriminate|]. destruct (IH (n / 16)%N) as [L F].
  assert (X : forall s x, String.length (s ++ String x "") = S (String.length s) /\ list_ascii_of_string (s ++ String x "") = (list_ascii_of_string s ++ [x])%list) by (induction s as [|y s IHs]; intros x; [split; reflexivity|]; destruct (IHs x) as [P Q]; cbn; rewrite P, Q; split; reflexivity).
  destruct (X (hex k (n / 16)) c) as [P Q]. rewrite P, Q, L. split; [reflexivity|]. apply Forall_app. split; [exact F|]. constructor; [exact C|constructor].
Qed.
Lemma list_app : forall a b, list_ascii_of_string (a ++ b) = (list_ascii_of_string a ++ list_ascii_of_string b)%list.
Proof. induction a as [|x a IH]; intros b; [reflexivity|]. cbn. rewrite IH. reflexivity. Qed.
Lemma xor_at_length : forall i w l, length (xor_at i w l) = length l.
Proof. induction i as [|i IH]; intros w [|x l]; cbn; try reflexivity. rewrite IH. reflexivity. Qed.
Theorem id_digits : forall digest, length (list_ascii_of_string (id_of digest)) = 24 /\ Forall (fun c => In c (list_ascii_of_string "0123456789ABCDEF")) (list_ascii_of_string (id_of digest)).
Proof.
  intros digest. unfold id_of. assert (X : forall ws i ints, length (fold_words i ws ints) = length ints) by (induction ws as [|w ws IH]; intros i ints; [reflexivity|]; cbn [fold_words]; rewrite IH; apply xor_at_length).
  specialize (X (words digest) 0 [0; 0; 0]%N). destruct (fold_words 0 (words digest) [0; 0; 0]%N) as [|x [|y [|z [|? ?]]]]; try discriminate X. cbn [map]. rewrite !concat_cons. cbn [String.concat map]. rewrite append_nil_r, !list_app, !app_length.
  assert (LL : forall s, length (list_ascii_of_string s) = String.length s) by (induction s as [|c s IH]; [reflexivity|]; cbn; rewrite IH; reflexivity). rewrite !LL.
  destruct (hex_digits 8 x) as [A1 A2], (hex_digits 8 y) as [B1 B2], (hex_digits 8 z) as [C1 C2]. rewrite A1, B1, C1. split; [reflexivity|]. rewrite !Forall_app. auto.
Qed.
Theorem collisions : forall ids seen, no_collisions seen ids = Some tt <-> NoDup ids /\ forall i, In i ids -> ~ In i seen.
Proof.
  induction ids as [|i ids IH]; intros seen; cbn [no_collisions].
  - split; [intros _; split; [constructor|intros i []]|reflexivity].
  - destruct (mem i seen) eqn:M.
    + apply mem_In in M. split; [discriminate|]. intros [_ H]. exfalso. exact (H i (or_introl eq_refl) M).
    + assert (NI : ~ In i seen) by (intros X; apply mem_In in X; congruence). rewrite IH. split.
      * intros [D H]. split; [constructor; [intros X; exact (H i X (or_introl eq_refl))|exact D]|]. intros j [<-|J]; [exact NI|]. intros X. exact (H j J (or_intror X)).
      * intros [D H]. apply NoDup_cons_iff in D. destruct D as [D1 D2]. split; [exact D2|]. intros j J [->|X]; [contradiction|]. exact (H j (or_intror J) X).
Qed.
