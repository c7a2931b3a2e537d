(** Paths on Windows. *)
From Verif Require Import Lib Str StrFacts Model_Path Spec_Path Proof_Path Proof_Path2 Model_Vcxproj Spec_Vcxproj.
From Verif Require Proof_Make.
Local Open Scope string_scope.
Notation to_bs := (replace_char "/" "\").

Lemma is_sep_iff : forall a, is_sep a = true <-> a = "/"%char \/ a = "\"%char.
Proof. intros a. unfold is_sep. rewrite orb_true_iff, !Ascii.eqb_eq. tauto. Qed.
Lemma sep_bool : forall a, (Ascii.eqb a "/" || Ascii.eqb a "\")%bool = is_sep a.
Proof. reflexivity. Qed.
Lemma pieces_split : forall s, pieces s = split_char "\" (to_bs s).
Proof.
  induction s as [|a s IH]; [reflexivity|]. cbn [pieces replace_char split_char]. rewrite IH. destruct (Ascii.eqb_spec a "/") as [->|N]; cbn [orb].
  - reflexivity.
  - destruct (Ascii.eqb a "\"); [reflexivity|]. destruct (split_char "\" (to_bs s)) eqn:E; [exfalso; exact (split_char_nonempty _ _ E)|reflexivity].
Qed.
Lemma pieces_nonempty : forall s, pieces s <> [].
Proof. intros s. rewrite pieces_split. apply split_char_nonempty. Qed.
Lemma pieces_sep : forall c a b, is_sep c = true -> pieces (a ++ String c b) = (pieces a ++ pieces b)%list.
Proof.
  intros c a b S. induction a as [|x a IH].
  - cbn [append pieces]. rewrite sep_bool, S. reflexivity.
  - cbn [append pieces]. rewrite sep_bool. rewrite IH. destruct (is_sep x); [reflexivity|]. destruct (pieces a) eqn:E; [exfalso; exact (pieces_nonempty _ E)|reflexivity].
Qed.
Lemma pieces_none : forall s, has_char "/" s = false -> has_char "\" s = false -> pieces s = [s].
Proof.
  induction s as [|a s IH]; intros H K; [reflexivity|]. cbn [pieces has_char] in *. destruct (Ascii.eqb a "/"); [discriminate|]. destruct (Ascii.eqb a "\"); [discriminate|]. cbn [orb].
  rewrite IH by assumption. reflexivity.
Qed.
Lemma pieces_no_sep : forall s x, In x (pieces s) -> has_char "/" x = false /\ has_char "\" x = false.
Proof.
  induction s as [|a s IH]; intros x; cbn [pieces].
  - intros [<-|[]]. split; reflexivity.
  - rewrite sep_bool. destruct (is_sep a) eqn:S.
    + intros [<-|I]; [split; reflexivity|exact (IH x I)].
    + destruct (pieces s) as [|y l] eqn:E; [intros []|]. intros [<-|I]; [|apply IH; right; exact I]. destruct (IH y (or_introl eq_refl)) as [A B].
      unfold is_sep in S. apply orb_false_iff in S. destruct S as [S T]. cbn [has_char]. rewrite S, T. split; assumption.
Qed.
Lemma pieces_char : forall c s x, In x (pieces s) -> has_char c s = false -> has_char c x = false.
Proof.
  intros c. induction s as [|a s IH]; intros x; cbn [pieces].
  - intros [<-|[]] _. reflexivity.
  - cbn [has_char]. destruct (Ascii.eqb a c) eqn:E; [intros _ H; discriminate|]. rewrite sep_bool. destruct (is_sep a).
    + intros [<-|I] H; [reflexivity|exact (IH x I H)].
    + destruct (pieces s) as [|y l] eqn:P; [intros []|]. intros [<-|I] H; [cbn [has_char]; rewrite E; apply IH; [left; reflexivity|exact H]|apply IH; [right; exact I|exact H]].
Qed.
Lemma to_bs_char : forall c s, c <> "/"%char -> c <> "\"%char -> has_char c (to_bs s) = has_char c s.
Proof.
  intros c s N M. induction s as [|a s IH]; [reflexivity|]. cbn [replace_char has_char]. rewrite IH. destruct (Ascii.eqb_spec a "/") as [->|]; [|reflexivity].
  destruct (Ascii.eqb_spec "\" c) as [<-|]; [contradiction|]. destruct (Ascii.eqb_spec "/" c) as [<-|]; [contradiction|]. reflexivity.
Qed.
Lemma to_bs_twice : forall s, to_bs (to_bs s) = to_bs s.
Proof. induction s as [|a s IH]; [reflexivity|]. cbn [replace_char]. rewrite IH. destruct (Ascii.eqb_spec a "/") as [->|N]; [reflexivity|]. destruct (Ascii.eqb_spec a "/"); [contradiction|reflexivity]. Qed.
Lemma pieces_to_bs : forall s, pieces (to_bs s) = pieces s.
Proof. intros s. rewrite !pieces_split, to_bs_twice. reflexivity. Qed.

(** ** the normal form *)
Definition canon (l : list string) : list string := rev (norm_comps false [] l).
Definition show (l : list string) : string := match l with [] => "." | _ => join_bs l end.

Lemma norm_shape : forall l acc, (exists k names, acc = (names ++ repeat ".." k)%list /\ forall c, In c names -> c <> "" /\ c <> "." /\ c <> "..") ->
  exists k names, norm_comps false acc l = (names ++ repeat ".." k)%list /\ forall c, In c names -> c <> "" /\ c <> "." /\ c <> "..".
Proof.
  induction l as [|c l IH]; intros acc A; [exact A|]. cbn [norm_comps]. destruct (String.eqb_spec c "") as [->|N1]; [apply IH; exact A|]. destruct (String.eqb_spec c dot) as [->|N2]; [apply IH; exact A|]. cbn [orb].
  destruct A as (k & names & -> & O). destruct (String.eqb_spec c dotdot) as [->|N3]; cbn [negb orb andb].
  - destruct names as [|n names].
    + cbn [app]. destruct k as [|k]; cbn [repeat]; cbn [orb].
      * apply IH. exists 1, []. split; [reflexivity|]. intros c [].
      * change (String.eqb ".." dotdot) with true. cbn iota. apply IH. exists (S (S k)), []. split; [reflexivity|]. intros c [].
    + cbn [app tl]. destruct (O n (or_introl eq_refl)) as (_ & _ & N). destruct (String.eqb_spec n dotdot); [contradiction|]. apply IH. exists k, names. split; [reflexivity|]. intros c I. apply O. right. exact I.
  - apply IH. exists k, (c :: names). split; [reflexivity|]. intros d [<-|I]; [repeat split; assumption|exact (O d I)].
Qed.
Lemma rev_repeat : forall {A} (x : A) k, rev (repeat x k) = repeat x k.
Proof. intros A x k. induction k as [|k IH]; [reflexivity|]. cbn [repeat rev]. rewrite IH. clear IH. induction k as [|k IH]; [reflexivity|]. cbn [repeat app]. rewrite IH. reflexivity. Qed.
Lemma canon_shape : forall l, exists k names, canon l = (repeat ".." k ++ names)%list /\ forall c, In c names -> In c l /\ c <> "" /\ c <> "." /\ c <> "..".
Proof.
  intros l. destruct (norm_shape l []) as (k & names & E & O).
  { exists 0, []. split; [reflexivity|]. intros c []. }
  exists k, (rev names). unfold canon. rewrite E, rev_app_distr, rev_repeat. split; [reflexivity|]. intros c I. apply in_rev in I. split; [|exact (O c I)].
  assert (J : In c (norm_comps false [] l)) by (rewrite E; apply in_or_app; left; exact I). apply norm_comps_subset in J. destruct J as [[]|J]. exact J.
Qed.
Lemma walk_canon : forall here l, walk here (canon l) = walk here l.
Proof. intros here l. unfold canon. rewrite norm_comps_walk; [reflexivity|discriminate|intros c []]. Qed.
Lemma walk_shape : forall here k names, (forall c, In c names -> c <> "" /\ c <> "." /\ c <> "..") -> walk here (repeat ".." k ++ names)%list = (rev names ++ skipn k here)%list.
Proof.
  intros here k names O. rewrite walk_app, walk_ups. generalize (skipn k here). induction names as [|c names IH]; intros h; [reflexivity|].
  cbn [walk fold_left]. fold (walk (step h c) names). destruct (O c (or_introl eq_refl)) as (A & B & C). unfold step at 1.
  destruct (String.eqb_spec c ""); [contradiction|]. destruct (String.eqb_spec c "."); [contradiction|]. destruct (String.eqb_spec c ".."); [contradiction|]. cbn [orb].
  rewrite IH by (intros d I; apply O; right; exact I). cbn [rev]. rewrite <- app_assoc. reflexivity.
Qed.
Lemma skipn_repeat : forall {A} (x : A) k n, skipn k (repeat x n) = repeat x (n - k).
Proof. intros A x. induction k as [|k IH]; intros n; [rewrite Nat.sub_0_r; reflexivity|]. destruct n as [|n]; [reflexivity|]. cbn [repeat skipn Nat.sub]. apply IH. Qed.
Lemma canon_eq : forall a b, (forall x, In x a \/ In x b -> x <> "\") -> (forall here, walk here a = walk here b) -> canon a = canon b.
Proof.
  intros a b N H. destruct (canon_shape a) as (k & n & E & O). destruct (canon_shape b) as (k' & n' & E' & O').
  assert (W : forall here, (rev n ++ skipn k here)%list = (rev n' ++ skipn k' here)%list).
  { intros here. specialize (H here). rewrite <- (walk_canon here a), <- (walk_canon here b), E, E' in H. rewrite !walk_shape in H; [exact H|intros c I; apply O'; exact I|intros c I; apply O; exact I]. }
  assert (C : forall (m : list string) j, ~ In "\" m -> count_occ string_dec (rev m ++ repeat "\" j) "\" = j).
  { intros m j M. rewrite count_occ_app. assert (Z : count_occ string_dec (rev m) "\" = 0) by (apply count_occ_not_In; intros I; apply in_rev in I; contradiction). rewrite Z. clear. induction j as [|j IH]; [reflexivity|]. cbn [repeat count_occ]. destruct (string_dec "\" "\"); [cbn in *; congruence|contradiction]. }
  assert (M : ~ In "\" n) by (intros I; destruct (O _ I) as (I' & _); exact (N "\" (or_introl I') eq_refl)). assert (M' : ~ In "\" n') by (intros I; destruct (O' _ I) as (I' & _); exact (N "\" (or_intror I') eq_refl)).
  pose proof (W (repeat "\" (k + k'))) as W0. rewrite !skipn_repeat in W0. pose proof (f_equal (fun l => count_occ string_dec l "\") W0) as W1. cbn beta in W1. rewrite !C in W1 by assumption.
  assert (k = k') by lia. subst k'. apply app_inv_tail in W0. rewrite E, E'. f_equal. rewrite <- (rev_involutive n), <- (rev_involutive n'). f_equal. exact W0.
Qed.

(** ** join_bs and show *)
Lemma join_cons : forall a l, join_bs (a :: l) = match l with [] => a | _ => a ++ String "\" (join_bs l) end.
Proof. intros a [|b l]; reflexivity. Qed.
Lemma pieces_join : forall l, l <> [] -> (forall x, In x l -> has_char "/" x = false /\ has_char "\" x = false) -> pieces (join_bs l) = l.
Proof.
  induction l as [|a l IH]; intros N S; [contradiction|]. rewrite join_cons. destruct (S a (or_introl eq_refl)) as [A B]. destruct l as [|b l]; [apply pieces_none; assumption|].
  rewrite pieces_sep by reflexivity. rewrite pieces_none by assumption. rewrite IH; [reflexivity|discriminate|intros x I; apply S; right; exact I].
Qed.
Lemma canon_ok : forall l, (forall x, In x l -> has_char "/" x = false /\ has_char "\" x = false) -> forall x, In x (canon l) -> has_char "/" x = false /\ has_char "\" x = false /\ x <> "" /\ x <> ".".
Proof.
  intros l S x I. destruct (canon_shape l) as (k & n & E & O). rewrite E in I. apply in_app_or in I. destruct I as [I|I].
  - apply repeat_spec in I. subst x. repeat split; discriminate.
  - destruct (O x I) as (J & A & B & _). destruct (S x J). auto.
Qed.
Lemma pieces_show : forall l, (forall x, In x l -> has_char "/" x = false /\ has_char "\" x = false) -> pieces (show l) = match l with [] => ["."] | _ => l end.
Proof. intros [|a l] S; [reflexivity|]. apply pieces_join; [discriminate|exact S]. Qed.
Lemma canon_canon : forall l, (forall x, In x l -> x <> "\") -> canon (canon l) = canon l.
Proof.
  intros l N. apply canon_eq; [|intros here; apply walk_canon]. intros x [I|I]; [|exact (N x I)]. destruct (canon_shape l) as (k & n & E & O). rewrite E in I. apply in_app_or in I. destruct I as [I|I]; [apply repeat_spec in I; subst; discriminate|]. apply N. apply O. exact I.
Qed.
Lemma piece_not_bs : forall s x, In x (pieces s) -> x <> "\".
Proof. intros s x I ->. apply pieces_no_sep in I. destruct I as [_ I]. discriminate I. Qed.
Lemma walk_pieces_show : forall here l, (forall x, In x l -> has_char "/" x = false /\ has_char "\" x = false) -> leads here (show (canon l)) = walk here l.
Proof.
  intros here l S. unfold leads. rewrite pieces_show by (intros x I; destruct (canon_ok l S x I) as (A & B & _); auto). rewrite <- (walk_canon here l). destruct (canon l); reflexivity.
Qed.

(** ** normpath and the paths with no drive and no root *)
Definition bare (s : string) : Prop := rooted s = false /\ forall a r, s <> String a (String ":" r).
Lemma bare_drive : forall s, bare s -> nt_drive s = ("", s).
Proof.
  intros [|a [|b r]] [_ D]; try reflexivity. cbn [nt_drive]. destruct (Ascii.eqb_spec b ":") as [->|]; [exfalso; exact (D a r eq_refl)|reflexivity].
Qed.
Lemma bare_to_bs : forall s, bare s -> bare (to_bs s).
Proof.
  intros s [R D]. split.
  - destruct s as [|a s]; [reflexivity|]. cbn [rooted replace_char] in *. unfold is_sep in *. apply orb_false_iff in R. destruct R as [R1 R2]. rewrite R1, R1, R2. reflexivity.
  - intros a r E. destruct s as [|x [|y s]]; try discriminate. cbn [replace_char] in E. injection E as _ E _. destruct (Ascii.eqb_spec y "/") as [->|]; [discriminate|]. subst y. exact (D x s eq_refl).
Qed.
Lemma normpath_bare : forall s, bare s -> nt_normpath s = show (canon (pieces s)).
Proof.
  intros s B. unfold nt_normpath. rewrite (bare_drive _ (bare_to_bs s B)). rewrite (proj1 (bare_to_bs s B)). rewrite <- pieces_split. fold (canon (pieces s)). change ("" ++ "") with "". destruct (canon (pieces s)); reflexivity.
Qed.
Lemma count_zero : forall c s, count_char c s = 0 <-> has_char c s = false.
Proof.
  intros c. induction s as [|a s IH]; [split; reflexivity|]. cbn [count_char has_char]. destruct (Ascii.eqb a c); [split; discriminate|exact IH].
Qed.
Lemma has_join : forall c l, c <> "\"%char -> has_char c (join_bs l) = existsb (has_char c) l.
Proof.
  intros c l N. induction l as [|a l IH]; [reflexivity|]. rewrite join_cons. cbn [existsb]. destruct l as [|b l]; [cbn [existsb]; rewrite orb_false_r; reflexivity|].
  rewrite has_char_app. f_equal. rewrite <- IH. cbn [has_char]. destruct (Ascii.eqb_spec "\" c) as [<-|]; [contradiction|reflexivity].
Qed.
Lemma has_show : forall c l, c <> "\"%char -> c <> "."%char -> (forall x, In x l -> has_char c x = false) -> has_char c (show (canon l)) = false.
Proof.
  intros c l N M H. unfold show. destruct (canon l) as [|a m] eqn:E; [cbn [has_char]; destruct (Ascii.eqb_spec "." c) as [<-|]; [contradiction|reflexivity]|]. rewrite <- E. rewrite has_join by exact N.
  destruct (existsb (has_char c) (canon l)) eqn:X; [|reflexivity]. apply existsb_exists in X. destruct X as (x & I & X). destruct (canon_shape l) as (k & n & F & O). rewrite F in I. apply in_app_or in I.
  destruct I as [I|I]; [apply repeat_spec in I; subst x; cbn [has_char] in X; destruct (Ascii.eqb_spec "." c) as [<-|]; [contradiction|discriminate]|]. rewrite (H x) in X; [discriminate|]. apply O. exact I.
Qed.
Lemma normalized_bare : forall s, bare s -> has_char "$" s = false -> normalized_source s = show (canon (pieces s)).
Proof.
  intros s B D. unfold normalized_source. rewrite (normpath_bare s B). assert (Z : count_char "$" s = 0) by (apply count_zero; exact D). rewrite Z.
  assert (Y : count_char "$" (show (canon (pieces s))) = 0) by (apply count_zero; apply has_show; [discriminate|discriminate|]; intros x I; exact (pieces_char "$" s x I D)). rewrite Y. reflexivity.
Qed.
Lemma chop_keep : forall s a, a <> "\"%char -> chop (s ++ String a "") = s ++ String a "".
Proof.
  intros s a N. induction s as [|b s IH].
  - cbn. destruct (Ascii.eqb_spec a "\"); [contradiction|reflexivity].
  - cbn [append chop]. destruct (s ++ String a "") eqn:E; [destruct s; discriminate|]. rewrite IH. reflexivity.
Qed.
Lemma last_char : forall s, s = "" \/ exists t a, s = t ++ String a "".
Proof. induction s as [|a s IH]; [left; reflexivity|]. right. destruct IH as [->|(t & b & ->)]; [exists "", a; reflexivity|exists (String a t), b; reflexivity]. Qed.
Lemma chop_show : forall l, (forall x, In x l -> has_char "\" x = false /\ x <> "") -> chop (show l) = show l.
Proof.
  intros [|a l] S; [reflexivity|]. unfold show. assert (X : exists t c, join_bs (a :: l) = t ++ String c "" /\ c <> "\"%char).
  { revert a S. induction l as [|b l IH]; intros a S.
    - destruct (S a (or_introl eq_refl)) as [A B]. destruct (last_char a) as [->|(t & c & ->)]; [contradiction|]. exists t, c. split; [reflexivity|]. rewrite has_char_app in A. apply orb_false_iff in A. destruct A as [_ A]. intros ->. discriminate A.
    - rewrite join_cons. destruct (IH b) as (t & c & E & N); [intros x I; apply S; right; exact I|]. rewrite E. exists (a ++ String "\" t), c. split; [rewrite append_assoc; reflexivity|exact N]. }
  destruct X as (t & c & -> & N). apply chop_keep. exact N.
Qed.

(** ** _FixPath *)
Lemma way_chars : forall p, way p -> p <> "" -> has_char "$" p = false /\ has_char ":" p = false /\ rooted p = false /\ ends_sep p = false /\ nt_isabs p = false.
Proof.
  intros p [->|((l & C) & NE & A & D & _)] N; [contradiction|].
  assert (R : rooted p = false). { destruct p as [|a p]; [contradiction|]. cbn [rooted]. destruct (is_sep a) eqn:S; [|reflexivity]. cbn [pieces] in C. rewrite sep_bool, S in C. discriminate C. }
  split; [exact A|]. split; [exact D|]. split; [exact R|]. split.
  - destruct (last_char p) as [->|(t & a & ->)]; [contradiction|]. unfold ends_sep. assert (L : list_ascii_of_string (t ++ String a "") = (list_ascii_of_string t ++ [a])%list) by (clear; induction t as [|b t IH]; [reflexivity|]; cbn; rewrite IH; reflexivity).
    rewrite L, rev_app_distr. cbn [rev app]. destruct (is_sep a) eqn:S; [|reflexivity]. exfalso. apply NE. rewrite pieces_sep by exact S. apply in_or_app. right. left. reflexivity.
  - unfold nt_isabs. rewrite bare_drive; [exact R|]. split; [exact R|]. intros a r ->. cbn [has_char] in D. destruct (Ascii.eqb a ":"); discriminate D.
Qed.
Lemma bare_prefix : forall p s, way p -> p <> "" -> bare (p ++ String "\" s).
Proof.
  intros p s C N. destruct (way_chars p C N) as (_ & D & R & _). destruct p as [|a p]; [contradiction|]. split; [exact R|]. intros b r E. destruct p as [|c p]; cbn [append] in E; injection E as _ E; [discriminate|].
  subst c. cbn [has_char] in D. destruct (Ascii.eqb a ":"); discriminate D.
Qed.
(** A path that _FixPath puts behind the prefix. *)
Definition movable (s : string) : Prop := s <> "" /\ has_char "$" s = false /\ bare s.
Lemma movable_tests : forall s, movable s -> nt_isabs s = false /\ String.prefix "$" s = false /\ on_drive_c s = false /\ nt_drive s = ("", s) /\ rooted s = false.
Proof.
  intros s (N & D & B). pose proof (bare_drive s B) as E. split; [unfold nt_isabs; rewrite E; exact (proj1 B)|]. split; [|split; [|split; [exact E|exact (proj1 B)]]].
  - destruct s as [|a s]; [contradiction|]. cbn [has_char] in D. cbn [String.prefix]. destruct (Ascii.eqb_spec a "$"); [discriminate|]. destruct (ascii_dec "$" a); [congruence|reflexivity].
  - unfold on_drive_c. destruct B as [_ B]. destruct (String.prefix "c:" s) eqn:P; [apply Proof_Make.prefix_split in P; destruct P as (r & ->); exfalso; exact (B "c"%char r eq_refl)|].
    destruct (String.prefix "C:" s) eqn:Q; [apply Proof_Make.prefix_split in Q; destruct Q as (r & ->); exfalso; exact (B "C"%char r eq_refl)|]. reflexivity.
Qed.
Lemma all_pieces_ok : forall p s x, In x (pieces p ++ pieces s)%list -> has_char "/" x = false /\ has_char "\" x = false.
Proof. intros p s x I. apply in_app_or in I. destruct I as [I|I]; exact (pieces_no_sep _ _ I). Qed.
Lemma canon_empty : forall l, canon ("" :: l) = canon l.
Proof. reflexivity. Qed.
Lemma fix_movable : forall p s, way p -> movable s -> fix_path p s = show (canon (pieces p ++ pieces s)).
Proof.
  intros p s C M. pose proof (movable_tests s M) as (T1 & T2 & T3 & T4 & T5). destruct M as (N & D & B). unfold fix_path. rewrite T1, T2, T3. cbn [negb]. rewrite !andb_true_r.
  assert (Ns : String.eqb s "" = false) by (apply String.eqb_neq; exact N). rewrite Ns. cbn [negb]. rewrite andb_true_r.
  destruct (String.eqb_spec p "") as [->|Np]; cbn [negb].
  - cbn [pieces app]. rewrite canon_empty. rewrite normalized_bare; [|apply bare_to_bs; exact B|rewrite to_bs_char by discriminate; exact D]. rewrite pieces_to_bs. apply chop_show. intros x I.
    destruct (canon_ok (pieces s) (pieces_no_sep s) x I) as (_ & H & K & _). auto.
  - destruct (way_chars p C Np) as (D1 & _ & R1 & E1 & _). assert (Np' : String.eqb p "" = false) by (apply String.eqb_neq; exact Np).
    unfold nt_join. rewrite T5, T4. cbn [fst]. change (String.eqb "" "") with true. cbn [negb orb]. rewrite Np', E1. cbn [orb].
    rewrite normalized_bare; [|apply bare_to_bs; apply bare_prefix; assumption|rewrite to_bs_char by discriminate; rewrite has_char_app, D1; exact D]. rewrite pieces_to_bs, pieces_sep by reflexivity.
    apply chop_show. intros x I. destruct (canon_ok _ (all_pieces_ok p s) x I) as (_ & H & K & _). auto.
Qed.
Lemma leads_fix : forall p s here, way p -> movable s -> leads here (fix_path p s) = leads (leads here p) s.
Proof. intros p s here C M. rewrite (fix_movable p s C M). rewrite walk_pieces_show by apply all_pieces_ok. rewrite walk_app. reflexivity. Qed.
Lemma fix_same : forall p s t, way p -> movable s -> movable t -> fix_path p s = fix_path p t <-> forall here, leads (leads here p) s = leads (leads here p) t.
Proof.
  intros p s t C S T. split.
  - intros E here. rewrite <- !leads_fix by assumption. rewrite E. reflexivity.
  - intros E. rewrite !fix_movable by assumption. f_equal. apply canon_eq.
    + intros x [I|I] ->; apply all_pieces_ok in I; destruct I as [_ I]; discriminate I.
    + intros here. rewrite !walk_app. apply E.
Qed.
Lemma climbs_skip : forall p, climbs p -> exists k, forall here, leads here p = skipn k here.
Proof.
  intros p [->|C]; [exists 0; reflexivity|]. exists (length (pieces p)). intros here. unfold leads. rewrite <- walk_ups. f_equal. revert C. generalize (pieces p). induction l as [|a l IH]; intros C; [reflexivity|]. cbn [length repeat]. f_equal; [apply C; left; reflexivity|apply IH; intros c I; apply C; right; exact I].
Qed.
Lemma climbs_place : forall p s t, climbs p -> (forall here, leads (leads here p) s = leads (leads here p) t) -> same_file s t.
Proof.
  intros p s t C E here. destruct (climbs_skip p C) as (k & K). specialize (E (repeat "" k ++ here)%list). rewrite K in E. rewrite skipn_app, repeat_length, Nat.sub_diag in E.
  assert (Z : skipn k (repeat "" k) = []) by (apply skipn_all2; rewrite repeat_length; lia). rewrite Z in E. cbn [app skipn] in E. exact E.
Qed.
Lemma local_movable : forall s, local s <-> movable s.
Proof.
  intros s. split.
  - intros (N & D & O & R1 & R2). split; [exact N|]. split; [exact D|]. split; [|exact O]. destruct s as [|a s]; [reflexivity|]. cbn [rooted]. destruct (is_sep a) eqn:S; [|reflexivity]. apply is_sep_iff in S. destruct S as [-> | ->]; [exfalso; exact (R1 s eq_refl)|exfalso; exact (R2 s eq_refl)].
  - intros (N & D & R & O). split; [exact N|]. split; [exact D|]. split; [exact O|]. split; intros r ->; discriminate R.
Qed.
Lemma relative_movable : forall s, relative s -> movable s.
Proof. intros s [L _]. apply local_movable. exact L. Qed.
Lemma relative_iff : forall s, relative s <-> s <> "" /\ has_char "$" s = false /\ has_char ":" s = false /\ rooted s = false.
Proof.
  intros s. split.
  - intros [L O]. apply local_movable in L. destruct L as (N & D & R & _). auto.
  - intros (N & D & O & R). split; [|exact O]. apply local_movable. split; [exact N|]. split; [exact D|]. split; [exact R|]. intros a r ->. cbn [has_char] in O. destruct (Ascii.eqb a ":"); discriminate O.
Qed.
Lemma show_start : forall l, (forall x, In x l -> has_char "/" x = false /\ has_char "\" x = false) -> show (canon l) <> "" /\ rooted (show (canon l)) = false.
Proof.
  intros l S. unfold show. destruct (canon l) as [|a m] eqn:E; [split; [discriminate|reflexivity]|]. destruct (canon_ok l S a) as (A & B & N & _); [rewrite E; left; reflexivity|]. rewrite join_cons. destruct a as [|c a]; [contradiction|].
  cbn [has_char] in A, B. destruct (Ascii.eqb_spec c "/"); [discriminate|]. destruct (Ascii.eqb_spec c "\"); [discriminate|]. assert (is_sep c = false) by (destruct (is_sep c) eqn:Q; [apply is_sep_iff in Q; destruct Q; contradiction|reflexivity]).
  destruct m; (split; [discriminate|]); cbn [append rooted]; assumption.
Qed.
Lemma normal_relative : forall s, relative s -> relative (normalized_source s) /\ normalized_source s = show (canon (pieces s)).
Proof.
  intros s R. pose proof (relative_movable s R) as (N & D & B). assert (E : normalized_source s = show (canon (pieces s))) by (apply normalized_bare; assumption). split; [|exact E]. rewrite E. destruct R as (_ & O). apply relative_iff.
  destruct (show_start _ (pieces_no_sep s)) as (A & R). split; [exact A|]. split; [apply has_show; [discriminate|discriminate|]; intros x I; exact (pieces_char _ s x I D)|]. split; [apply has_show; [discriminate|discriminate|]; intros x I; exact (pieces_char _ s x I O)|exact R].
Qed.
Lemma fix_normal : forall p s, way p -> relative s -> fix_path p (normalized_source s) = fix_path p s.
Proof.
  intros p s C R. destruct (normal_relative s R) as (R' & E). apply fix_same; [exact C|apply relative_movable; exact R'|apply relative_movable; exact R|]. intros here. rewrite E. rewrite walk_pieces_show by (apply pieces_no_sep). reflexivity.
Qed.
