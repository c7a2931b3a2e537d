(** What is compiled. *)
From Coq Require Import Permutation.
From Verif Require Import Lib LibFacts Str StrFacts Model_Path Spec_Path Proof_Path Proof_Path2 Model_Vcxproj Spec_Vcxproj Proof_Vcxproj Proof_Vcxproj2 Proof_Vcxproj3.
From Verif Require Proof_Make Model_Writer Model_Build Proof_Build.
Local Open Scope string_scope.

Lemma slen_app : forall a b, String.length (a ++ b) = String.length a + String.length b.
Proof. intros a b. induction a as [|x a IH]; [reflexivity|]. cbn. rewrite IH. reflexivity. Qed.
(** ** letters *)
Lemma word_lower : forall s, same_word s (Model_Build.to_lower s).
Proof.
  induction s as [|a s IH]; cbn [Model_Build.to_lower]; [constructor|]. constructor; [|exact IH]. destruct (Proof_Build.lower_cases a) as [[H K]| ->]; [apply letter_upper; assumption|apply letter_same].
Qed.
Lemma letter_lower : forall a b, same_letter a b -> (N_of_ascii b < 65 \/ 90 < N_of_ascii b)%N -> Model_Build.lower a = b.
Proof.
  intros a b H K. destruct (Proof_Build.lower_cases a) as [[R E]|E].
  - inversion H as [x X Y|x y L R' X Y]; subst; [lia|]. rewrite <- (ascii_N_embedding (Model_Build.lower a)), <- (ascii_N_embedding b). f_equal. congruence.
  - inversion H as [x X Y|x y L R' X Y]; subst; [exact E|]. exfalso. unfold Model_Build.lower in E. destruct R' as [R1 R2]. apply N.leb_le in R1, R2. rewrite R1, R2 in E. cbn [andb] in E. apply (f_equal N_of_ascii) in E. rewrite N_ascii_embedding in E; [lia|]. apply N.leb_le in R2. lia.
Qed.
Lemma lower_word : forall s t, same_word s t -> (forall a, has_char a t = true -> (N_of_ascii a < 65 \/ 90 < N_of_ascii a)%N) -> Model_Build.to_lower s = t.
Proof.
  induction 1 as [|a b s t L W IH]; intros H; [reflexivity|]. cbn [Model_Build.to_lower]. f_equal.
  - apply letter_lower; [exact L|]. apply H. cbn [has_char]. rewrite Ascii.eqb_refl. reflexivity.
  - apply IH. intros c C. apply H. cbn [has_char]. rewrite C. destruct (Ascii.eqb b c); reflexivity.
Qed.
Lemma compile_lower : forall e l, same_word e l -> In l [".c"; ".cc"; ".cpp"; ".cxx"; ".mm"] -> Model_Build.to_lower e = l.
Proof.
  intros e l W I. apply lower_word; [exact W|]. intros a H. cbn [In] in I.
  assert (K : forall t, forallb (fun c => N.ltb (N_of_ascii c) 65 || N.ltb 90 (N_of_ascii c))%bool (list_ascii_of_string t) = true -> has_char a t = true -> (N_of_ascii a < 65 \/ 90 < N_of_ascii a)%N).
  { clear. induction t as [|b t IH]; cbn [list_ascii_of_string forallb has_char]; [discriminate|]. intros F H. apply andb_true_iff in F. destruct F as [F G]. destruct (Ascii.eqb_spec b a) as [->|]; [apply orb_true_iff in F; rewrite !N.ltb_lt in F; exact F|apply IH; assumption]. }
  apply (K l); [|exact H]. destruct I as [<-|[<-|[<-|[<-|[<-|[]]]]]]; vm_compute; reflexivity.
Qed.
Lemma extension_unique : forall s e e', has_extension s e -> has_extension s e' -> e = e'.
Proof.
  intros s e e' H K. apply extension_pieces in H, K. destruct H as (l & n & x & P & -> & D & X & S), K as (l' & n' & x' & P' & -> & D' & X' & S'). rewrite P in P'. apply app_inj_tail in P'. destruct P' as [_ E].
  assert (A : rsplit1 "." (n ++ "." ++ x) = Some (n, x)) by (apply rsplit1_Some; split; [reflexivity|exact X]). assert (B : rsplit1 "." (n' ++ "." ++ x') = Some (n', x')) by (apply rsplit1_Some; split; [reflexivity|exact X']). rewrite E in A. rewrite A in B. injection B as _ ->. reflexivity.
Qed.
Lemma no_rule_lookup : forall p s e, no_rule p s -> has_extension s e -> extension_to_rule p (Model_Build.to_lower e) = None.
Proof.
  intros p s e N H. unfold extension_to_rule. apply assoc_None. intros I. rewrite map_rev, map_map in I. apply in_rev in I. apply in_map_iff in I. destruct I as (r & E & I). unfold handling_rules in I. apply filter_In in I. destruct I as [I _]. cbn [fst] in E. destruct (N r e _ I H (word_lower e)) as [A B]. unfold rule_extension in E. destruct (String.prefix "." (extension r)); congruence.
Qed.
Lemma source_compiled : forall p s f, source_file s -> no_rule p s -> (forall e, has_extension s e -> exists st, nt_splitext f = (st, e)) -> source_type p f = (G_compile, "ClCompile").
Proof.
  intros p s f (e & l & H & W & I) N S. unfold source_type. destruct (S e H) as (st & ->). cbn [snd]. rewrite (no_rule_lookup p s e N H). rewrite (compile_lower e l W I). cbn [In] in I. destruct I as [<-|[<-|[<-|[<-|[<-|[]]]]]]; reflexivity.
Qed.

(** ** reading the item *)
Lemma unescape_none : forall s, has_char "%" s = false -> unescape s = s.
Proof.
  assert (G : forall n s, String.length s <= n -> has_char "%" s = false -> unescape s = s).
  { induction n as [|n IH]; intros s L H; [destruct s; [reflexivity|cbn in L; lia]|]. destruct s as [|a s]; [reflexivity|]. cbn [has_char] in H. destruct (Ascii.eqb a "%") eqn:E; [discriminate|]. cbn [String.length] in L. cbn [unescape]. rewrite E. rewrite (IH s) by (assumption || lia). destruct s as [|b [|c s]]; reflexivity. }
  intros s. exact (G _ s (le_n _)).
Qed.
Lemma semicolons_none : forall s, has_char ";" s = false -> semicolons s = [s].
Proof. induction s as [|a s IH]; intros H; [reflexivity|]. cbn [has_char semicolons] in *. destruct (Ascii.eqb a ";"); [discriminate|]. rewrite (IH H). reflexivity. Qed.
Lemma strip_first : forall a s, strip (String a s) = String a s -> is_space a = false.
Proof.
  intros a s E. destruct (is_space a) eqn:S; [|reflexivity]. exfalso. unfold strip in E. cbn [lstrip_ws] in E. rewrite S in E.
  assert (L : forall t, String.length (rstrip_ws t) <= String.length t) by (induction t as [|b t IH]; [cbn; lia|]; cbn [rstrip_ws]; destruct (rstrip_ws t); [destruct (is_space b); cbn; lia|cbn in *; lia]).
  assert (M : forall t, String.length (lstrip_ws t) <= String.length t) by (induction t as [|b t IH]; [cbn; lia|]; cbn [lstrip_ws]; destruct (is_space b); cbn in *; lia).
  apply (f_equal String.length) in E. pose proof (L (lstrip_ws s)). pose proof (M s). cbn in E. lia.
Qed.
Lemma rstrip_nonblank : forall t a, is_space a = false -> rstrip_ws (t ++ String a "") = t ++ String a "".
Proof.
  induction t as [|b t IH]; intros a S; cbn [append rstrip_ws]; [rewrite S; reflexivity|]. rewrite (IH a S). destruct (t ++ String a "") eqn:E; [destruct t; discriminate|reflexivity].
Qed.
Lemma rstrip_blank : forall t a, is_space a = true -> String.length (rstrip_ws (t ++ String a "")) < String.length (t ++ String a "").
Proof.
  induction t as [|b t IH]; intros a S; cbn [append rstrip_ws]; [rewrite S; cbn; lia|]. specialize (IH a S). destruct (rstrip_ws (t ++ String a "")); [destruct (is_space b); cbn [String.length] in *|cbn [String.length] in *]; try lia.
Qed.
Lemma strip_last : forall t a, strip (t ++ String a "") = t ++ String a "" -> is_space a = false.
Proof.
  intros t a E. destruct (is_space a) eqn:S; [|reflexivity]. exfalso. assert (F : exists b u, t ++ String a "" = String b u) by (destruct t; eexists; eexists; reflexivity). destruct F as (b & u & F). pose proof E as E'. rewrite F in E'. apply strip_first in E'. unfold strip in E. rewrite F in E. cbn [lstrip_ws] in E. rewrite E' in E. rewrite <- F in E. pose proof (rstrip_blank t a S) as L. rewrite E in L. lia.
Qed.
Lemma strip_ends : forall a s t z, String a s = t ++ String z "" -> is_space a = false -> is_space z = false -> strip (String a s) = String a s.
Proof. intros a s t z E A Z. unfold strip. cbn [lstrip_ws]. rewrite A, E. apply rstrip_nonblank. exact Z. Qed.
Lemma strip_join : forall l, l <> [] -> (forall x, In x l -> x <> "" /\ strip x = x) -> strip (join_bs l) = join_bs l.
Proof.
  intros l N H. assert (F : exists a s, join_bs l = String a s /\ is_space a = false).
  { destruct l as [|x l]; [contradiction|]. destruct (H x (or_introl eq_refl)) as [X S]. destruct x as [|a x]; [contradiction|]. apply strip_first in S. rewrite join_cons. destruct l; [exists a, x|exists a, (x ++ String "\" (join_bs (s :: l)))]; split; [reflexivity|exact S|reflexivity|exact S]. }
  assert (L : exists t z, join_bs l = t ++ String z "" /\ is_space z = false).
  { destruct (exists_last N) as (m & x & ->). destruct (H x) as [X S]; [apply in_or_app; right; left; reflexivity|]. destruct (last_char x) as [->|(t & z & ->)]; [contradiction|]. apply strip_last in S. rewrite join_snoc. destruct m; [exists t, z; split; [reflexivity|exact S]|]. exists (join_bs (s :: m) ++ String "\" t), z. split; [rewrite append_assoc; reflexivity|exact S]. }
  destruct F as (a & s & F & A), L as (t & z & L & Z). rewrite F. apply (strip_ends a s t z); [congruence|exact A|exact Z].
Qed.
Lemma reads_fix : forall p s, way p -> movable s -> literal s -> reads (fix_path p s) = [fix_path p s].
Proof.
  intros p s C M (L1 & L2 & _ & _ & _ & L3). rewrite (fix_movable p s C M). set (l := (pieces p ++ pieces s)%list). unfold reads.
  assert (A : forall c, c <> "."%char -> is_sep c = false -> has_char c s = false -> has_char c p = false -> has_char c (show (canon l)) = false).
  { intros c N S H H'. apply has_show; [intros ->; discriminate S|exact N|]. intros x I. apply in_app_or in I. destruct I as [I|I]; [exact (pieces_char c p x I H')|exact (pieces_char c s x I H)]. }
  assert (P : has_char ";" p = false /\ has_char "%" p = false /\ Forall (fun c => strip c = c) (pieces p)).
  { destruct C as [->|(_ & _ & _ & _ & (P1 & P2 & _ & _ & _ & P3))]; [repeat constructor|auto]. }
  destruct P as (P1 & P2 & P3).
  rewrite semicolons_none by (apply A; [discriminate|reflexivity|exact L1|exact P1]). cbn [map filter].
  assert (T : strip (show (canon l)) = show (canon l)).
  { unfold show. destruct (canon l) as [|x m] eqn:E; [reflexivity|]. rewrite <- E. apply strip_join; [rewrite E; discriminate|]. intros y I. destruct (canon_ok l (all_pieces_ok p s) y I) as (_ & _ & Y & _). split; [exact Y|]. destruct (canon_shape l) as (k & n & F & O). rewrite F in I. apply in_app_or in I. destruct I as [I|I]; [apply repeat_spec in I; subst y; reflexivity|].
    destruct (O y I) as (J & _ & _ & D). apply in_app_or in J. destruct J as [J|J]; [rewrite Forall_forall in P3; exact (P3 y J)|rewrite Forall_forall in L3; exact (L3 y J)]. }
  rewrite T. rewrite unescape_none by (apply A; [discriminate|reflexivity|exact L2|exact P2]). destruct (show_start l (all_pieces_ok p s)) as (N & _). destruct (String.eqb_spec (show (canon l)) ""); [contradiction|reflexivity].
Qed.

(** ** exactly one item *)
Lemma Forall2_split : forall {A B} (R : A -> B -> Prop) l1 x l2 m, Forall2 R (l1 ++ x :: l2) m -> exists m1 y m2, m = (m1 ++ y :: m2)%list /\ R x y /\ Forall2 R l1 m1 /\ Forall2 R l2 m2.
Proof.
  intros A B R l1 x l2. induction l1 as [|a l1 IH]; intros m F; cbn [app] in F; inversion F as [|? b ? m' H K]; subst.
  - exists [], b, m'. repeat split; auto.
  - destruct (IH _ K) as (m1 & y & m2 & -> & U & V & W). exists (b :: m1), y, m2. repeat split; auto.
Qed.
Lemma fix_not_dot : forall p s e, way p -> movable s -> has_extension s e -> fix_path p s <> ".".
Proof. intros p s e C M H E. destruct (splitext_fix p s e C M H) as (st & Q). rewrite E in Q. vm_compute in Q. injection Q as _ <-. destruct H as (d & n & x & _ & _ & _ & _ & _ & X). discriminate X. Qed.
Lemma item_include : forall p e f g it, item_of p e f = inl (g, it) -> include it = f.
Proof. intros p e f g it. unfold item_of. destruct (source_type p f). destruct (Nat.eqb _ _); [intros H; injection H as _ <-; reflexivity|]. destruct (excluded_in p e f); [|discriminate]. intros H. injection H as _ <-. reflexivity. Qed.
Lemma place_canon : forall p a b, same_place p a b -> canon (pieces (prefix p) ++ pieces a) = canon (pieces (prefix p) ++ pieces b).
Proof. intros p a b S. apply canon_eq; [intros x [I|I] ->; apply all_pieces_ok in I; destruct I as [_ I]; discriminate I|]. intros here. rewrite !walk_app. apply S. Qed.
Lemma gyp_other : forall p g s, gyp_name g -> source_file s -> ~ same_place p g s.
Proof.
  intros p g s (n & -> & G1 & G2 & G3) (e & l & H & W & I) S. apply place_canon in S. destruct (extension_pieces s e H) as (m & n' & x & P & -> & D & X & Y). rewrite P in S. destruct (dots_name n' x D) as (A & B & Z). rewrite app_assoc in S. rewrite (canon_snoc (pieces (prefix p) ++ m)) in S by assumption. rewrite (pieces_none _ G1 G2) in S.
  assert (U : n ++ ".gyp" <> "" /\ n ++ ".gyp" <> "." /\ n ++ ".gyp" <> "..") by (split; [|split]; intros E; apply (f_equal String.length) in E; rewrite slen_app in E; cbn in E; lia). destruct U as (U1 & U2 & U3).
  rewrite (canon_snoc _ _ U1 U2 U3) in S. apply app_inj_tail in S. destruct S as [_ S].
  assert (R : rsplit1 "." (n ++ ".gyp") = Some (n, "gyp")) by (apply rsplit1_Some; split; reflexivity). assert (R' : rsplit1 "." (n' ++ "." ++ x) = Some (n', x)) by (apply rsplit1_Some; split; [reflexivity|exact X]). rewrite S, R' in R. injection R as _ ->.
  pose proof (compile_lower _ _ W I) as K. vm_compute in K. subst l. cbn [In] in I. repeat (destruct I as [I|I]; [discriminate|]). exact I.
Qed.
Section Compiled.
Variables (cm : string -> string) (p : project) (items : list item) (customs : list custom).
Hypothesis (G : generate cm p = inl (items, customs)) (C : way (prefix p)) (R : Forall (fun r => rule_as_sources r = false) (rules p)).

(** What leads to the same file as [s] in the sets. *)
Lemma entry_same : forall s y e, relative s -> has_extension s e -> normalized_source (fix_path (prefix p) y) = fix_path (prefix p) s -> movable y /\ same_place p y s.
Proof.
  intros s y e S H E. pose proof (relative_movable s S) as M. destruct (entry (prefix p) y _ C (fix_relative _ s C S) E) as [D|[My F]]; [exfalso; exact (fix_not_dot _ s e C M H D)|]. split; [exact My|]. exact (proj1 (fix_same (prefix p) y s C My M) F).
Qed.
Lemma not_empty_same : forall s e, movable s -> has_extension s e -> ~ same_file "" s.
Proof.
  intros s e M H S. apply same_canon in S. destruct (extension_pieces s e H) as (m & n & x & P & -> & D & X & Y). rewrite P in S. destruct (dots_name n x D) as (A & B & Z). rewrite canon_snoc in S by assumption. change (canon (pieces "")) with (@nil string) in S. destruct (canon m); discriminate S.
Qed.
Lemma listed_place : forall s e x, relative s -> has_extension s e -> normalized_source (fix_path (prefix p) (normalized_source x)) = fix_path (prefix p) s -> bare x /\ has_char "$" x = false /\ same_place p x s.
Proof.
  intros s e x S H E. destruct (entry_same s _ e S H E) as (M & T). destruct (norm_back x M) as (B & D & F & T'). split; [exact B|]. split; [exact D|]. intros here. rewrite T'. apply T.
Qed.
Lemma not_excluded : forall s e, relative s -> has_extension s e -> one_spelling p s -> ~ taken p s -> ~ In (fix_path (prefix p) s) (map (fix_path (prefix p)) (e2 p)).
Proof.
  intros s e S H O T I. apply in_map_iff in I. destruct I as (y & E & I). assert (E' : normalized_source (fix_path (prefix p) y) = fix_path (prefix p) s) by (rewrite E; apply normalized_fix; assumption).
  apply e2_In in I; [|exact R]. destruct I as [I|(a & x & I & -> & J)].
  - destruct (entry_same s y e S H E') as (M & U). apply T. exists y. split; [apply local_movable; exact M|]. split; [exact U|]. left. exact I.
  - destruct (listed_place s e x S H E') as (B & D & U). apply T. exists x. split; [apply local_movable; split; [|split; assumption]; intros ->; exact (not_empty_same s e (relative_movable s S) H (O "" (or_introl eq_refl) U))|]. split; [exact U|]. right. left. exists a. auto.
Qed.
Lemma not_key : forall s e, relative s -> has_extension s e -> ~ taken p s -> ~ In (fix_path (prefix p) s) (keys p).
Proof.
  intros s e S H T I. apply in_map_iff in I. destruct I as (k & E & I). assert (E' : normalized_source (fix_path (prefix p) k) = fix_path (prefix p) s) by (rewrite E; apply normalized_fix; assumption).
  destruct (entry_same s k e S H E') as (M & U). apply T. exists k. split; [apply local_movable; exact M|]. split; [exact U|]. right. apply attached_keys in I. destruct I as [(a & I & [[N ->]|(l & N)])|I]; [left; exists a; auto|left; exists a; split; [exact I|left; rewrite N; left; reflexivity]|right; exact I].
Qed.

Lemma compiled : forall s, configurations p <> [] -> gyp_name (gyp_file p) -> meant p s -> relative s -> literal s -> source_file s -> no_rule p s -> one_spelling p s -> ~ taken p s ->
  exists pre it post, items = (pre ++ it :: post)%list /\ element it = "ClCompile" /\ excluded it = false /\
    (exists f, reads (include it) = [f] /\ forall here, leads here f = leads (leads here (prefix p)) s) /\
    forall it', In it' (pre ++ post) -> relative (include it') -> ~ same_file (include it') (include it).
Proof.
  intros s NC GN MT S L SF NR O T. destruct SF as (e & w & H & W & IW) eqn:SFE. pose proof (relative_movable s S) as M. set (F := fix_path (prefix p) s). destruct (generate_items cm p items customs G) as (l & gi & PL & FI & PI & _).
  pose proof (not_excluded s e S H O T) as NE. pose proof (not_key s e S H T) as NK. fold F in NE, NK. destruct (s2_sets p R) as (ND & IS).
  assert (I0 : In (normalized_source s) (s2 p)) by (apply IS; left; exists s; split; [reflexivity|left; exact MT]).
  assert (F0 : normalized_source (fix_path (prefix p) (normalized_source s)) = F) by (rewrite fix_normal by assumption; apply normalized_fix; assumption).
  (* only one source is that file *)
  assert (ONE : forall y, In y (s2 p) -> normalized_source (fix_path (prefix p) y) = F -> y = normalized_source s).
  { intros y I E. apply IS in I. destruct I as [(x & -> & GV)|[[_ ->]|I]].
    - destruct (listed_place s e x S H E) as (B & D & U). destruct GV as [MX|GV].
      + destruct M as (_ & DS & BS). apply norm_same; try assumption. apply O; [right; exact MX|exact U].
      + exfalso. apply T. exists x. split; [apply local_movable; split; [|split; assumption]; intros ->; exact (not_empty_same s e M H (O "" (or_introl eq_refl) U))|]. split; [exact U|]. right. destruct GV as [(a & Ia & J)|(c & Ic & J)]; [left; exists a; auto|right; exists c; auto].
    - exfalso. destruct (entry_same s _ e S H E) as (_ & U). exact (gyp_other _ _ s GN (ex_intro _ e (ex_intro _ w (conj H (conj W IW)))) U).
    - exfalso. destruct (entry_same s _ e S H E) as (My & U). apply T. exists y. split; [apply local_movable; exact My|]. split; [exact U|]. left. exact I. }
  assert (NF : ~ In F (fully p)) by (intros I; apply filter_In in I; exact (NE (proj1 I))).
  (* and it is once in the list *)
  apply in_split in I0. destruct I0 as (a & b & EQ). rewrite EQ in PL, ND, ONE. rewrite flat_map_app in PL. cbn [flat_map] in PL. rewrite F0 in PL. unfold kept at 2 in PL. apply mem_false in NF. rewrite NF in PL. cbn [app] in PL.
  assert (OUT : forall x, In x (flat_map (fun y => kept (fully p) (list_excluded p) (normalized_source (fix_path (prefix p) y))) a ++ flat_map (fun y => kept (fully p) (list_excluded p) (normalized_source (fix_path (prefix p) y))) b) -> x <> F /\ exists t, x = normalized_source t).
  { intros x I. rewrite <- flat_map_app in I. apply (proj1 (in_flat_map _ _ _)) in I. destruct I as (y & I & K). assert (X : x = normalized_source (fix_path (prefix p) y)) by (unfold kept in K; destruct (mem (normalized_source (fix_path (prefix p) y)) (fully p)); [destruct (list_excluded p); [|destruct K]|]; destruct K as [K|[]]; auto). split; [|exists (fix_path (prefix p) y); exact X].
    intros E. apply NoDup_remove_2 in ND. apply ND. rewrite <- (ONE y); [exact I|apply in_app_or in I; apply in_or_app; destruct I as [I|I]; [left; exact I|right; right; exact I]|congruence]. }
  assert (IL : In F l) by (apply (Permutation_in F (Permutation_sym PL)); apply in_or_app; right; left; reflexivity). apply in_split in IL. destruct IL as (l1 & l2 & ->).
  assert (PL' : Permutation (l1 ++ l2) (flat_map (fun y => kept (fully p) (list_excluded p) (normalized_source (fix_path (prefix p) y))) a ++ flat_map (fun y => kept (fully p) (list_excluded p) (normalized_source (fix_path (prefix p) y))) b)).
  { apply (Permutation_cons_inv (a := F)). rewrite !Permutation_middle. exact PL. }
  rewrite filter_app in FI. cbn [filter] in FI. apply mem_false in NK. rewrite NK in FI. cbn [negb] in FI. apply Forall2_split in FI. destruct FI as (g1 & gx & g2 & -> & IX & FA & FB).
  (* the item *)
  assert (NR' : ~ In F (rest p)) by (intros I; apply filter_In in I; exact (NE (proj1 I))). apply mem_false in NR'.
  assert (ST : source_type p F = (G_compile, "ClCompile")).
  { apply (source_compiled p s); [exists e, w; auto|exact NR|]. intros e' H'. exact (splitext_fix (prefix p) s e' C M H'). }
  assert (GX : exists it, gx = (G_compile, it) /\ element it = "ClCompile" /\ include it = F /\ excluded it = false).
  { unfold item_of, excluded_in in IX. rewrite NR', ST in IX. destruct (configurations p) as [|c cs]; [contradiction|]. cbn [length Nat.eqb] in IX. injection IX as <-. eexists. split; [reflexivity|]. repeat split. }
  destruct GX as (it & -> & EL & INC & EX).
  assert (II : In it items) by (apply (Permutation_in it (Permutation_sym PI)); rewrite map_app; apply in_or_app; right; left; reflexivity). apply in_split in II. destruct II as (pre & post & ->).
  exists pre, it, post. split; [reflexivity|]. split; [exact EL|]. split; [exact EX|]. split.
  - exists F. rewrite INC. split; [apply reads_fix; assumption|]. intros here. apply leads_fix; assumption.
  - intros it' I RI SI. rewrite INC in SI. assert (PI' : Permutation (pre ++ post) (map snd g1 ++ map snd g2)).
    { apply (Permutation_cons_inv (a := it)). rewrite !Permutation_middle. rewrite map_app in PI. exact PI. }
    apply (Permutation_in it' PI') in I. assert (J : In (include it') (l1 ++ l2)).
    { rewrite <- map_app in I. apply in_map_iff in I. destruct I as ([g x] & <- & I). cbn [snd] in *. assert (Z : forall fl gl, Forall2 (fun f x => item_of p (rest p) f = inl x) fl gl -> In (g, x) gl -> In (include x) fl).
      { clear. induction 1 as [|f y fl gl H K IH]; [intros []|]. intros [->|I]; [left; symmetry; exact (item_include _ _ _ _ _ H)|right; exact (IH I)]. }
      apply in_app_or in I. apply in_or_app. destruct I as [I|I]; [left; apply (Z _ _ FA) in I|right; apply (Z _ _ FB) in I]; apply filter_In in I; exact (proj1 I). }
    apply (Permutation_in _ PL') in J. destruct (OUT _ J) as (NQ & t & Q). apply NQ. rewrite Q in *.
    destruct (norm_back t (relative_movable _ RI)) as (_ & _ & E & _). rewrite E in *. unfold F in *. rewrite (fix_movable _ s C M) in *. f_equal.
    rewrite <- (canon_canon (pieces t)) by (apply piece_not_bs). rewrite <- (canon_canon (pieces (prefix p) ++ pieces s)) by (intros z Iz ->; apply all_pieces_ok in Iz; destruct Iz as [_ Iz]; discriminate Iz).
    apply canon_eq.
    + intros z Iz ->. destruct Iz as [Iz|Iz]; [destruct (canon_ok (pieces t) (pieces_no_sep t) _ Iz) as (_ & Z & _)|destruct (canon_ok _ (all_pieces_ok _ _) _ Iz) as (_ & Z & _)]; discriminate Z.
    + intros here. specialize (SI here). rewrite !walk_canon. rewrite (walk_pieces_show here (pieces t) (pieces_no_sep t)), (walk_pieces_show here _ (all_pieces_ok _ _)) in SI. exact SI.
Qed.
End Compiled.
