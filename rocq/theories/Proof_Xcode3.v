(** The files in the linker's flags. *)
From Verif Require Import Lib LibFacts Str StrFacts.
From Verif Require Model_Build Model_Path Proof_Parts Proof_Solution4 Proof_Vs.
From Verif Require Import Model_Writer Model_Xcode Spec_Flags Spec_Xcode.
Local Open Scope string_scope.

Lemma length_app : forall a b, String.length (a ++ b) = String.length a + String.length b. Proof. apply Proof_Parts.length_app. Qed.
Lemma drop_app : forall p r, substring (String.length p) (String.length (p ++ r) - String.length p) (p ++ r) = r.
Proof. intros p r. rewrite length_app. replace (String.length p + String.length r - String.length p) with (String.length r) by lia. apply Proof_Parts.substring_end. Qed.
Lemma take_app : forall p r, substring 0 (String.length p) (p ++ r) = p.
Proof. induction p as [|a p IH]; intros r; cbn; [destruct r; reflexivity|]. rewrite IH. reflexivity. Qed.
Lemma split_at : forall r k, k <= String.length r -> exists a b, r = a ++ b /\ String.length a = k.
Proof.
  induction r as [|x r IH]; intros k L.
  - exists "", "". cbn in L. split; [reflexivity|cbn; lia].
  - destruct k as [|k]; [exists "", (String x r); split; reflexivity|]. cbn in L. destruct (IH k ltac:(lia)) as (a & b & E & Q). exists (String x a), b. split; [cbn; congruence|cbn; congruence].
Qed.
Lemma app_longer : forall c a b d, a ++ b = c ++ d -> String.length c <= String.length a -> exists e, a = c ++ e /\ d = e ++ b.
Proof.
  induction c as [|x c IH]; intros a b d E L; [exists a; split; [reflexivity|symmetry; exact E]|]. destruct a as [|y a]; [cbn in L; lia|]. cbn in E, L. injection E as -> E. destruct (IH a b d E ltac:(lia)) as (e & -> & ->). exists e. split; reflexivity.
Qed.

(** ** Separators *)
Definition sep (a : ascii) : bool := Ascii.eqb a " " || Ascii.eqb a ",".
Fixpoint seps (s : string) : nat := match s with "" => 0 | String a s' => (if sep a then 1 else 0) + seps s' end.
Lemma seps_app : forall a b, seps (a ++ b) = seps a + seps b.
Proof. induction a as [|x a IH]; intros b; cbn [append seps]; [reflexivity|]. rewrite IH. lia. Qed.
Lemma word_seps : forall s, word s -> seps s = 0.
Proof.
  intros s ((_ & B) & C). induction s as [|x s IH]; [reflexivity|]. cbn [seps]. cbn [has_char] in C. apply orb_false_elim in C. destruct C as (C1 & C2). rewrite IH; [|intros a I; apply B; right; exact I|exact C2].
  assert (S : is_space x = false) by (apply B; left; reflexivity). unfold sep. destruct (Ascii.eqb_spec x " ") as [->|]; [discriminate S|]. destruct (Ascii.eqb_spec x ",") as [->|]; [discriminate C1|]. reflexivity.
Qed.
Lemma between_seps : forall x, between x -> seps x = 1. Proof. intros x [->| ->]; reflexivity. Qed.
Lemma first_some_In : forall A (f : nat -> option A) n x, first_some f n = Some x -> exists k, 1 <= k <= n /\ f k = Some x.
Proof. intros A f. induction n as [|n IH]; intros x H; [discriminate H|]. cbn [first_some] in H. destruct (f (S n)) eqn:E; [exists (S n); split; [lia|congruence]|]. destruct (IH x H) as (k & L & F). exists k. split; [lia|exact F]. Qed.
Lemma first_some_only : forall A (f : nat -> option A) n k x, 1 <= k <= n -> f k = Some x -> (forall j, k < j <= n -> f j = None) -> first_some f n = Some x.
Proof.
  intros A f. induction n as [|n IH]; intros k x L F O; [lia|]. cbn [first_some]. destruct (Nat.eq_dec k (S n)) as [->|N]; [rewrite F; reflexivity|]. rewrite (O (S n)) by lia. apply (IH k); [lia|exact F|]. intros j J. apply O. lia.
Qed.
Lemma run_length_le : forall s, run_length s <= String.length s.
Proof. induction s as [|x s IH]; cbn; [lia|]. destruct (is_space x); lia. Qed.
Lemma run_app : forall f r, (forall a, In a (list_ascii_of_string f) -> is_space a = false) -> run_length (f ++ r) = String.length f + run_length r.
Proof.
  induction f as [|x f IH]; intros r B; [reflexivity|]. cbn [append run_length String.length]. rewrite (B x (or_introl eq_refl)), IH; [reflexivity|]. intros a I. apply B. right. exact I.
Qed.
Lemma run_stops : forall r, stops r -> run_length r = 0.
Proof. intros r [->|(a & r' & -> & E)]; [reflexivity|]. cbn. rewrite E. reflexivity. Qed.
Lemma after_sep_between : forall x r, between x -> after_sep (x ++ r) = Some r. Proof. intros x r [->| ->]; reflexivity. Qed.
Lemma first_between : forall x r, between x -> substring 0 1 (x ++ r) = x. Proof. intros x r [->| ->]; destruct r; reflexivity. Qed.
Lemma match_seps : forall w done s x, match_words w done s = Some x -> w + 1 <= seps s.
Proof.
  induction w as [|w IH]; intros done s x H; cbn [match_words] in H; destruct (after_sep s) as [r|] eqn:A; try discriminate H; (assert (E : seps s = 1 + seps r);
    [destruct s as [|a s]; [discriminate A|]; cbn [after_sep] in A; cbn [seps]; unfold sep; destruct (Ascii.eqb a " " || Ascii.eqb a ","); [injection A as ->; reflexivity|discriminate A]|]).
  - lia.
  - apply first_some_In in H. destruct H as (k & L & F). apply IH in F. destruct (split_at r k) as (a & b & -> & Q); [pose proof (run_length_le r); lia|]. rewrite <- Q, drop_app in F. rewrite seps_app in E. lia.
Qed.
Lemma match_file : forall done x f r, between x -> blank_free f -> stops r -> match_words 0 done (x ++ f ++ r) = Some (done ++ x, f, r).
Proof.
  intros done x f r B (N & F) S. cbn [match_words]. rewrite after_sep_between, first_between by exact B. cbv zeta. rewrite run_app, run_stops, Nat.add_0_r by assumption. rewrite take_app, drop_app.
  destruct f; [congruence|reflexivity].
Qed.
(** A word, when what follows has just the separators that are needed. *)
Lemma match_word : forall w done x seg y rest res, between x -> word seg -> between y -> seps rest <= w ->
  match_words w ((done ++ x) ++ seg) (y ++ rest) = Some res -> match_words (S w) done (x ++ seg ++ y ++ rest) = Some res.
Proof.
  intros w done x seg y rest res X S Y L M. cbn [match_words]. rewrite after_sep_between, first_between by exact X. cbv zeta. apply first_some_only with (k := String.length seg).
  - destruct S as ((N & B) & _). rewrite run_app by exact B. destruct seg; [congruence|]. cbn [String.length]. lia.
  - rewrite take_app, drop_app. exact M.
  - intros j J. destruct (match_words w ((done ++ x) ++ substring 0 j (seg ++ y ++ rest)) (substring j (String.length (seg ++ y ++ rest) - j) (seg ++ y ++ rest))) as [z|] eqn:E; [exfalso|reflexivity].
    destruct (split_at (seg ++ y ++ rest) j) as (a & b & Q & K); [pose proof (run_length_le (seg ++ y ++ rest)); lia|]. rewrite Q in E. rewrite <- K, drop_app in E. apply match_seps in E.
    symmetry in Q. destruct (app_longer _ _ _ _ Q ltac:(lia)) as (e & -> & Q'). rewrite length_app in K. destruct e as [|c e]; [cbn in K; lia|].
    assert (R : rest = e ++ b) by (destruct Y as [->| ->]; cbn in Q'; injection Q' as _ Q'; exact Q'). rewrite R, seps_app in L. lia.
Qed.

(** ** The four flags *)
Lemma flag_here : forall flag words w rest, front w -> In flag ("-sectcreate" :: symbol_lists) -> match_flag flag words (w ++ flag ++ rest) = match_words words (w ++ flag) rest.
Proof.
  intros flag words w rest W I. unfold match_flag. assert (P : String.prefix "-Wl," (flag ++ rest) = false) by (cbn [In symbol_lists] in I; repeat (destruct I as [<-|I]; [reflexivity|]); destruct I).
  destruct W as [->| ->].
  - change ("" ++ flag ++ rest) with (flag ++ rest). rewrite P. rewrite (proj2 (Proof_Vs.prefix_iff flag (flag ++ rest)) (ex_intro _ rest eq_refl)), drop_app. reflexivity.
  - rewrite (proj2 (Proof_Vs.prefix_iff "-Wl," ("-Wl," ++ flag ++ rest)) (ex_intro _ _ eq_refl)). change 4 with (String.length "-Wl,"). rewrite drop_app.
    rewrite (proj2 (Proof_Vs.prefix_iff flag (flag ++ rest)) (ex_intro _ rest eq_refl)), drop_app. reflexivity.
Qed.
Lemma flag_there : forall flag flag' words w rest, front w -> In flag ("-sectcreate" :: symbol_lists) -> In flag' ("-sectcreate" :: symbol_lists) -> flag <> flag' -> match_flag flag words (w ++ flag' ++ rest) = None.
Proof.
  intros flag flag' words w rest W I I' N. cbn [In symbol_lists] in I, I'. destruct W as [->| ->]; repeat (destruct I as [<-|I]; [repeat (destruct I' as [<-|I']; [first [congruence|reflexivity]|]); destruct I'|]); destruct I.
Qed.
Lemma no_dash_L : forall w n r, front w -> In n ("-sectcreate" :: symbol_lists) -> String.prefix "-L" (w ++ n ++ r) = false.
Proof. intros w n r W I. cbn [In symbol_lists] in I. destruct W as [->| ->]; repeat (destruct I as [<-|I]; [reflexivity|]); destruct I. Qed.
Definition step (to_build : string -> string) (f : string) (fw : string * nat) : string := match match_flag (fst fw) (snd fw) f with Some (a, file, b) => a ++ to_build file ++ b | None => f end.
Lemma map_flag_eq : forall tb f, map_linker_flag tb f = let g := fold_left (step tb) file_flags f in if String.prefix "-L" g then "-L" ++ tb (substring 2 (String.length g - 2) g) else g.
Proof. reflexivity. Qed.
Lemma symbols_step : forall tb w n x file r, front w -> In n symbol_lists -> between x -> blank_free file -> stops r -> fold_left (step tb) file_flags (w ++ n ++ x ++ file ++ r) = w ++ n ++ x ++ tb file ++ r.
Proof.
  intros tb w n x file r W I X F S.
  assert (Hit : forall q, stops q -> In n ("-sectcreate" :: symbol_lists) -> step tb (w ++ n ++ x ++ file ++ q) (n, 0) = w ++ n ++ x ++ tb file ++ q).
  { intros q Q J. unfold step. cbn [fst snd]. rewrite flag_here by assumption. rewrite match_file by assumption. rewrite !append_assoc. reflexivity. }
  assert (Miss : forall flag k rest, In flag ("-sectcreate" :: symbol_lists) -> In n ("-sectcreate" :: symbol_lists) -> flag <> n -> step tb (w ++ n ++ rest) (flag, k) = w ++ n ++ rest).
  { intros flag k rest J J' N. unfold step. cbn [fst snd]. rewrite flag_there by assumption. reflexivity. }
  assert (J : In n ("-sectcreate" :: symbol_lists)) by (right; exact I). specialize (Hit r S J). unfold file_flags. cbn [fold_left].
  assert (M : forall flag k rest, In flag ("-sectcreate" :: symbol_lists) -> flag <> n -> step tb (w ++ n ++ rest) (flag, k) = w ++ n ++ rest) by (intros; apply Miss; assumption). clear Miss.
  assert (K : forall s, In s ["-exported_symbols_list"; "-unexported_symbols_list"; "-reexported_symbols_list"; "-sectcreate"] -> In s ("-sectcreate" :: symbol_lists)) by (intros s; cbn [In symbol_lists]; tauto).
  cbn [In symbol_lists] in I. destruct I as [<-|[<-|[<-|[]]]].
  - rewrite Hit. rewrite !M; [reflexivity|apply K; cbn [In]; tauto|discriminate|apply K; cbn [In]; tauto|discriminate|apply K; cbn [In]; tauto|discriminate].
  - rewrite (M "-exported_symbols_list"); [|apply K; cbn [In]; tauto|discriminate]. rewrite Hit. rewrite !M; [reflexivity|apply K; cbn [In]; tauto|discriminate|apply K; cbn [In]; tauto|discriminate].
  - rewrite (M "-exported_symbols_list"); [|apply K; cbn [In]; tauto|discriminate]. rewrite (M "-unexported_symbols_list"); [|apply K; cbn [In]; tauto|discriminate]. rewrite Hit. rewrite !M; [reflexivity|apply K; cbn [In]; tauto|discriminate].
Qed.
Lemma word_free : forall s, word s -> blank_free s. Proof. intros s (B & _). exact B. Qed.
Lemma section_match : forall done x seg y sect z file, between x -> word seg -> between y -> word sect -> between z -> word file ->
  match_words 2 done (x ++ seg ++ y ++ sect ++ z ++ file) = Some (done ++ x ++ seg ++ y ++ sect ++ z, file, "").
Proof.
  intros done x seg y sect z file X S Y T Z F. apply match_word; [exact X|exact S|exact Y|rewrite !seps_app, (word_seps _ T), (between_seps _ Z), (word_seps _ F); lia|].
  apply match_word; [exact Y|exact T|exact Z|rewrite (word_seps _ F); lia|]. rewrite <- (append_nil_r file) at 1. rewrite match_file; [|exact Z|apply word_free; exact F|left; reflexivity]. rewrite !append_assoc. reflexivity.
Qed.
Lemma section_step : forall tb w x seg y sect z file, front w -> between x -> word seg -> between y -> word sect -> between z -> word file ->
  fold_left (step tb) file_flags (w ++ "-sectcreate" ++ x ++ seg ++ y ++ sect ++ z ++ file) = w ++ "-sectcreate" ++ x ++ seg ++ y ++ sect ++ z ++ tb file.
Proof.
  intros tb w x seg y sect z file W X S Y T Z F.
  assert (M : forall flag, In flag symbol_lists -> step tb (w ++ "-sectcreate" ++ x ++ seg ++ y ++ sect ++ z ++ file) (flag, 0) = w ++ "-sectcreate" ++ x ++ seg ++ y ++ sect ++ z ++ file).
  { intros flag I. unfold step. cbn [fst snd]. rewrite flag_there; [reflexivity|exact W|right; exact I|left; reflexivity|]. cbn [In symbol_lists] in I. destruct I as [<-|[<-|[<-|[]]]]; discriminate. }
  unfold file_flags. cbn [fold_left]. rewrite !M by (cbn [In symbol_lists]; tauto). unfold step. cbn [fst snd]. rewrite flag_here; [|exact W|left; reflexivity]. rewrite section_match by assumption. rewrite !append_assoc, append_nil_r. reflexivity.
Qed.
Lemma other_step : forall tb f, (forall w n r, front w -> In n ("-sectcreate" :: symbol_lists) -> f <> w ++ n ++ r) -> fold_left (step tb) file_flags f = f.
Proof.
  intros tb f H. assert (M : forall flag k, In flag ("-sectcreate" :: symbol_lists) -> step tb f (flag, k) = f).
  { intros flag k I. unfold step. cbn [fst snd]. enough (X : match_flag flag k f = None) by (rewrite X; reflexivity). unfold match_flag. destruct (String.prefix "-Wl," f) eqn:E.
    - apply Proof_Vs.prefix_iff in E. destruct E as (s & E). rewrite E. change 4 with (String.length "-Wl,"). rewrite drop_app. destruct (String.prefix flag s) eqn:P; [|reflexivity]. apply Proof_Vs.prefix_iff in P. destruct P as (r & ->). destruct (H "-Wl," flag r (or_intror eq_refl) I E).
    - destruct (String.prefix flag f) eqn:P; [|reflexivity]. apply Proof_Vs.prefix_iff in P. destruct P as (r & P). destruct (H "" flag r (or_introl eq_refl) I P). }
  unfold file_flags. cbn [fold_left]. rewrite !M by (cbn [In symbol_lists]; tauto). reflexivity.
Qed.
Theorem map_flag : forall tb f g, from_build tb f g -> map_linker_flag tb f = g.
Proof.
  intros tb f g [w n x file r W I X F S|w x seg y sect z file W X S Y T Z F|d|f' H L]; rewrite map_flag_eq; cbv zeta.
  - rewrite symbols_step by assumption. rewrite no_dash_L; [reflexivity|exact W|right; exact I].
  - rewrite section_step by assumption. rewrite no_dash_L; [reflexivity|exact W|left; reflexivity].
  - rewrite other_step.
    + rewrite (proj2 (Proof_Vs.prefix_iff "-L" ("-L" ++ d)) (ex_intro _ d eq_refl)). change 2 with (String.length "-L"). rewrite drop_app. reflexivity.
    + intros w n r W I. cbn [In symbol_lists] in I. destruct W as [->| ->]; repeat (destruct I as [<-|I]; [discriminate|]); destruct I.
  - rewrite other_step by exact H. destruct (String.prefix "-L" f') eqn:E; [|reflexivity]. apply Proof_Vs.prefix_iff in E. destruct E as (d & E). destruct (L d E).
Qed.
