(** Proofs about installing development files: success, and what goes wrong. *)
From Coq Require Import ZArith NArith.
From Verif Require Import Lib LibFacts Str StrFacts Js Model_Value Spec_Vs Proof_Vs Model_Install Spec_Install Proof_Install Proof_Install2.
From Verif Require Import Proof_Merge2 Proof_Filter.
Local Open Scope string_scope.

(** ** Reading a proper list *)
Definition line_of (e : string * string) : string := fst e ++ "  " ++ snd e.
Fixpoint lines_text (es : list (string * string)) : string :=
  match es with
  | [] => ""
  | [e] => line_of e
  | e :: es' => line_of e ++ String newline_char (lines_text es')
  end.
Lemma shasums_cons : forall e es, shasums (e :: es) = (line_of e ++ String newline_char "") ++ shasums es.
Proof.
  intros e es. unfold line_of. cbn [shasums fold_right]. rewrite !append_assoc. reflexivity.
Qed.
Lemma lines_text_cons : forall e es, es <> [] -> lines_text (e :: es) = line_of e ++ String newline_char (lines_text es).
Proof. intros e [|e2 es] H; [congruence|reflexivity]. Qed.
Lemma shasums_eq : forall es, es <> [] -> shasums es = lines_text es ++ String newline_char "".
Proof.
  induction es as [|e es IH]; intros H; [congruence|]. rewrite shasums_cons. destruct es as [|e2 es]; [cbn; rewrite append_nil_r; reflexivity|]. rewrite IH, (lines_text_cons e) by discriminate. rewrite !append_assoc. reflexivity.
Qed.
Lemma trim_end_stop : forall s a w, js_space a = false -> white w -> trim_end (s ++ String a w) = s ++ String a "".
Proof.
  intros s a w Ha W. assert (TW : forall w, white w -> trim_end w = ""). { clear. induction w as [|b w IH]; intros W; [reflexivity|]. apply white_cons in W. destruct W as [Hb W]. cbn. rewrite (IH W), Hb. reflexivity. }
  induction s as [|b s IH]; cbn [append trim_end].
  - rewrite (TW w W), Ha. reflexivity.
  - rewrite IH. destruct (s ++ String a "") eqn:E; [destruct s; discriminate|reflexivity].
Qed.
Lemma last_char : forall s, s <> "" -> exists q a, s = q ++ String a "".
Proof. induction s as [|b s IH]; intros H; [congruence|]. destruct s as [|c s]; [exists "", b; reflexivity|]. destruct IH as (q & a & E); [discriminate|]. exists (String b q), a. rewrite E. reflexivity. Qed.
Lemma lines_text_ends : forall es, es <> [] -> proper_list es -> (exists a s, lines_text es = String a s /\ js_space a = false) /\ exists q a, lines_text es = q ++ String a "" /\ js_space a = false.
Proof.
  induction es as [|[sum name] es IH]; intros H P; [congruence|]. inversion P as [|? ? (N1 & W1 & N2 & W2 & _) P']; subst. cbn [fst snd] in *. split.
  - destruct sum as [|a sum]; [congruence|]. apply no_white_cons in W1. destruct es as [|e es]; [exists a, (sum ++ "  " ++ name)|exists a, (sum ++ "  " ++ name ++ String newline_char (lines_text (e :: es)))]; (split; [|exact (proj1 W1)]).
    + reflexivity.
    + rewrite (lines_text_cons (String a sum, name)) by discriminate. unfold line_of. cbn [fst snd append]. rewrite !append_assoc. reflexivity.
  - destruct es as [|e es].
    + destruct (last_char name N2) as (q & a & ->). exists (sum ++ "  " ++ q), a. split; [cbn; unfold line_of; cbn [fst snd]; rewrite !append_assoc; reflexivity|]. apply no_white_app in W2. destruct W2 as [_ W2]. apply no_white_cons in W2. exact (proj1 W2).
    + destruct IH as (_ & q & a & E & Ha); [discriminate|exact P'|]. exists (line_of (sum, name) ++ String newline_char q), a. rewrite lines_text_cons, E by discriminate. split; [rewrite append_assoc; reflexivity|exact Ha].
Qed.
Lemma trim_shasums : forall es, es <> [] -> proper_list es -> js_trim (shasums es) = lines_text es.
Proof.
  intros es H P. destruct (lines_text_ends es H P) as [(a & s & E & Ha) (q & b & E2 & Hb)]. rewrite shasums_eq by exact H. unfold js_trim.
  assert (T : trim_start (lines_text es ++ String newline_char "") = lines_text es ++ String newline_char "") by (rewrite E; cbn; rewrite Ha; reflexivity).
  rewrite T, E2. rewrite append_assoc. cbn [append]. rewrite trim_end_stop; [reflexivity|exact Hb|]. apply white_cons. split; [reflexivity|apply white_nil].
Qed.
Lemma split_line : forall l rest, has_char newline_char l = false -> split_lines (l ++ String newline_char rest) = l :: split_lines rest.
Proof.
  induction l as [|a l IH]; intros rest H; [reflexivity|]. cbn in H. destruct (Ascii.eqb a newline_char) eqn:E; try discriminate. cbn [append split_lines]. change ("010"%char) with newline_char. rewrite E, IH by exact H. reflexivity.
Qed.
Lemma split_last : forall l, has_char newline_char l = false -> split_lines l = [l].
Proof. induction l as [|a l IH]; intros H; [reflexivity|]. cbn in H. destruct (Ascii.eqb a newline_char) eqn:E; try discriminate. cbn [split_lines]. change ("010"%char) with newline_char. rewrite E, IH by exact H. reflexivity. Qed.
Lemma no_white_newline : forall s, no_white s -> has_char newline_char s = false.
Proof. intros s H. destruct (has_char newline_char s) eqn:E; [|reflexivity]. apply H in E. discriminate. Qed.
Lemma split_lines_text : forall es, es <> [] -> proper_list es -> split_lines (lines_text es) = map line_of es.
Proof.
  induction es as [|[sum name] es IH]; intros H P; [congruence|]. inversion P as [|? ? (N1 & W1 & N2 & W2 & _) P']; subst. cbn [fst snd] in *.
  assert (NL : has_char newline_char (line_of (sum, name)) = false) by (unfold line_of; cbn [fst snd]; rewrite !has_char_app, (no_white_newline _ W1), (no_white_newline _ W2); reflexivity).
  destruct es as [|e es]; [apply split_last, NL|]. rewrite lines_text_cons by discriminate. rewrite split_line by exact NL. rewrite IH; [reflexivity|discriminate|exact P'].
Qed.
Lemma words_from_word : forall x cur rest, no_white x -> words_from cur (x ++ rest) = words_from (cur ++ x) rest.
Proof.
  induction x as [|a x IH]; intros cur rest H; [rewrite append_nil_r; reflexivity|]. apply no_white_cons in H. destruct H as [Ha H]. cbn [append words_from]. rewrite Ha, IH by exact H. rewrite append_assoc. reflexivity.
Qed.
Lemma words_line : forall sum name, sum <> "" -> no_white sum -> name <> "" -> no_white name -> words (line_of (sum, name)) = [sum; name].
Proof.
  intros sum name N1 W1 N2 W2. unfold words, line_of. cbn [fst snd]. rewrite words_from_word by exact W1. cbn [append]. destruct sum as [|a sum]; [congruence|]. cbn [words_from append].
  change (js_space " ") with true. cbn iota. f_equal. rewrite <- (append_nil_r name) at 1. rewrite words_from_word by exact W2. destruct name; [congruence|reflexivity].
Qed.
Lemma strip_none : forall s, (forall t, s <> "./" ++ t) -> strip_dot_slash s = s.
Proof.
  intros [|a [|b t]] H; [reflexivity|reflexivity|]. cbn [strip_dot_slash]. destruct (Ascii.eqb_spec a ".") as [->|]; [|reflexivity]. destruct (Ascii.eqb_spec b "/") as [->|]; [|reflexivity]. exfalso. apply (H t). reflexivity.
Qed.
Lemma parse_lines : forall es acc, proper_list es -> parse_sums (map line_of es) acc = fold_left (fun a e => set_key (snd e) (fst e) a) es acc.
Proof.
  induction es as [|[sum name] es IH]; intros acc P; [reflexivity|]. inversion P as [|? ? (N1 & W1 & N2 & W2 & ND) P']; subst. cbn [fst snd] in *. cbn [map parse_sums fold_left fst snd]. rewrite words_line by assumption. rewrite strip_none by exact ND. apply IH, P'.
Qed.
Lemma expected_proper : forall es name sum, proper_list es -> lists_only es name sum -> assoc name (expected_sums (shasums es)) = Some sum.
Proof.
  intros es name sum P [HI HU]. assert (NE : es <> []) by (intros ->; destruct HI). unfold expected_sums. rewrite trim_shasums, split_lines_text, parse_lines by assumption.
  assert (G : forall es acc, (In (sum, name) es \/ assoc name acc = Some sum) -> (forall x, In (x, name) es -> x = sum) -> assoc name (fold_left (fun a e => set_key (snd e) (fst e) a) es acc) = Some sum).
  { clear. induction es as [|[s n] es IH]; intros acc H U; cbn [fold_left fst snd]; [destruct H as [[]|H]; exact H|]. apply IH; [|intros x HX; apply U; right; exact HX]. rewrite assoc_set. destruct (String.eqb_spec n name) as [->|N].
    - right. f_equal. apply U. left. reflexivity.
    - destruct H as [[[= -> ->]|H]|H]; [congruence|auto|auto]. }
  apply G; auto.
Qed.

(** ** Success *)
Section Success.
Variable sha : string -> string.
Variable untar : string -> list (string * string) * bool.

Lemma extract_into_smooth : forall w entries n s, (forall n, entry_fails w n = false) -> exists t s', extract_into w n entries s = (t, Some false, s').
Proof.
  intros w entries. induction entries as [|[p c] es IH]; intros n s H; cbn [extract_into]; [exists [], s; reflexivity|]. destruct (valid p); [|apply IH, H]. rewrite H.
  destruct (IH (S n) (Some (set_key p c (files s))) H) as (t & s' & E). eexists. exists s'. eapply bind_ok; [apply put_eq|exact E].
Qed.
Lemma extract_temp_smooth : forall w entries n t, (forall n, entry_fails w n = false) -> snd (extract_temp w n entries t) = false.
Proof. intros w entries. induction entries as [|[p c] es IH]; intros n t H; cbn [extract_temp]; [reflexivity|]. destruct (valid p); [rewrite H|]; apply IH, H. Qed.
Lemma extract_smooth : forall r w bytes s, (forall n, entry_fails w n = false) -> snd (untar bytes) = false -> exists t tmp s', extract untar r w bytes s = (t, Some (tmp, false), s').
Proof.
  intros r w bytes s H HW. unfold extract. destruct (untar bytes) as [entries warned]. cbn [snd] in HW. subst warned. destruct (win r).
  - pose proof (extract_temp_smooth w entries 0 [] H) as E. destruct (extract_temp w 0 entries []) as [tmp bad]. cbn [snd] in E. subst bad. exists [], tmp, s. reflexivity.
  - destruct (extract_into_smooth w entries 0 s H) as (t & s' & E). exists (t ++ [])%list, [], s'. eapply bind_ok; [exact E|reflexivity].
Qed.
Definition provides (r : request) (w : happening) (bytes : string) : Prop := match local_tarball r with Some b => b = bytes | None => tar_answer w = Answer 200 bytes true end.
Lemma get_tarball_smooth : forall r w bytes s, smooth w -> provides r w bytes -> sound_archive untar bytes -> exists t tmp s', get_tarball sha untar r w s = (t, Some (tmp, match local_tarball r with Some _ => [] | None => [(tar_name r, sha bytes)] end), s').
Proof.
  intros r w bytes s (HF & HE & _) HP [HW (p & c & (b & a & EA & _) & HH)]. unfold get_tarball, provides in *.
  assert (EV : existsb (fun e => valid (fst e)) (fst (untar bytes)) = true) by (apply existsb_exists; exists (p, c); split; [rewrite EA; apply in_or_app; right; left; reflexivity|apply valid_iff, HH]).
  destruct (extract_smooth r w bytes s HE HW) as (t & tmp & s' & E). destruct (local_tarball r) as [b'|].
  - subst b'. rewrite HF. eexists. exists tmp, s'. eapply bind_ok; [eapply bind_ok; [exact E|reflexivity]|]. cbn iota beta. rewrite EV. reflexivity.
  - rewrite HP. cbn [N.eqb Pos.eqb negb]. eexists. exists tmp, s'. eapply bind_ok; [eapply bind_ok; [exact E|reflexivity]|]. cbn iota beta. rewrite EV. reflexivity.
Qed.
Lemma copy_smooth : forall r w fs n s, smooth w -> exists t s', copy_files r w n fs s = (t, Some tt, s').
Proof.
  intros r w fs. induction fs as [|[p c] fs IH]; intros n s HS; cbn [copy_files]; [exists [], s; reflexivity|]. destruct HS as (HF & HE & HB). destruct (IH (S n) (Some (set_key p c (files s)))) as (t & s' & E); [repeat split; assumption|].
  eexists. exists s'. eapply bind_ok; [reflexivity|]. rewrite HB, HF. eapply bind_ok; [apply put_eq|exact E].
Qed.
Lemma go_smooth : forall r w want bytes lib es s, smooth w -> provides r w bytes -> sound_archive untar bytes -> sums_answer w = Answer 200 (shasums es) true -> proper_list es -> lists_only es (tar_name r) (sha bytes) ->
  (win r = true -> lib_answer w = Answer 200 lib true /\ lists_only es (lib_path r) (sha lib)) -> (want = false -> win r = true) -> exists t s', go sha untar r w want s = (t, Some Installed, s').
Proof.
  intros r w want bytes lib es s HS HP HA HT PL HL HW HWant. destruct (get_tarball_smooth r w bytes (Some (files s)) HS HP HA) as (t5 & tmp & s5 & E5). pose proof HS as (HF & HE & HB).
  assert (GS : get_sums w = Some (expected_sums (shasums es))) by (unfold get_sums; rewrite HT; reflexivity).
  pose proof (expected_proper es _ _ PL HL) as X1. set (sums := match local_tarball r with Some _ => [] | None => [(tar_name r, sha bytes)] end) in *.
  assert (SM : forall c, In c sums -> c = (tar_name r, sha bytes)) by (unfold sums; intros c HC; destruct (local_tarball r); [destruct HC|destruct HC as [<-|[]]; reflexivity]).
  assert (M1 : sums_match sums (expected_sums (shasums es)) = true) by (unfold sums_match; apply forallb_forall; intros c HC; rewrite (SM c HC); cbn [fst snd]; rewrite X1; apply String.eqb_refl).
  clearbody sums. unfold go. rewrite HF. destruct (win r) eqn:EW.
  - rewrite HF. destruct (HW eq_refl) as [HLib HLL]. pose proof (expected_proper es _ _ PL HLL) as X2.
    assert (GL : get_lib w = Some lib) by (unfold get_lib; rewrite !HF, HLib; reflexivity).
    assert (M2 : forall sums', (forall c, In c sums' -> c = (tar_name r, sha bytes)) -> sums_match (set_key (lib_path r) (sha lib) sums') (expected_sums (shasums es)) = true).
    { clear - X1 X2. intros sums' H. unfold sums_match. apply forallb_forall. intros [n x] HC.
      assert (D : (n, x) = (lib_path r, sha lib) \/ In (n, x) sums'). { clear - HC. induction sums' as [|[k v] l IH]; cbn [set_key] in HC; [destruct HC as [<-|[]]; auto|]. destruct (String.eqb_spec (lib_path r) k) as [_|_]; destruct HC as [HC|HC]; [left; symmetry; exact HC|right; right; exact HC|right; left; exact HC|]. destruct (IH HC); [auto|right; right; assumption]. }
      cbn [fst snd]. destruct D as [[= -> ->]|D]; [rewrite X2; apply String.eqb_refl|]. apply H in D. injection D as -> ->. rewrite X1. apply String.eqb_refl. }
    assert (TM : exists t tmp' sums' s1, (if want then get_tarball sha untar r w else ret ([], [])) (Some (files s)) = (t, Some (tmp', sums'), s1) /\ forall c, In c sums' -> c = (tar_name r, sha bytes)).
    { destruct want; [exists t5, tmp, sums, s5; auto|exists [], [], [], (Some (files s)); split; [reflexivity|intros c []]]. }
    destruct TM as (t6 & tmp' & sums' & s1 & E6 & H6).
    destruct (copy_smooth r w (list_order w (set_key "installVersion" (version_text r) (set_key (lib_file r) lib tmp'))) 0 s1 HS) as (t7 & s7 & E7).
    eexists. exists s7. eapply bind_ok; [reflexivity|]. eapply bind_ok; [reflexivity|]. eapply bind_ok; [exact E6|]. cbn iota beta. rewrite GL, GS, HF, HF, (M2 sums' H6). eapply bind_ok; [exact E7|reflexivity].
  - assert (EWant : want = true) by (destruct want; [reflexivity|symmetry; rewrite <- (HWant eq_refl); reflexivity]). subst want.
    assert (WV : write_version r w s5 = ([Some (set_key "installVersion" (substring 0 0 (version_text r)) (files s5)); Some (set_key "installVersion" (version_text r) (files s5))], Some tt, Some (set_key "installVersion" (version_text r) (files s5)))) by (unfold write_version; rewrite HF; apply put_eq).
    eexists. eexists. eapply bind_ok; [reflexivity|]. eapply bind_ok; [reflexivity|]. eapply bind_ok; [exact E5|]. cbn iota beta. destruct (local_tarball r).
    + eapply bind_ok; [exact WV|reflexivity].
    + rewrite GS. eapply bind_ok; [exact WV|]. cbn [snd]. rewrite M1. reflexivity.
Qed.
Lemma succeeds : forall r w bytes lib es s, smooth w -> provides r w bytes -> sound_archive untar bytes -> sums_answer w = Answer 200 (shasums es) true -> proper_list es -> lists_only es (tar_name r) (sha bytes) ->
  (win r = true -> lib_answer w = Answer 200 lib true /\ lists_only es (lib_path r) (sha lib)) ->
  (exists t s', install sha untar r w s = (t, Some Done, s')) \/ (ensure r = true /\ install sha untar r w s = ([], Some Skipped, s)).
Proof.
  intros r w bytes lib es s HS HP HA HT PL HL HW. pose proof HS as (HF & _).
  assert (G : forall want, (want = false -> win r = true) -> exists t s', go_or_roll_back sha untar r w want s = (t, Some Done, s')).
  { intros want HWant. destruct (go_smooth r w want bytes lib es s HS HP HA HT PL HL HW HWant) as (t & s' & E). exists t, s'. unfold go_or_roll_back. rewrite E. reflexivity. }
  unfold install. rewrite !HF. destruct (ensure r); [|left; apply G; discriminate]. destruct s as [d|]; [|left; apply G; discriminate]. destruct (version_of d <? needed r)%Z; [left; apply G; discriminate|]. destruct (win r) eqn:EW; [|right; auto].
  destruct (has_key _ d); [right; auto|]. left. apply G. reflexivity.
Qed.
End Success.

(** ** The lines and words are exactly those of the specification *)
Lemma split_lines_app : forall p rest, split_lines (p ++ String newline_char rest) = (split_lines p ++ split_lines rest)%list.
Proof.
  induction p as [|a p IH]; intros rest; [reflexivity|]. cbn [append split_lines]. rewrite IH. destruct (Ascii.eqb a "010"); [reflexivity|]. destruct (split_lines p) eqn:E; [exfalso; apply (split_lines_nonempty p E)|reflexivity].
Qed.
Lemma split_lines_complete : forall s l, a_line s l -> In l (split_lines s).
Proof.
  intros s l (pre & post & -> & HPre & HPost & NL).
  assert (H0 : In l (split_lines (l ++ post))) by (destruct HPost as [->|(q & ->)]; [rewrite append_nil_r, split_last by exact NL|rewrite split_line by exact NL]; left; reflexivity).
  destruct HPre as [->|(p & ->)]; [exact H0|]. rewrite append_assoc. cbn [append]. rewrite split_lines_app. apply in_or_app. right. exact H0.
Qed.
Lemma words_from_white : forall w rest, white w -> words_from "" (w ++ rest) = words_from "" rest.
Proof. induction w as [|a w IH]; intros rest W; [reflexivity|]. apply white_cons in W. destruct W as [Ha W]. cbn [append words_from]. rewrite Ha. apply IH, W. Qed.
Lemma words_from_stop : forall cur a rest, cur <> "" -> js_space a = true -> words_from cur (String a rest) = cur :: words_from "" rest.
Proof. intros cur a rest NC Ha. cbn [words_from]. rewrite Ha. destruct cur; [congruence|reflexivity]. Qed.
Lemma says_words : forall l name sum, says l name sum -> exists nm, words l = [sum; nm] /\ strip_dot_slash nm = name.
Proof.
  intros l name sum (w1 & w2 & w3 & dots & -> & W1 & W2 & N2 & W3 & NS & WS & NN & WN & HD). exists (dots ++ name). split.
  - unfold words. rewrite words_from_white by exact W1. rewrite words_from_word by exact WS. cbn [append]. destruct w2 as [|a w2]; [congruence|]. apply white_cons in W2. destruct W2 as [Ha W2]. cbn [append].
    rewrite words_from_stop by assumption. rewrite words_from_white by exact W2. rewrite words_from_word by exact WN. cbn [append]. destruct w3 as [|b w3].
    + destruct (dots ++ name) eqn:E; [congruence|]. reflexivity.
    + apply white_cons in W3. destruct W3 as [Hb W3]. rewrite words_from_stop by assumption. rewrite <- (append_nil_r w3), words_from_white by exact W3. reflexivity.
  - destruct HD as [->|[-> ND]]; [reflexivity|]. cbn [append]. apply strip_none, ND.
Qed.

(** ** What goes wrong *)
Module Story.
(** A digest, two archives and a list of checksums naming the first. *)
Definition sha (s : string) : string := s.
Definition header : string := "include/node/node.h".
Definition untar (s : string) : list (string * string) * bool :=
  if String.eqb s "good" then ([(header, "right"); ("include/node/v8.h", "right too")], false) else if String.eqb s "old" then ([(header, "old"); ("include/node/gone.h", "old")], false) else ([(header, "wrong")], false).
Definition text : string := shasums [("good", "node-v1-headers.tar.gz"); ("lib", "win-x64/node.lib"); ("lib", "win-x64/iojs.lib")].
Definition ask (e windows : bool) : request := {| ensure := e; local_tarball := None; win := windows; needed := 11; arch := "x64"; release_name := "node"; tar_name := "node-v1-headers.tar.gz"; lib_path := "win-x64/node.lib" |}.
Definition ask_iojs : request := {| ensure := true; local_tarball := None; win := true; needed := 11; arch := "x64"; release_name := "iojs"; tar_name := "node-v1-headers.tar.gz"; lib_path := "win-x64/iojs.lib" |}.
Definition serve (tarball sums : string) (b : nat -> bool) : happening := {| fails := fun _ => None; entry_fails := fun _ => false; partial := fun _ => 2; busy := b;
  tar_answer := Answer 200 tarball true; lib_answer := Answer 200 "lib" true; sums_answer := Answer 200 sums true; sums_first := true; list_order := fun d => d; rm_order := fun d => map fst d |}.
Definition quiet : nat -> bool := fun _ => false.
(** Files of a directory are listed with installVersion first. *)
Definition serve_sorted (tarball sums : string) : happening := {| fails := fun _ => None; entry_fails := fun _ => false; partial := fun _ => 2; busy := quiet;
  tar_answer := Answer 200 tarball true; lib_answer := Answer 200 "lib" true; sums_answer := Answer 200 sums true; sums_first := true; list_order := fun d => rev d; rm_order := fun d => map fst d |}.

Definition right_dir : dir := [(header, "right"); ("include/node/v8.h", "right too"); ("installVersion", "11" ++ String "010" "")].
Definition run (r : request) (w : happening) (s : state) := install sha untar r w s.
Definition trace_of (x : list state * option outcome * state) : list state := fst (fst x).
Definition result_of (x : list state * option outcome * state) : option outcome := snd (fst x).

Lemma proper : proper_list [("good", "node-v1-headers.tar.gz"); ("lib", "win-x64/node.lib"); ("lib", "win-x64/iojs.lib")].
Proof.
  assert (NW : forall s, (fix f (s : string) := match s with EmptyString => true | String a s' => negb (js_space a) && f s' end) s = true -> no_white s).
  { induction s as [|a s IH]; intros H; [apply no_white_nil|]. apply andb_prop in H. destruct H as [Ha H]. apply no_white_cons. split; [apply negb_true_iff, Ha|apply IH, H]. }
  repeat (constructor; [split; [discriminate|]; split; [apply NW; reflexivity|]; split; [discriminate|]; split; [apply NW; reflexivity|intros t X; cbn in X; discriminate]|]). constructor.
Qed.
Lemma only : lists_only [("good", "node-v1-headers.tar.gz"); ("lib", "win-x64/node.lib"); ("lib", "win-x64/iojs.lib")] "node-v1-headers.tar.gz" "good".
Proof. split; [left; reflexivity|]. intros x [[= <-]|[[= <-]|[[= <-]|[]]]]. reflexivity. Qed.
Lemma honest_serve : forall e windows tarball w, w = serve tarball text quiet \/ w = serve_sorted tarball text -> honest sha (eq "good") (ask e windows) w.
Proof.
  intros e windows tarball w Hw. split; [reflexivity|]. split; [destruct Hw as [->| ->]; (split; [reflexivity|intros d; cbn]); [reflexivity|apply Permutation_sym, Permutation_rev]|]. split; [discriminate|]. split; [|discriminate].
  intros tx bytes ET HL. assert (tx = text) by (destruct Hw as [->| ->]; symmetry; injection ET as ET; exact ET). subst tx. clear ET. destruct HL as (line & HLn & HS).
  unfold sha in HS. cbn [tar_name ask] in HS. apply split_lines_complete in HLn. apply says_words in HS. destruct HS as (nm & HW & HN). vm_compute in HLn. destruct HLn as [<-|[<-|[<-|[<-|[]]]]]; vm_compute in HW; try discriminate HW; injection HW as <- <-; vm_compute in HN; try discriminate HN. reflexivity.
Qed.

(** Killed between the writing of installVersion and the comparison. *)
Lemma killed_before_comparison : ~ (forall sha untar genuine r w s t o s' d, (forall d, s = Some d -> ~ marked d) -> honest sha genuine r w -> install sha untar r w s = (t, o, s') -> In (Some d) t -> marked d ->
  exists bytes, genuine bytes /\ holds_headers untar d bytes).
Proof.
  intros H. set (r := ask false false). set (w := serve "bad" text quiet).
  assert (E : exists d, In (Some d) (trace_of (run r w None)) /\ marked d /\ assoc header d = Some "wrong").
  { exists [(header, "wrong"); ("installVersion", "11" ++ String "010" "")]. split; [vm_compute; auto 6|]. split; [apply marked_iff; reflexivity|reflexivity]. }
  destruct E as (d & HI & HM & HA). destruct (H sha untar (eq "good") r w None (trace_of (run r w None)) (result_of (run r w None)) (snd (run r w None)) d) as (bytes & <- & _ & HH).
  - discriminate.
  - apply (honest_serve false false "bad"). auto.
  - vm_compute. reflexivity.
  - exact HI.
  - exact HM.
  - rewrite (HH header "right") in HA; [discriminate| |exists [], [("include/node/v8.h", "right too")]; split; [reflexivity|intros [X|[]]; discriminate]]. apply valid_iff. reflexivity.
Qed.
(** Killed while installing again over a complete directory, although the run
    would have succeeded. *)
Lemma killed_reinstalling : ~ (forall sha untar genuine r w s t s' d, (forall d, s = Some d -> exists bytes, genuine bytes /\ holds_headers untar d bytes) -> honest sha genuine r w -> install sha untar r w s = (t, Some Done, s') -> In (Some d) t -> marked d ->
  exists bytes, genuine bytes /\ holds_headers untar d bytes).
Proof.
  intros H. set (r := ask false false). set (w := serve "good" text quiet).
  assert (HD : forall c, (c = "right" <-> holds_headers untar [(header, c); ("include/node/v8.h", "right too"); ("installVersion", "11" ++ String "010" "")] "good")).
  { intros c. split.
    - intros ->. split; [split; [reflexivity|exists header, "right"; split; [exists [], [("include/node/v8.h", "right too")]; split; [reflexivity|intros [X|[]]; discriminate]|apply valid_iff; reflexivity]]|].
      intros p x _ (b & a & E & N). cbn in E. destruct b as [|[? ?] [|? [|? b]]]; cbn in E; [injection E as <- <- <-; reflexivity|injection E as _ _ <- <- <-; reflexivity|discriminate|discriminate].
    - intros [_ HH]. assert (X : Some c = Some "right"). { apply (HH header "right"); [apply valid_iff; reflexivity|]. exists [], [("include/node/v8.h", "right too")]. split; [reflexivity|intros [X|[]]; discriminate]. } congruence. }
  destruct (H sha untar (eq "good") r w (Some right_dir) (trace_of (run r w (Some right_dir))) (snd (run r w (Some right_dir))) [(header, "ri"); ("include/node/v8.h", "right too"); ("installVersion", "11" ++ String "010" "")]) as (bytes & <- & HH).
  - intros d [= <-]. exists "good". split; [reflexivity|]. apply HD. reflexivity.
  - apply (honest_serve false false "good"). auto.
  - vm_compute. reflexivity.
  - vm_compute. auto 6.
  - apply marked_iff. reflexivity.
  - apply HD in HH. discriminate.
Qed.
(** On Windows, killed while copying. *)
Lemma killed_copying : ~ (forall sha untar genuine r w t s' d, honest sha genuine r w -> install sha untar r w None = (t, Some Done, s') -> In (Some d) t -> marked d -> exists bytes, genuine bytes /\ holds_headers untar d bytes).
Proof.
  intros H. set (r := ask false true). set (w := serve_sorted "good" text).
  destruct (H sha untar (eq "good") r w (trace_of (run r w None)) (snd (run r w None)) [("installVersion", "11" ++ String "010" "")]) as (bytes & <- & _ & HH).
  - apply (honest_serve false true "good"). auto.
  - vm_compute. reflexivity.
  - vm_compute. auto 6.
  - apply marked_iff. reflexivity.
  - assert (X : None = Some "right"); [|discriminate]. apply (HH header "right"); [apply valid_iff; reflexivity|]. exists [], [("include/node/v8.h", "right too")]. split; [reflexivity|intros [X|[]]; discriminate].
Qed.
(** A failed installation removes the one that was there. *)
Lemma failure_removes : ~ (forall sha untar genuine r w s t s', honest sha genuine r w -> install sha untar r w s = (t, Some Threw, s') -> s' = s).
Proof.
  intros H. set (r := ask false false). set (w := serve "bad" text quiet). specialize (H sha untar (eq "good") r w (Some right_dir) (trace_of (run r w (Some right_dir))) None).
  assert (X : None = Some right_dir); [|discriminate]. apply H; [apply (honest_serve false false "bad"); auto|vm_compute; reflexivity].
Qed.
(** A checksum listed after a line that is not understood is not seen. *)
Lemma hidden_checksum : ~ (forall sha untar r w bytes text s t s', smooth w -> win r = false -> local_tarball r = None -> tar_answer w = Answer 200 bytes true -> sound_archive untar bytes -> sums_answer w = Answer 200 text true ->
  listed text (tar_name r) (sha bytes) -> (forall x, listed text (tar_name r) x -> x = sha bytes) -> install sha untar r w s <> (t, Some Threw, s')).
Proof.
  intros H. set (tx := "# checksums of the release" ++ String "010" "good  node-v1-headers.tar.gz" ++ String "010" ""). set (r := ask false false). set (w := serve "good" tx quiet).
  apply (H sha untar r w "good" tx None (trace_of (run r w None)) None).
  - split; [reflexivity|]. split; reflexivity.
  - reflexivity.
  - reflexivity.
  - reflexivity.
  - split; [reflexivity|]. exists header, "right". split; [exists [], [("include/node/v8.h", "right too")]; split; [reflexivity|intros [X|[]]; discriminate]|apply valid_iff; reflexivity].
  - reflexivity.
  - exists "good  node-v1-headers.tar.gz". split; [apply split_lines_sound; vm_compute; auto|]. exact (words_says "good  node-v1-headers.tar.gz" "good" "node-v1-headers.tar.gz" eq_refl).
  - intros x (line & HLn & HS). apply split_lines_complete in HLn. apply says_words in HS. destruct HS as (nm & HW & HN). vm_compute in HLn. destruct HLn as [<-|[<-|[<-|[]]]]; vm_compute in HW; try discriminate HW; injection HW as <- <-; vm_compute in HN; try discriminate HN. reflexivity.
  - vm_compute. reflexivity.
Qed.
(** Headers of an earlier installation that the new archive does not have stay. *)
Lemma left_overs : ~ (forall sha untar genuine r w s t d p c, honest sha genuine r w -> install sha untar r w s = (t, Some Done, Some d) -> is_header p -> assoc p d = Some c -> exists bytes, genuine bytes /\ archived untar bytes p c).
Proof.
  intros H. set (r := ask false false). set (w := serve "good" text quiet). set (s := Some [("include/node/gone.h", "old")]).
  destruct (H sha untar (eq "good") r w s (trace_of (run r w s)) (files (snd (run r w s))) "include/node/gone.h" "old") as (bytes & <- & b & a & E & N).
  - apply (honest_serve false false "good"). auto.
  - vm_compute. reflexivity.
  - apply valid_iff. reflexivity.
  - vm_compute. reflexivity.
  - cbn in E. destruct b as [|[? ?] [|? [|? b]]]; discriminate E.
Qed.
(** A file that is in use while it should be copied keeps its old content, and
    the run counts as complete. *)
Lemma busy_kept : ~ (forall sha untar r w s t s', install sha untar r w s = (t, Some Done, s') -> (forall d, Permutation (list_order w d) d) -> ensure r = true -> exists d bytes, s' = Some d /\ verified_source sha r w bytes /\ holds_headers untar d bytes).
Proof.
  intros H. set (r := ask true true). set (w := serve "good" text (fun n => match n with 0 => true | _ => false end)). set (s := Some [(header, "old")]).
  destruct (H sha untar r w s (trace_of (run r w s)) (snd (run r w s))) as (d & bytes & ED & (EB & _) & _ & HH).
  - vm_compute. reflexivity.
  - intros d. reflexivity.
  - reflexivity.
  - cbn in EB. injection EB as <-. vm_compute in ED. injection ED as <-.
    assert (X : Some "old" = Some "right"); [|discriminate]. apply (HH header "right"); [apply valid_iff; reflexivity|]. exists [], [("include/node/v8.h", "right too")]. split; [reflexivity|intros [X|[]]; discriminate].
Qed.
(** io.js on Windows is downloaded again every time. *)
Lemma iojs_again : ~ (forall sha untar r w s t d, smooth w -> ensure r = true -> (0 < needed r)%Z -> install sha untar r w s = (t, Some Done, Some d) -> exists s', install sha untar r w (Some d) = ([], Some Skipped, s')).
Proof.
  intros H. set (w := serve "good" text quiet). destruct (H sha untar ask_iojs w None (trace_of (run ask_iojs w None)) (files (snd (run ask_iojs w None)))) as (s' & E).
  - split; [reflexivity|]. split; reflexivity.
  - reflexivity.
  - reflexivity.
  - vm_compute. reflexivity.
  - vm_compute in E. discriminate.
Qed.
(** A history that ends with a marked directory: killed twice, then installed. *)
Lemma a_history : history sha untar (eq "good") (Some right_dir).
Proof.
  apply (killed_in_success sha untar (eq "good") (Some [(header, "wrong")]) (ask true false) (serve "good" text quiet) (trace_of (run (ask true false) (serve "good" text quiet) (Some [(header, "wrong")]))) (Some right_dir)).
  - apply (killed sha untar (eq "good") None (ask true false) (serve "bad" text quiet) (trace_of (run (ask true false) (serve "bad" text quiet) None)) (result_of (run (ask true false) (serve "bad" text quiet) None)) (snd (run (ask true false) (serve "bad" text quiet) None))).
    + apply fresh.
    + vm_compute. reflexivity.
    + vm_compute. auto 6.
    + intros X. apply marked_iff in X. vm_compute in X. discriminate.
  - apply (honest_serve true false "good"). auto.
  - reflexivity.
  - intros d [= <-] X. apply marked_iff in X. vm_compute in X. discriminate.
  - vm_compute. reflexivity.
  - vm_compute. auto 12.
Qed.
End Story.
