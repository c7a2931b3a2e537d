(** Proofs about the messages of node-gyp. *)
From Verif Require Import Lib Model_Log Spec_Log.
Local Open Scope string_scope.

(** ** levels *)
Definition canon (s : string) : option string := match assoc s level_map with Some (_, x) => Some (id x) | None => None end.
Ltac cases_of s := cbn [assoc level_map numbered levels id gravity canon plain_name colour_name];
  destruct (String.eqb s "silly") eqn:?E; [|destruct (String.eqb s "verbose") eqn:?E; [|destruct (String.eqb s "info") eqn:?E; [|destruct (String.eqb s "http") eqn:?E;
  [|destruct (String.eqb s "notice") eqn:?E; [|destruct (String.eqb s "warn") eqn:?E; [|destruct (String.eqb s "error") eqn:?E]]]]]].
Lemma level_index : forall s, (exists i x, assoc s level_map = Some (i, x) /\ gravity s = Some (S i) /\ id x = s) \/ (assoc s level_map = None /\ gravity s = None).
Proof.
  intros s. unfold gravity, level_map. cases_of s;
    try (left; eexists _, _; split; [reflexivity|split; [reflexivity|]]; cbn [id]; symmetry; apply String.eqb_eq; assumption).
  right. split; reflexivity.
Qed.
Lemma visible_seen : forall l lv k, current l = canon lv -> is_visible l k = seen lv k.
Proof.
  intros l lv k C. unfold is_visible, seen. rewrite C. unfold canon.
  destruct (level_index lv) as [(i & x & A & G & N)|(A & G)]; rewrite A, G; [|reflexivity]. rewrite N, A.
  destruct (level_index k) as [(j & y & A' & G' & N')|(A' & G')]; rewrite A', G'; reflexivity.
Qed.

(** ** the history *)
Definition shape (stream : option bool) (m : string * string * string) : list string :=
  write_log stream {| buffer := []; paused := false; current := Some "silly" |} m.
Lemma write_shape : forall stream l lv m, current l = canon lv -> write_log stream l m = if seen lv (fst (fst m)) then shape stream m else [].
Proof.
  intros stream l lv [[k p] t] C. unfold shape, write_log. cbn [fst]. rewrite (visible_seen _ _ k C). destruct stream as [tty|]; [|destruct (seen lv k); reflexivity].
  destruct (seen lv k) eqn:V; [|reflexivity].
  rewrite (visible_seen {| buffer := []; paused := false; current := Some "silly" |} "silly" k eq_refl). unfold seen in V |- *. destruct (gravity lv); [|discriminate]. destruct (gravity k) as [[|b]|] eqn:G; [|reflexivity|discriminate].
  destruct (level_index k) as [(i & x & _ & G' & _)|(_ & G')]; rewrite G in G'; discriminate.
Qed.
Lemma run_app : forall stream h l out, fold_left (step stream) h (l, out) =
  (fst (fold_left (step stream) h (l, [])), (out ++ snd (fold_left (step stream) h (l, [])))%list).
Proof.
  intros stream. induction h as [|e h IH]; intros l out; [cbn; rewrite app_nil_r; reflexivity|]. cbn [fold_left].
  destruct e as [lv p t|s]; cbn [step fst snd].
  - destruct (on_log stream l (lv, p, t)) as [l' w]. rewrite (IH l' (out ++ w)%list), (IH l' ([] ++ w)%list). cbn [fst snd app]. rewrite app_assoc. reflexivity.
  - apply IH.
Qed.
Definition flushed (stream : option bool) (at_ : option string) (b : list (string * string * string)) : list string :=
  match at_ with Some lv => flat_map (fun m => if seen lv (fst (fst m)) then shape stream m else []) b | None => [] end.
Lemma comes_out_free : forall lv h, comes_out false lv h = Some lv.
Proof. intros lv h. destruct h; reflexivity. Qed.
Lemma history : forall stream h l lv, current l = canon lv -> (paused l = false -> buffer l = []) ->
  snd (fold_left (step stream) h (l, [])) =
  (flushed stream (comes_out (paused l) lv h) (buffer l) ++ flat_map (shape stream) (expected (paused l) lv h))%list.
Proof.
  intros stream. induction h as [|e h IH]; intros l lv C B.
  - cbn [fold_left snd expected flat_map]. rewrite app_nil_r. destruct (paused l) eqn:P; [reflexivity|]. rewrite (B eq_refl). reflexivity.
  - destruct e as [k p t|s]; cbn [fold_left].
    + cbn [step fst snd]. unfold on_log. cbn [expected]. destruct (String.eqb k "pause") eqn:KP.
      * cbn [app]. rewrite IH with (lv := lv) by first [exact C|cbn; discriminate]. cbn [paused buffer]. apply String.eqb_eq in KP. subst k.
        destruct (paused l) eqn:P.
        -- cbn [comes_out]. reflexivity.
        -- rewrite (B eq_refl). destruct (comes_out true lv h); reflexivity.
      * destruct (String.eqb k "resume") eqn:KR.
        -- rewrite run_app. cbn [snd app]. rewrite IH with (lv := lv) by first [exact C|reflexivity]. cbn [paused buffer]. rewrite comes_out_free. cbn [flushed flat_map app].
           f_equal. rewrite (flat_map_ext _ (fun m => if seen lv (fst (fst m)) then shape stream m else [])) by (intros m; apply write_shape; exact C).
           destruct (paused l) eqn:P; [cbn [comes_out]; rewrite KR; reflexivity|]. rewrite (B eq_refl). reflexivity.
        -- destruct (paused l) eqn:P.
           ++ cbn [app]. rewrite IH with (lv := lv) by first [exact C|cbn; discriminate]. cbn [paused buffer comes_out]. rewrite KR. rewrite flat_map_app.
              destruct (comes_out true lv h) as [at_|] eqn:CO; cbn [flushed]; [|reflexivity].
              rewrite flat_map_app. cbn [flat_map fst]. rewrite app_nil_r, <- app_assoc. f_equal. f_equal. destruct (seen at_ k); [cbn; rewrite app_nil_r|]; reflexivity.
           ++ rewrite run_app. cbn [snd app]. rewrite IH with (lv := lv) by first [exact C|rewrite P; exact B]. rewrite P, !comes_out_free, (B eq_refl). cbn [flushed flat_map app].
              rewrite (write_shape _ _ _ _ C). cbn [fst]. rewrite flat_map_app. destruct (seen lv k); [cbn [flat_map]; rewrite app_nil_r|]; reflexivity.
    + cbn [step fst snd]. rewrite (IH (set_level s l) s eq_refl B). cbn [paused buffer set_level expected].
      destruct (paused l) eqn:P; [reflexivity|]. rewrite (B eq_refl), !comes_out_free. reflexivity.
Qed.
Lemma run_expected : forall stream h, run stream h = flat_map (shape stream) (expected true "info" h).
Proof.
  intros stream h. unfold run. rewrite (history stream h (new_logger stream) "info" eq_refl) by (cbn; discriminate).
  cbn [new_logger on_log set_level paused buffer fst snd String.eqb]. destruct (comes_out _ "info" h); reflexivity.
Qed.
Lemma expected_visible : forall h held lv m, In m (expected held lv h) -> exists at_, seen at_ (fst (fst m)) = true.
Proof.
  induction h as [|e h IH]; intros held lv m I; [destruct I|]. destruct e as [k p t|s]; cbn [expected] in I; [|eapply IH; exact I].
  destruct (String.eqb k "pause"); [eapply IH; exact I|]. destruct (String.eqb k "resume"); [eapply IH; exact I|].
  apply in_app_or in I. destruct I as [I|I]; [|eapply IH; exact I].
  destruct (comes_out held lv h) as [a|]; [|destruct I]. destruct (seen a k) eqn:S; [|destruct I]. destruct I as [<-|[]]. exists a. exact S.
Qed.
Lemma expected_sub : forall h held lv, sublist (expected held lv h) (messages h).
Proof.
  induction h as [|e h IH]; intros held lv; [constructor|]. destruct e as [k p t|s]; cbn [expected messages flat_map]; [|apply IH].
  destruct (String.eqb k "pause"); [apply IH|]. destruct (String.eqb k "resume"); [apply IH|]. cbn [orb app].
  destruct (comes_out held lv h) as [a|]; [|apply sub_drop, IH]. destruct (seen a k); [apply sub_keep, IH|apply sub_drop, IH].
Qed.

(** ** white space and lines *)
Lemma white_iff : forall c, white c = true <-> is_white c.
Proof.
  intros c. split.
  - destruct c as [[|] [|] [|] [|] [|] [|] [|] [|]]; intros W; try discriminate W; unfold is_white; cbn; tauto.
  - unfold is_white. intros I. repeat (destruct I as [<-|I]; [reflexivity|]). destruct I.
Qed.
Lemma app_eq_nil_s : forall a b, a ++ b = "" -> a = "" /\ b = "".
Proof. intros [|c a] b; cbn; [auto|discriminate]. Qed.
Lemma append_nil : forall s, s ++ "" = s.
Proof. induction s as [|c s IH]; [reflexivity|cbn; rewrite IH; reflexivity]. Qed.
Lemma append_assoc : forall a b c, (a ++ b) ++ c = a ++ b ++ c.
Proof. induction a as [|x a IH]; intros b c; [reflexivity|cbn; rewrite IH; reflexivity]. Qed.
Lemma trim_start_spec : forall s, exists a, s = a ++ trim_start s /\ Chars is_white a /\ (forall c y, trim_start s = String c y -> ~ is_white c).
Proof.
  induction s as [|c s (a & E & W & N)]; [exists ""; repeat split; discriminate|]. cbn [trim_start]. destruct (white c) eqn:C.
  - exists (String c a). split; [cbn; rewrite <- E; reflexivity|]. split; [split; [apply white_iff; exact C|exact W]|exact N].
  - exists "". split; [reflexivity|]. split; [exact Logic.I|]. intros d y [= <- <-] X. apply white_iff in X. congruence.
Qed.
Lemma trim_end_spec : forall s, exists b, s = trim_end s ++ b /\ Chars is_white b /\ (forall c y, trim_end s = y ++ String c "" -> ~ is_white c) /\
  (forall c y, trim_end s = String c y -> exists y', s = String c y').
Proof.
  induction s as [|c s (b & E & W & N & F)]; [exists ""; cbn; repeat split; try discriminate; intros c [|d y]; discriminate|]. cbn [trim_end]. destruct (trim_end s) as [|d t] eqn:T.
  - destruct (white c) eqn:C.
    + exists (String c b). split; [cbn in *; rewrite <- E; reflexivity|]. split; [split; [apply white_iff; exact C|exact W]|]. split; [intros x [|z y]; discriminate|discriminate].
    + exists b. split; [cbn in *; rewrite <- E; reflexivity|]. split; [exact W|]. split.
      * intros x [|z y] Q; cbn in Q; [injection Q as <-; intros X; apply white_iff in X; congruence|injection Q as _ Q; destruct y; discriminate].
      * intros x y [= <- _]. eauto.
  - exists b. split; [cbn in *; rewrite <- E; reflexivity|]. split; [exact W|]. split.
    + intros x [|z y] Q; cbn in Q; [discriminate|injection Q as _ Q; eapply N; exact Q].
    + intros x y [= <- _]. eauto.
Qed.
Lemma trim_stripped : forall s, stripped s (trim s).
Proof.
  intros s. destruct (trim_start_spec s) as (a & E & W & N). destruct (trim_end_spec (trim_start s)) as (b & E' & W' & N' & F').
  exists a, b. unfold trim. rewrite <- E'. repeat split; try assumption. intros c y Q. destruct (F' c y Q) as (y' & Q'). exact (N c y' Q').
Qed.
Lemma chars_app : forall P a b, Chars P (a ++ b) <-> Chars P a /\ Chars P b.
Proof. intros P a b. induction a as [|c a IH]; cbn; tauto. Qed.
Lemma trim_start_id : forall s, (forall c y, s = String c y -> ~ is_white c) -> trim_start s = s.
Proof. intros [|c s] H; [reflexivity|]. cbn. destruct (white c) eqn:W; [apply white_iff in W; destruct (H c s eq_refl W)|reflexivity]. Qed.
Lemma trim_end_id : forall s, (forall c y, s = y ++ String c "" -> ~ is_white c) -> trim_end s = s.
Proof.
  induction s as [|c s IH]; intros H; [reflexivity|]. cbn [trim_end]. rewrite IH by (intros d y ->; apply (H d (String c y)); reflexivity).
  destruct s as [|d s]; [|reflexivity]. destruct (white c) eqn:W; [apply white_iff in W; destruct (H c "" eq_refl W)|reflexivity].
Qed.
(** A trailing return is white space. *)
Lemma trim_end_white : forall s c, white c = true -> trim_end (s ++ String c "") = trim_end s.
Proof. induction s as [|d s IH]; intros c W; cbn; [rewrite W; reflexivity|]. rewrite IH by exact W. reflexivity. Qed.
Lemma trim_start_app : forall s c, white c = true -> trim_start (s ++ String c "") = trim_start s ++ String c "" \/ trim_start s = "" /\ trim_start (s ++ String c "") = "".
Proof.
  induction s as [|d s IH]; intros c W; [right; cbn; rewrite W; auto|]. cbn [append trim_start]. destruct (white d); [apply IH; exact W|left; reflexivity].
Qed.
Lemma trim_white : forall s c, white c = true -> trim (s ++ String c "") = trim s.
Proof.
  intros s c W. unfold trim. destruct (trim_start_app s c W) as [->|(-> & ->)]; [apply trim_end_white; exact W|reflexivity].
Qed.
Definition nl : string := String newline "".
Lemma concat_cons : forall sep x l, l <> [] -> String.concat sep (x :: l) = x ++ sep ++ String.concat sep l.
Proof. intros sep x [|y l] H; [destruct (H eq_refl)|reflexivity]. Qed.
Lemma split_some : forall s, split_lines s <> [].
Proof.
  intros [|c [|d s]]; cbn [split_lines]; [discriminate| |].
  - destruct (Ascii.eqb c newline); discriminate.
  - destruct (Ascii.eqb c newline); [discriminate|]. destruct (_ && _); [discriminate|]. match goal with |- match ?x with [] => _ | _ :: _ => _ end <> _ => destruct x; discriminate end.
Qed.
(** The lines with their returns. *)
Fixpoint raw (s : string) : list string :=
  match s with
  | EmptyString => [""]
  | String c s' => if Ascii.eqb c newline then "" :: raw s' else match raw s' with x :: l => String c x :: l | [] => [String c ""] end
  end.
Lemma raw_some : forall s, raw s <> [].
Proof. intros [|c s]; cbn [raw]; [discriminate|]. destruct (Ascii.eqb c newline); [discriminate|destruct (raw s); discriminate]. Qed.
Lemma raw_lines : forall s, lines_of s (raw s).
Proof.
  induction s as [|c s (E & N & F)]; [repeat split; [discriminate|repeat constructor]|]. cbn [raw]. destruct (Ascii.eqb c newline) eqn:C.
  - apply Ascii.eqb_eq in C. subst c. split; [rewrite concat_cons by exact N; cbn; f_equal; exact E|]. split; [discriminate|constructor; [exact Logic.I|exact F]].
  - destruct (raw s) as [|x l]; [destruct (N eq_refl)|]. split; [destruct l; cbn in *; rewrite E; reflexivity|]. split; [discriminate|]. inversion F; subst. constructor; [|assumption].
    split; [|assumption]. apply Ascii.eqb_neq in C. exact C.
Qed.
Definition same_but_return (x y : string) : Prop := y = x \/ y = x ++ String return_ "".
Lemma split_raw : forall n s, (String.length s <= n)%nat -> Forall2 same_but_return (split_lines s) (raw s).
Proof.
  induction n as [|n IH]; intros s H; [destruct s; [repeat constructor|cbn in H; lia]|].
  destruct s as [|c s]; [repeat constructor|]. cbn in H. cbn [split_lines raw]. destruct (Ascii.eqb c newline) eqn:C.
  - constructor; [left; reflexivity|apply IH; lia].
  - destruct s as [|d s]; [repeat constructor|]. destruct (Ascii.eqb c return_ && Ascii.eqb d newline) eqn:CR.
    + apply andb_true_iff in CR. destruct CR as (C1 & C2). apply Ascii.eqb_eq in C1. cbn [raw]. rewrite C2. constructor; [right; subst c; reflexivity|apply IH; cbn in H; lia].
    + assert (K := IH (String d s) ltac:(lia)). destruct (raw (String d s)) as [|x l] eqn:R; [destruct (raw_some _ R)|].
      destruct (split_lines (String d s)) as [|y l']; inversion K as [|? ? ? ? Q Q2]; subst. constructor; [|exact Q2]. destruct Q as [->| ->]; [left|right]; reflexivity.
Qed.
Lemma split_trim : forall s, Forall2 stripped (raw s) (map trim (split_lines s)).
Proof.
  intros s. assert (K := split_raw _ s (le_n _)). induction K as [|x y l l' Q K IH]; [constructor|]. cbn [map]. constructor; [|exact IH].
  destruct Q as [->| ->]; [apply trim_stripped|]. rewrite <- (trim_white x return_) by reflexivity. apply trim_stripped.
Qed.

(** ** the shape of a message *)
Lemma neat_ends : forall p, neat p -> (forall c y, p = y ++ String c "" -> ~ is_white c).
Proof. intros p (a & b & _ & _ & _ & _ & H). exact H. Qed.
Lemma last_app : forall a b y (c : ascii), b <> "" -> a ++ b = y ++ String c "" -> exists z, b = z ++ String c "".
Proof.
  induction a as [|x a IH]; intros b y c B E; [exists y; exact E|]. cbn in E. destruct y as [|z y]; cbn in E.
  - injection E as _ E. destruct a; cbn in E; [destruct (B E)|discriminate].
  - injection E as _ E. exact (IH b y c B E).
Qed.
Lemma trim_head : forall s, (forall c y, s = String c y -> ~ is_white c) -> (forall c y, s = y ++ String c "" -> ~ is_white c) -> trim s = s.
Proof. intros s A B. unfold trim. rewrite (trim_start_id _ A). apply trim_end_id. exact B. Qed.
Lemma lines_out : forall h bs, bs <> [] ->
  String.concat nl (map (fun b => h ++ b) bs) ++ nl = String.concat "" (map (fun b => h ++ b ++ nl) bs).
Proof.
  intros h. induction bs as [|b bs IH]; intros N; [destruct (N eq_refl)|]. destruct bs as [|b' bs].
  - cbn [map String.concat]. rewrite append_assoc. reflexivity.
  - change (map (fun b => h ++ b) (b :: b' :: bs)) with ((h ++ b) :: map (fun b => h ++ b) (b' :: bs)). change (map (fun b => h ++ b ++ nl) (b :: b' :: bs)) with ((h ++ b ++ nl) :: map (fun b => h ++ b ++ nl) (b' :: bs)).
    rewrite (concat_cons nl), (concat_cons "") by discriminate. rewrite <- IH by discriminate. change ("" ++ (String.concat nl (map (fun b => h ++ b) (b' :: bs)) ++ nl)) with (String.concat nl (map (fun b => h ++ b) (b' :: bs)) ++ nl).
    rewrite !append_assoc. reflexivity.
Qed.
Definition parts_of (tty : bool) (k p : string) : option string :=
  match assoc k level_map with
  | None => None
  | Some (_, x) =>
    let parts := [color tty "gyp" {| fg := "white"; bg := "black"; inverse := false |}; color tty (if String.eqb (display x) "" then id x else display x) (look x)] in
    let parts := if String.eqb p "" then parts else (parts ++ [color tty p {| fg := "magenta"; bg := ""; inverse := false |}])%list in
    Some (trim (String.concat " " parts) ++ " ")
  end.
Lemma not_white : forall c, white c = false -> ~ is_white c.
Proof. intros c H X. apply white_iff in X. congruence. Qed.
Ltac ends H := first [ discriminate H
  | match type of H with
    | ?s = ?y ++ String ?c "" => destruct y as [|? y]; cbn [append] in H; [injection H as H; try subst c; apply not_white; reflexivity|injection H as _ H; ends H]
    end ].
Lemma head_trim : forall a b, (exists c s, a = String c s /\ white c = false) -> (exists c s, b = s ++ String c "" /\ white c = false) -> trim (a ++ b) = a ++ b.
Proof.
  intros a b (c & s & -> & A) (d & t & -> & B). apply trim_head.
  - intros x y [= <- _]. apply not_white. exact A.
  - intros x y E. destruct (last_app (String c s) (t ++ String d "") y x) as (z & Z); [destruct t; discriminate|exact E|]. apply not_white.
    assert (d = x) as <-; [|exact B]. clear -Z. revert z Z. induction t as [|e t IH]; intros [|f z] Z; cbn in Z.
    + congruence.
    + injection Z as _ Z. destruct z; discriminate.
    + injection Z as _ Z. destruct t; discriminate.
    + injection Z as _ Z. exact (IH _ Z).
Qed.
Lemma last_char : forall p, p <> "" -> exists c s, p = s ++ String c "".
Proof. induction p as [|c p IH]; intros N; [destruct (N eq_refl)|]. destruct p as [|d p]; [exists c, ""; reflexivity|]. destruct IH as (e & s & ->); [discriminate|]. exists e, (String c s). reflexivity. Qed.
Lemma head_parts : forall tty k p, neat p -> parts_of tty k p = head_of tty k p.
Proof.
  intros tty k p NP. unfold parts_of, head_of.
  assert (P : forall a, p <> "" -> (exists c s, a = String c s /\ white c = false) -> trim (a ++ p) = a ++ p).
  { intros a N A. apply head_trim; [exact A|]. destruct (last_char p N) as (c & s & ->). exists c, s. split; [reflexivity|].
    destruct (white c) eqn:W; [|reflexivity]. apply white_iff in W. destruct (neat_ends _ NP c s eq_refl W). }
  assert (Q : forall a, (exists c s, a = String c s /\ white c = false) -> trim (a ++ wrap p ["35"]) = a ++ wrap p ["35"]).
  { intros a A. apply head_trim; [exact A|]. exists "m"%char, (String esc ("[" ++ "35" ++ "m" ++ p ++ String esc "[0")). split; [|reflexivity].
    unfold wrap. cbn [append String.concat]. do 5 f_equal. rewrite append_assoc. reflexivity. }
  unfold level_map, plain_name, colour_name. destruct (String.eqb p "") eqn:PE.
  - destruct tty; cases_of k; reflexivity.
  - apply String.eqb_neq in PE.
    destruct tty; cases_of k; try reflexivity; cbn [id display look color app String.eqb Ascii.eqb Bool.eqb String.concat]; f_equal;
      match goal with
         | |- trim (?x ++ " " ++ ?y ++ " " ++ p) ++ " " = _ => rewrite <- (append_assoc y), <- (append_assoc " "), <- (append_assoc x), (P _ PE) by (eexists _, _; split; reflexivity)
         | |- trim (?x ++ " " ++ ?y ++ " " ++ ?z) ++ " " = _ => change z with (wrap p ["35"]); rewrite <- (append_assoc y), <- (append_assoc " "), <- (append_assoc x), Q by (eexists _, _; split; reflexivity)
         end; cbn [append]; rewrite ?append_assoc; reflexivity.
Qed.
Lemma shape_looks : forall tty k p t, (exists at_, seen at_ k = true) -> neat p -> exists w, shape (Some tty) (k, p, t) = [w] /\ looks tty (k, p, t) w.
Proof.
  intros tty k p t (at_ & V) NP. unfold shape, write_log. rewrite (visible_seen {| buffer := []; paused := false; current := Some "silly" |} "silly" k eq_refl).
  unfold seen in V |- *. destruct (gravity at_); [|discriminate]. destruct (level_index k) as [(i & x & A & G & N)|(A & G)]; rewrite G in *; [|discriminate].
  cbn [gravity assoc String.eqb Ascii.eqb Bool.eqb Nat.leb]. rewrite A.
  assert (H := head_parts tty k p NP). unfold parts_of in H. rewrite A in H. cbv zeta. eexists. split; [reflexivity|].
  match type of H with Some ?h = _ => set (hd := h) in * end. exists hd, (raw t), (map trim (split_lines t)). split; [symmetry; exact H|].
  split; [apply raw_lines|]. split; [apply split_trim|]. rewrite <- (lines_out hd) by (intros E; apply map_eq_nil in E; exact (split_some _ E)). rewrite map_map. reflexivity.
Qed.

(** ** theorems *)
Lemma messages_in : forall h k p t, In (k, p, t) (messages h) -> In (Log k p t) h.
Proof.
  intros h k p t I. unfold messages in I. apply in_flat_map in I. destruct I as ([k' p' t'|s] & E & I); [|destruct I]. destruct (_ || _); [destruct I|]. destruct I as [[= -> -> ->]|[]]. exact E.
Qed.
Lemma sublist_in : forall A (l l' : list A), sublist l l' -> forall x, In x l -> In x l'.
Proof. induction 1; intros y I; [exact I|destruct I as [->|I]; [left; reflexivity|right; auto]|right; auto]. Qed.
Lemma printed : forall tty h, neat_prefixes h -> Forall2 (looks tty) (expected true "info" h) (run (Some tty) h).
Proof.
  intros tty h NP. rewrite run_expected.
  assert (A : forall m, In m (expected true "info" h) -> exists w, shape (Some tty) m = [w] /\ looks tty m w).
  { intros [[k p] t] I. apply shape_looks; [destruct (expected_visible _ _ _ _ I) as (a & S); eauto|]. apply (NP k p t), messages_in, (sublist_in _ _ _ (expected_sub h true "info")). exact I. }
  induction (expected true "info" h) as [|m l IH]; [constructor|]. cbn [flat_map]. destruct (A m (or_introl eq_refl)) as (w & -> & L). cbn [app]. constructor; [exact L|]. apply IH. intros m' I. apply A. right. exact I.
Qed.
Lemma quiet : forall h, run None h = [].
Proof.
  intros h. rewrite run_expected. induction (expected true "info" h) as [|[[k p] t] l IH]; [reflexivity|exact IH].
Qed.
Lemma expected_later : forall evs lv ms, (forall e, In e evs -> exists s, e = Level s) ->
  expected true lv (evs ++ Log "resume" "" "" :: ms) = expected false (fold_left (fun lv e => match e with Level s => s | _ => lv end) evs lv) ms.
Proof.
  induction evs as [|e evs IH]; intros lv ms H; [reflexivity|]. destruct (H e (or_introl eq_refl)) as (s & ->). cbn [app expected fold_left]. apply IH. intros e I. apply H. right. exact I.
Qed.
Lemma expected_free : forall ms lv, (forall e, In e ms -> exists k p t, e = Log k p t /\ k <> "pause" /\ k <> "resume") ->
  expected false lv ms = filter (fun m => seen lv (fst (fst m))) (messages ms).
Proof.
  induction ms as [|e ms IH]; intros lv H; [reflexivity|]. destruct (H e (or_introl eq_refl)) as (k & p & t & -> & K1 & K2). apply String.eqb_neq in K1, K2.
  cbn [expected messages flat_map]. rewrite K1, K2, comes_out_free. cbn [orb app filter fst]. rewrite IH by (intros e I; apply H; right; exact I). unfold messages. destruct (seen lv k); reflexivity.
Qed.
Lemma level_env : forall env lv, NoDup (map fst env) ->
  fold_left (fun lv e => match e with Level s => s | Log _ _ _ => lv end) (flat_map (fun kv => if String.eqb (fst kv) "npm_config_loglevel" then [Level (snd kv)] else []) env) lv =
  match assoc "npm_config_loglevel" env with Some s => s | None => lv end.
Proof.
  induction env as [|[k v] env IH]; intros lv N; [reflexivity|]. inversion N as [|? ? N1 N2]; subst. cbn [flat_map fst snd assoc]. rewrite (String.eqb_sym "npm_config_loglevel" k).
  destruct (String.eqb k "npm_config_loglevel") eqn:E; cbn [app fold_left]; rewrite IH by exact N2; [|reflexivity].
  apply String.eqb_eq in E. subst k. destruct (assoc "npm_config_loglevel" env) as [s|] eqn:A; [|reflexivity]. exfalso. apply N1. clear -A. induction env as [|[k v] env IH]; [discriminate|].
  cbn [assoc] in A. destruct (String.eqb "npm_config_loglevel" k) eqn:E; [left; apply String.eqb_eq in E; symmetry; exact E|right; apply IH; exact A].
Qed.
Lemma of_a_run : forall env option ms, NoDup (map fst env) -> (forall e, In e ms -> exists k p t, e = Log k p t /\ k <> "pause" /\ k <> "resume") ->
  expected true "info" (parse_argv_events env option ++ ms) = filter (fun m => seen (level_of_run env option) (fst (fst m))) (messages ms).
Proof.
  intros env option ms N H. unfold parse_argv_events. rewrite <- !app_assoc. cbn [app]. rewrite app_assoc, expected_later.
  - rewrite expected_free by exact H. rewrite fold_left_app, level_env by exact N. unfold level_of_run. destruct (String.eqb option ""); reflexivity.
  - intros e I. apply in_app_or in I. destruct I as [I|I].
    + apply in_flat_map in I. destruct I as (kv & _ & I). destruct (String.eqb _ _); [destruct I as [<-|[]]; eauto|destruct I].
    + destruct (String.eqb option ""); [destruct I|destruct I as [<-|[]]; eauto].
Qed.
