(** Printed values are read back. *)
From Coq Require Import ZArith.
From Verif Require Import Lib LibFacts Str StrFacts Model_Value Spec_Text Proof_Text Proof_Load Model_Json Spec_Gypi.
From Verif Require Model_Text Model_Expand Proof_Release.
Local Open Scope string_scope.

Lemma json_ind' (P : json -> Prop) : P JNull -> (forall b, P (JBool b)) -> (forall z, P (JNum z)) -> (forall s, P (JStr s)) -> (forall l, Forall P l -> P (JArr l)) -> (forall d, Forall (fun e => P (snd e)) d -> P (JObj d)) -> forall v, P v.
Proof.
  intros Hn Hb Hz Hs Ha Ho. fix IH 1. intros [|b|z|s|l|d]; [exact Hn|apply Hb|apply Hz|apply Hs| |].
  - apply Ha. induction l as [|x l IHl]; constructor; [apply IH|exact IHl].
  - apply Ho. induction d as [|[k x] d IHd]; constructor; [exact (IH x)|exact IHd].
Qed.

(** ** Tokens *)
Definition after_comma {A : Type} (f : A -> list tok) (l : list A) : list tok := flat_map (fun y => TPunct "," :: f y) l.
Fixpoint toks (v : json) : list tok :=
  match v with
  | JNull => [TWord "null"]
  | JBool b => [TWord (if b then "true" else "false")]
  | JNum z => [TNum z]
  | JStr s => [TStr s]
  | JArr [] => [TPunct "["; TPunct "]"]
  | JArr (x :: l) => TPunct "[" :: toks x ++ flat_map (fun y => TPunct "," :: toks y) l ++ [TPunct "]"]
  | JObj [] => [TPunct "{"; TPunct "}"]
  | JObj ((k, x) :: d) => TPunct "{" :: TStr k :: TPunct ":" :: toks x ++ flat_map (fun e => TPunct "," :: TStr (fst e) :: TPunct ":" :: toks (snd e)) d ++ [TPunct "}"]
  end%list.

(** ** Parsing *)
Lemma in_flat_unique : forall d, unique (JObj d) -> NoDup (map fst d) /\ Forall (fun e => unique (snd e)) d.
Proof. intros d H. inversion H; auto. Qed.
(** no true, false and null *)
Inductive wordless : json -> Prop :=
| wl_num z : wordless (JNum z)
| wl_str s : wordless (JStr s)
| wl_arr l : Forall wordless l -> wordless (JArr l)
| wl_obj d : Forall (fun e => wordless (snd e)) d -> wordless (JObj d).
Definition fine (lang : language) (v : json) : Prop := match lang with Json => True | Python => wordless v end.
Lemma fine_arr : forall lang l, fine lang (JArr l) -> Forall (fine lang) l.
Proof. intros [|] l H; [apply Forall_forall; intros; exact I|inversion H; assumption]. Qed.
Lemma fine_obj : forall lang d, fine lang (JObj d) -> Forall (fun e => fine lang (snd e)) d.
Proof. intros [|] l H; [apply Forall_forall; intros; exact I|inversion H; assumption]. Qed.

Lemma parse_value : forall lang v, unique v -> fine lang v -> forall c stk ts, parse_toks lang (WantValue c stk) (toks v ++ ts) = parse_toks lang (After v stk) ts.
Proof.
  intros lang. induction v as [|b|z|s|l IH|d IH] using json_ind'; intros U F c stk ts.
  - destruct lang; [destruct c, stk as [|[|] stk]; reflexivity|inversion F].
  - destruct lang; [destruct c, b, stk as [|[|] stk]; reflexivity|inversion F].
  - destruct c, stk as [|[|] stk]; reflexivity.
  - destruct c, stk as [|[|] stk]; reflexivity.
  - destruct l as [|x l]; [destruct c, stk as [|[|] stk]; reflexivity|]. replace (parse_toks lang (WantValue c stk) _) with (parse_toks lang (WantValue true (FArr [] :: stk)) ((toks x ++ flat_map (fun y => TPunct "," :: toks y) l ++ [TPunct "]"]) ++ ts)%list) by (destruct c, stk as [|[|] stk]; reflexivity). inversion U as [| | | |? U'|]; subst. apply fine_arr in F. apply Forall_cons_iff in U', F, IH. destruct U' as [U1 U2], F as [F1 F2], IH as [I1 I2].
    rewrite <- !app_assoc, I1 by assumption. cbn [app].
    assert (G : forall l done x, Forall unique l -> Forall (fine lang) l -> Forall (fun v => unique v -> fine lang v -> forall c stk ts, parse_toks lang (WantValue c stk) (toks v ++ ts) = parse_toks lang (After v stk) ts) l ->
      parse_toks lang (After x (FArr done :: stk)) (flat_map (fun y => TPunct "," :: toks y) l ++ TPunct "]" :: ts)%list = parse_toks lang (After (JArr (rev done ++ x :: l)) stk) ts).
    { clear. intros l. induction l as [|y l IHl]; intros done x U F I.
      - destruct x; reflexivity.
      - apply Forall_cons_iff in U, F, I. destruct U as [U1 U2], F as [F1 F2], I as [I1 I2]. cbn [flat_map app]. rewrite <- app_assoc.
        replace (parse_toks lang (After x (FArr done :: stk)) _) with (parse_toks lang (WantValue (trailing lang) (FArr (x :: done) :: stk)) (toks y ++ flat_map (fun y => TPunct "," :: toks y) l ++ TPunct "]" :: ts)%list) by (destruct x, lang; reflexivity).
        rewrite I1 by assumption. rewrite IHl by assumption. cbn [rev]. rewrite <- app_assoc. reflexivity. }
    apply (G l [] x); assumption.
  - destruct d as [|[k x] d]; [destruct c, stk as [|[|] stk]; reflexivity|].
    replace (parse_toks lang (WantValue c stk) _) with (parse_toks lang (WantValue false (FObj [] k :: stk)) ((toks x ++ flat_map (fun e => TPunct "," :: TStr (fst e) :: TPunct ":" :: toks (snd e)) d ++ [TPunct "}"]) ++ ts)%list) by (destruct c, stk as [|[|] stk]; reflexivity). apply in_flat_unique in U. destruct U as [ND U]. apply fine_obj in F. apply Forall_cons_iff in U, F, IH. destruct U as [U1 U2], F as [F1 F2], IH as [I1 I2]. cbn [snd] in *.
    rewrite <- !app_assoc, I1 by assumption. cbn [app].
    assert (G : forall d done k x, NoDup (map fst (done ++ (k, x) :: d)) -> Forall (fun e => unique (snd e)) d -> Forall (fun e => fine lang (snd e)) d ->
      Forall (fun e => unique (snd e) -> fine lang (snd e) -> forall c stk ts, parse_toks lang (WantValue c stk) (toks (snd e) ++ ts) = parse_toks lang (After (snd e) stk) ts) d ->
      parse_toks lang (After x (FObj done k :: stk)) (flat_map (fun e => TPunct "," :: TStr (fst e) :: TPunct ":" :: toks (snd e)) d ++ TPunct "}" :: ts)%list = parse_toks lang (After (JObj (done ++ (k, x) :: d)) stk) ts).
    { clear. intros d. induction d as [|[k' y] d IHd]; intros done k x ND U F I.
      - assert (N : ~ In k (map fst done)) by (rewrite map_app in ND; cbn [map fst] in ND; apply NoDup_remove_2 in ND; rewrite app_nil_r in ND; exact ND).
        replace (parse_toks lang (After x (FObj done k :: stk)) _) with (parse_toks lang (After (JObj (set_key k x done)) stk) ts) by (destruct x, lang; reflexivity). rewrite set_key_new by exact N. reflexivity.
      - apply Forall_cons_iff in U, F, I. destruct U as [U1 U2], F as [F1 F2], I as [I1 I2]. cbn [snd fst] in *. cbn [flat_map app fst snd]. rewrite <- app_assoc.
        assert (N : ~ In k (map fst done)) by (rewrite map_app in ND; cbn [map fst] in ND; apply NoDup_remove_2 in ND; intros X; apply ND, in_or_app; left; exact X).
        replace (parse_toks lang (After x (FObj done k :: stk)) _) with (parse_toks lang (WantValue false (FObj (set_key k x done) k' :: stk)) (toks y ++ flat_map (fun e => TPunct "," :: TStr (fst e) :: TPunct ":" :: toks (snd e)) d ++ TPunct "}" :: ts)%list) by (destruct x, lang; reflexivity).
        rewrite set_key_new by exact N. rewrite I1 by assumption. rewrite IHd; [rewrite <- app_assoc; reflexivity| |assumption..]. rewrite <- app_assoc. exact ND. }
    apply (G d [] k x); assumption.
Qed.

(** ** Scanning *)
Lemma lex_cons : forall lang st a s, lex lang st (String a s) = match step lang st a with Some (ts, st') => option_map (app ts) (lex lang st' s) | None => None end.
Proof. reflexivity. Qed.
Lemma option_map_nil : forall A (x : option (list A)), option_map (app []) x = x.
Proof. intros A [|]; reflexivity. Qed.
Lemma option_map_app : forall A (a b : list A) x, option_map (app a) (option_map (app b) x) = option_map (app (a ++ b)) x.
Proof. intros A a b [l|]; [cbn; rewrite app_assoc; reflexivity|reflexivity]. Qed.

(** what can follow a number or a word *)
Definition boundary (s : string) : Prop := match s with EmptyString => True | String a _ => is_number_char a = false /\ is_letter a = false /\ Model_Text.is_digit a = false end.
Definition solid (t : tok) : bool := match t with TNum _ | TWord _ => true | _ => false end.
Definition lexes (lang : language) (text : string) (t : tok) : Prop :=
  forall rest, (solid t = true -> boundary rest) -> lex lang Out (text ++ rest) = option_map (app [t]) (lex lang Out rest).
Definition skips (lang : language) (g : string) : Prop := forall rest, lex lang Out (g ++ rest) = lex lang Out rest.

Lemma skips_nil : forall lang, skips lang "".
Proof. intros lang rest. reflexivity. Qed.
Lemma skips_app : forall lang a b, skips lang a -> skips lang b -> skips lang (a ++ b).
Proof. intros lang a b A B rest. rewrite append_assoc, A, B. reflexivity. Qed.
Lemma skips_white : forall lang a g, is_white lang a = true -> skips lang g -> skips lang (String a g).
Proof. intros lang a g W G rest. cbn [append]. rewrite lex_cons. cbn [step]. unfold start. rewrite W, option_map_nil. apply G. Qed.
Lemma skips_spaces : forall lang n, skips lang (spaces n).
Proof. induction n; [apply skips_nil|apply skips_white; [destruct lang; reflexivity|assumption]]. Qed.
Lemma skips_nl : forall lang, skips lang nl.
Proof. intros lang. apply skips_white; [destruct lang; reflexivity|apply skips_nil]. Qed.

Lemma lexes_punct : forall lang a, is_punct a = true -> is_white lang a = false -> lexes lang (String a "") (TPunct a).
Proof. intros lang a P W rest _. cbn [append]. rewrite lex_cons. cbn [step]. unfold start. rewrite W, P. reflexivity. Qed.
Lemma punct_cases : forall lang a, In a ["{"; "}"; "["; "]"; ","; ":"]%char -> lexes lang (String a "") (TPunct a).
Proof. intros lang a H. apply lexes_punct; repeat (destruct H as [<-|H]; [destruct lang; reflexivity|]); destruct H. Qed.

(** numbers *)
Lemma lex_more_digits : forall lang s acc rest, digits s -> boundary rest -> lex lang (InNum acc) (s ++ rest) = lex lang (InNum (acc ++ s)) rest.
Proof.
  intros lang s. induction s as [|a s IH]; intros acc rest D B; [rewrite append_nil_r; reflexivity|]. inversion D as [|? ? H1 H2]; subst. cbn [append]. rewrite lex_cons. cbn [step].
  assert (X : is_number_char a = true) by (unfold is_number_char; rewrite (proj2 (is_digit_spec a) H1); reflexivity). rewrite X, option_map_nil, IH by assumption. rewrite append_assoc. reflexivity.
Qed.
Lemma lex_number_end : forall lang acc z rest, number acc = Some z -> boundary rest -> lex lang (InNum acc) rest = option_map (app [TNum z]) (lex lang Out rest).
Proof.
  intros lang acc z [|a rest] N B; [cbn; rewrite N; reflexivity|]. rewrite !lex_cons. cbn [step]. destruct B as (B & _). rewrite B, N. destruct (start lang a) as [[ts st]|]; [|reflexivity]. rewrite option_map_app. reflexivity.
Qed.
Lemma number_rendering : forall z, number (rendering z) = Some z.
Proof.
  intros z. unfold number. replace (Model_Text.is_str_canonical_int (rendering z)) with true by (symmetry; apply canonical_iff_rendering; exists z; reflexivity).
  rewrite Proof_Release.int_of_rendering. reflexivity.
Qed.
Lemma digit_start : forall lang a, digit a \/ a = "-"%char -> start lang a = Some ([], InNum (String a "")).
Proof. intros lang a [H| ->]; [|destruct lang; reflexivity]. unfold digit in H. repeat (destruct H as [<-|H]; [destruct lang; reflexivity|]). destruct H. Qed.
Lemma lexes_num : forall lang z, lexes lang (rendering z) (TNum z).
Proof.
  intros lang z rest B. specialize (B eq_refl). assert (R := rendering_shape z). assert (N := number_rendering z).
  assert (G : forall a s, rendering z = String a s -> digit a \/ a = "-"%char -> digits s -> lex lang Out (rendering z ++ rest) = option_map (app [TNum z]) (lex lang Out rest)).
  { intros a s E Ha Hs. rewrite E. cbn [append]. rewrite lex_cons. cbn [step]. rewrite (digit_start lang a Ha), option_map_nil. change (s ++ rest) with (append s rest). rewrite lex_more_digits by assumption. cbn [append]. rewrite <- E. apply lex_number_end; assumption. }
  destruct R as [R|(sign & a & s & E & HS & Ha & _ & Hs)]; [apply (G "0"%char "" R); [left; unfold digit; cbn; auto|constructor]|].
  destruct HS as [<-|[<-|[]]]; [apply (G a s E); [left; exact Ha|exact Hs]|apply (G "-"%char (String a s) E); [right; reflexivity|constructor; assumption]].
Qed.

(** words *)
Fixpoint letters (s : string) : bool := match s with EmptyString => true | String a s' => is_letter a && letters s' end.
Lemma lex_more_letters : forall lang s acc rest, letters s = true -> boundary rest -> lex lang (InWord acc) (s ++ rest) = option_map (app [TWord (acc ++ s)]) (lex lang Out rest).
Proof.
  intros lang s. induction s as [|a s IH]; intros acc rest L B.
  - rewrite append_nil_r. destruct rest as [|b rest]; [reflexivity|]. cbn [append]. rewrite !lex_cons. cbn [step]. destruct B as (_ & B1 & B2). rewrite B1, B2. cbn [orb]. destruct (start lang b) as [[ts st]|]; [|reflexivity]. rewrite option_map_app. reflexivity.
  - cbn [letters] in L. apply andb_true_iff in L. destruct L as [L1 L2]. cbn [append]. rewrite lex_cons. cbn [step]. rewrite L1. cbn [orb]. rewrite option_map_nil, IH by assumption. rewrite append_assoc. reflexivity.
Qed.
Lemma lexes_word : forall lang a s, start lang a = Some ([], InWord (String a "")) -> letters s = true -> lexes lang (String a s) (TWord (String a s)).
Proof. intros lang a s A L rest B. cbn [append]. rewrite lex_cons. cbn [step]. rewrite A, option_map_nil. change (s ++ rest) with (append s rest). rewrite lex_more_letters by (assumption || (apply B; reflexivity)). reflexivity. Qed.

(** strings *)
(** the scanner on text in which no token ends *)
Fixpoint drive (lang : language) (st : scan) (s : string) : option scan := match s with EmptyString => Some st | String b s' => match step lang st b with Some ([], st') => drive lang st' s' | _ => None end end.
Lemma drive_lex : forall lang s st st' rest, drive lang st s = Some st' -> lex lang st (s ++ rest) = lex lang st' rest.
Proof.
  intros lang s. induction s as [|a s IH]; intros st st' rest H; cbn [drive] in H; [injection H as <-; reflexivity|]. cbn [append]. rewrite lex_cons. destruct (step lang st a) as [[[|t ts] st2]|]; [|discriminate|discriminate]. rewrite option_map_nil. apply IH, H.
Qed.
Lemma drive_escape : forall lang a acc, drive lang (InStr quote acc) (escape_char a) = Some (InStr quote (acc ++ String a "")).
Proof.
  intros lang a acc. destruct a as [b0 b1 b2 b3 b4 b5 b6 b7].
  destruct lang, b0, b1, b2, b3, b4, b5, b6, b7; reflexivity.
Qed.
Lemma lex_escape : forall lang s acc rest, lex lang (InStr quote acc) (escape s ++ rest) = lex lang (InStr quote (acc ++ s)) rest.
Proof.
  intros lang s. induction s as [|a s IH]; intros acc rest; [rewrite append_nil_r; reflexivity|]. cbn [escape]. rewrite append_assoc. rewrite (drive_lex _ _ _ _ _ (drive_escape lang a acc)), IH, append_assoc. reflexivity.
Qed.
Lemma lexes_quoted : forall lang s, lexes lang (quoted s) (TStr s).
Proof.
  intros lang s rest _. unfold quoted. cbn [append]. rewrite lex_cons. replace (step lang Out quote) with (Some (@nil tok, InStr quote "")) by (destruct lang; reflexivity). rewrite option_map_nil, append_assoc.
  rewrite lex_escape. cbn [append]. rewrite lex_cons. cbn [step]. rewrite Ascii.eqb_refl. reflexivity.
Qed.

(** ** Pieces of text: a token and the gap after it *)
Definition piece := (string * tok * string)%type.
Definition text_of (p : piece) : string := fst (fst p).
Definition tok_of (p : piece) : tok := snd (fst p).
Definition gap_of (p : piece) : string := snd p.
Fixpoint render (ps : list piece) : string := match ps with [] => "" | p :: ps' => text_of p ++ gap_of p ++ render ps' end.
Definition piece_ok (lang : language) (p : piece) : Prop := lexes lang (text_of p) (tok_of p) /\ skips lang (gap_of p) /\ (solid (tok_of p) = false -> boundary (text_of p) /\ text_of p <> "") /\ boundary (gap_of p).
(** no two numbers or words side by side *)
Fixpoint separate (ts : list tok) : Prop := match ts with t :: ((t' :: _) as ts') => (solid t = true -> solid t' = false) /\ separate ts' | _ => True end.
Lemma boundary_app : forall a b, boundary a -> (a = "" -> boundary b) -> boundary (a ++ b).
Proof. intros [|c a] b A B; [apply B; reflexivity|exact A]. Qed.
Lemma lex_render : forall lang ps, Forall (piece_ok lang) ps -> separate (map tok_of ps) -> lex lang Out (render ps) = Some (map tok_of ps).
Proof.
  intros lang ps. induction ps as [|p ps IH]; intros F S; [reflexivity|]. apply Forall_cons_iff in F. destruct F as [(L & G & _ & BG) F]. cbn [render map].
  assert (S' : separate (map tok_of ps)) by (destruct ps; [exact I|apply S]). rewrite L.
  - rewrite G, IH by assumption. reflexivity.
  - intros X. apply boundary_app; [exact BG|]. intros _. destruct ps as [|p' ps]; [exact I|]. cbn [map separate] in S. destruct S as [S _]. specialize (S X). apply Forall_cons_iff in F. destruct F as [(_ & _ & B & _) _]. destruct (B S) as [B1 B2]. cbn [render]. apply boundary_app; [exact B1|contradiction].
Qed.
Lemma render_app : forall a b, render (a ++ b) = render a ++ render b.
Proof. induction a as [|p a IH]; intros b; [reflexivity|]. cbn [app render]. rewrite IH, !append_assoc. reflexivity. Qed.

Definition is_mark (t : tok) : bool := match t with TPunct _ => true | _ => false end.
(** a punctuation mark after everything else *)
Fixpoint apart (ts : list tok) : Prop := match ts with t :: ((t' :: _) as ts') => (is_mark t = false -> is_mark t' = true) /\ apart ts' | _ => True end.
Lemma apart_separate : forall ts, apart ts -> separate ts.
Proof. induction ts as [|t [|t' ts] IH]; intros A; [exact I|exact I|]. destruct A as [A1 A2]. split; [|apply IH, A2]. intros S. destruct t, t'; try discriminate; try reflexivity; specialize (A1 eq_refl); discriminate. Qed.
Lemma apart_cons : forall t ts, apart ts -> (forall t' r, ts = t' :: r -> is_mark t = false -> is_mark t' = true) -> apart (t :: ts).
Proof. intros t [|t' r] S H; [exact I|]. split; [apply (H t' r eq_refl)|exact S]. Qed.
Lemma apart_app : forall a t b, apart a -> apart (t :: b) -> is_mark t = true -> apart (a ++ t :: b).
Proof.
  induction a as [|x a IH]; intros t b A B N; [exact B|]. cbn [app]. apply apart_cons; [apply IH; [destruct a; [exact I|apply A]|assumption..]|].
  intros t' r E Hx. destruct a as [|y a]; cbn [app] in E; injection E as <- _; [exact N|]. apply A, Hx.
Qed.
Lemma apart_punct : forall a ts, apart ts -> apart (TPunct a :: ts).
Proof. intros a ts S. apply apart_cons; [exact S|]. intros ? ? _ X. discriminate. Qed.
Lemma apart_key : forall a b ts, apart (TPunct b :: ts) -> apart (TStr a :: TPunct b :: ts).
Proof. intros a b ts S. apply apart_cons; [exact S|]. intros t' r [= <- <-] _. reflexivity. Qed.
Lemma apart_toks : forall v, apart (toks v).
Proof.
  induction v as [|b|z|s|l IH|d IH] using json_ind'; try exact I.
  - destruct l as [|x l]; [apply apart_punct, apart_punct; exact I|]. cbn [toks]. apply apart_punct. apply Forall_cons_iff in IH. destruct IH as [I1 I2].
    assert (G : exists t r, (flat_map (fun y => TPunct "," :: toks y) l ++ [TPunct "]"])%list = TPunct t :: r /\ apart (TPunct t :: r)).
    { clear I1. induction l as [|y l IHl]; [exists "]"%char, []; split; [reflexivity|exact I]|]. apply Forall_cons_iff in I2. destruct I2 as [J1 J2]. destruct (IHl J2) as (t & r & E & S).
      cbn [flat_map app]. rewrite <- app_assoc, E. eexists _, _. split; [reflexivity|]. apply apart_punct, apart_app; [exact J1|exact S|reflexivity]. }
    destruct G as (t & r & -> & S). apply apart_app; [exact I1|exact S|reflexivity].
  - destruct d as [|[k x] d]; [apply apart_punct, apart_punct; exact I|]. cbn [toks]. apply apart_punct, apart_key, apart_punct. apply Forall_cons_iff in IH. destruct IH as [I1 I2].
    assert (G : exists t r, (flat_map (fun e => TPunct "," :: TStr (fst e) :: TPunct ":" :: toks (snd e)) d ++ [TPunct "}"])%list = TPunct t :: r /\ apart (TPunct t :: r)).
    { clear I1. induction d as [|[k' y] d IHl]; [exists "}"%char, []; split; [reflexivity|exact I]|]. apply Forall_cons_iff in I2. destruct I2 as [J1 J2]. destruct (IHl J2) as (t & r & E & S).
      cbn [flat_map app fst snd]. rewrite <- app_assoc, E. eexists _, _. split; [reflexivity|]. apply apart_punct, apart_key, apart_punct, apart_app; [exact J1|exact S|reflexivity]. }
    destruct G as (t & r & -> & S). apply apart_app; [exact I1|exact S|reflexivity].
Qed.
Lemma separate_toks : forall v, separate (toks v).
Proof. intros v. apply apart_separate, apart_toks. Qed.

(** ** Printing gives pieces *)
Definition white_gap (g : string) : Prop := skips Json g /\ skips Python g /\ boundary g.
Lemma white_gap_nil : white_gap "".
Proof. repeat split. Qed.
Lemma white_gap_nl : forall n, white_gap (nl ++ spaces n).
Proof. intros n. split; [|split; [|repeat split]]; apply skips_app; (apply skips_nl || apply skips_spaces). Qed.
Definition good (p : piece) : Prop := forall lang, piece_ok lang p.
Lemma white_lang : forall lang g, white_gap g -> skips lang g /\ boundary g.
Proof. intros [|] g (A & B & C); auto. Qed.
Lemma good_punct : forall a g, In a ["{"; "}"; "["; "]"; ","; ":"]%char -> white_gap g -> good (String a "", TPunct a, g).
Proof.
  intros a g H G lang. apply (white_lang lang) in G. destruct G as [G1 G2]. split; [apply punct_cases, H|]. split; [exact G1|]. split; [|exact G2]. intros _. cbn [text_of fst]. split; [|discriminate].
  repeat (destruct H as [<-|H]; [repeat split|]). destruct H.
Qed.
Lemma good_quoted : forall s g, white_gap g -> good (quoted s, TStr s, g).
Proof. intros s g G lang. apply (white_lang lang) in G. destruct G as [G1 G2]. split; [apply lexes_quoted|]. split; [exact G1|]. split; [|exact G2]. intros _. split; [repeat split|discriminate]. Qed.
Lemma good_num : forall z g, white_gap g -> good (rendering z, TNum z, g).
Proof. intros z g G lang. apply (white_lang lang) in G. destruct G as [G1 G2]. split; [apply lexes_num|]. split; [exact G1|]. split; [discriminate|exact G2]. Qed.
Lemma good_word : forall w g, In w ["null"; "true"; "false"] -> white_gap g -> good (w, TWord w, g).
Proof.
  intros w g H G lang. apply (white_lang lang) in G. destruct G as [G1 G2]. split; [|split; [exact G1|split; [discriminate|exact G2]]]. cbn [text_of tok_of fst snd].
  repeat (destruct H as [<-|H]; [apply lexes_word; destruct lang; reflexivity|]). destruct H.
Qed.
Lemma pieces_of : forall v n g, white_gap g -> exists ps, render ps = stringify n v ++ g /\ map tok_of ps = toks v /\ Forall good ps.
Proof.
  induction v as [|b|z|s|l IH|d IH] using json_ind'; intros n g G.
  - exists [("null", TWord "null", g)]. split; [cbn [render text_of gap_of fst snd]; rewrite append_nil_r; reflexivity|]. split; [reflexivity|]. constructor; [apply good_word; [cbn; auto|exact G]|constructor].
  - exists [(if b then "true" else "false", TWord (if b then "true" else "false"), g)]. split; [cbn [render text_of gap_of fst snd]; rewrite append_nil_r; reflexivity|]. split; [reflexivity|]. constructor; [apply good_word; [destruct b; cbn; auto|exact G]|constructor].
  - exists [(rendering z, TNum z, g)]. split; [cbn [render text_of gap_of fst snd]; rewrite append_nil_r; reflexivity|]. split; [reflexivity|]. constructor; [apply good_num, G|constructor].
  - exists [(quoted s, TStr s, g)]. split; [cbn [render text_of gap_of fst snd]; rewrite append_nil_r; reflexivity|]. split; [reflexivity|]. constructor; [apply good_quoted, G|constructor].
  - destruct l as [|x l].
    + exists [("[", TPunct "[", ""); ("]", TPunct "]", g)]. split; [cbn [render text_of gap_of fst snd]; rewrite append_nil_r; reflexivity|]. split; [reflexivity|]. repeat constructor; apply good_punct; cbn; auto 8 using white_gap_nil.
    + apply Forall_cons_iff in IH. destruct IH as [I1 I2].
      set (go := fix go (l : list json) : string := match l with [] => "" | y :: l' => "," ++ nl ++ spaces (2 + n) ++ stringify (2 + n) y ++ go l' end).
      assert (T : forall l, Forall (fun v => forall n g, white_gap g -> exists ps, render ps = stringify n v ++ g /\ map tok_of ps = toks v /\ Forall good ps) l -> exists g1 ps, white_gap g1 /\ g1 ++ render ps = go l ++ nl ++ spaces n ++ "]" ++ g /\ map tok_of ps = (flat_map (fun y => TPunct "," :: toks y) l ++ [TPunct "]"])%list /\ Forall good ps).
      { clear l I2. induction l as [|y l IHl]; intros F.
        - exists (nl ++ spaces n), [("]", TPunct "]", g)]. split; [apply white_gap_nl|]. split; [cbn [render text_of gap_of fst snd go append]; rewrite append_nil_r, !append_assoc; reflexivity|]. split; [reflexivity|]. constructor; [apply good_punct; cbn; auto 8|constructor].
        - apply Forall_cons_iff in F. destruct F as [F1 F2]. destruct (IHl F2) as (g1 & ps & W & R & M & FG). destruct (F1 (2 + n) g1 W) as (py & Ry & My & Fy).
          exists "", ((",", TPunct ",", (nl ++ spaces (2 + n))%string) :: py ++ ps)%list. split; [apply white_gap_nil|]. split; [|split].
          + cbn [render text_of gap_of fst snd go append]. rewrite render_app, Ry, !append_assoc, R. reflexivity.
          + cbn [map tok_of fst snd flat_map app]. rewrite map_app, My, M, <- app_assoc. reflexivity.
          + constructor; [apply good_punct; [cbn; auto 8|apply white_gap_nl]|]. apply Forall_app. auto. }
      destruct (T l I2) as (g1 & ps & W & R & M & FG). destruct (I1 (2 + n) g1 W) as (px & Rx & Mx & Fx).
      exists (("[", TPunct "[", (nl ++ spaces (2 + n))%string) :: px ++ ps)%list. split; [|split].
      * cbn [render text_of gap_of fst snd stringify]. rewrite render_app, Rx. change (stringify (S (S n)) x) with (stringify (2 + n) x). fold go. rewrite !append_assoc, R. reflexivity.
      * cbn [map tok_of fst snd toks]. rewrite map_app, Mx, M. reflexivity.
      * constructor; [apply good_punct; [cbn; auto 8|apply white_gap_nl]|]. apply Forall_app. auto.
  - destruct d as [|[k x] d].
    + exists [("{", TPunct "{", ""); ("}", TPunct "}", g)]. split; [cbn [render text_of gap_of fst snd]; rewrite append_nil_r; reflexivity|]. split; [reflexivity|]. repeat constructor; apply good_punct; cbn; auto 8 using white_gap_nil.
    + apply Forall_cons_iff in IH. destruct IH as [I1 I2]. cbn [snd] in I1.
      set (go := fix go (d : list (string * json)) : string := match d with [] => "" | (k, y) :: d' => "," ++ nl ++ spaces (2 + n) ++ quoted k ++ ": " ++ stringify (2 + n) y ++ go d' end).
      assert (C : white_gap " ") by (split; [|split; [|repeat split]]; (apply skips_white; [reflexivity|apply skips_nil])).
      assert (T : forall d, Forall (fun e => forall n g, white_gap g -> exists ps, render ps = stringify n (snd e) ++ g /\ map tok_of ps = toks (snd e) /\ Forall good ps) d -> exists g1 ps, white_gap g1 /\ g1 ++ render ps = go d ++ nl ++ spaces n ++ "}" ++ g /\ map tok_of ps = (flat_map (fun e => TPunct "," :: TStr (fst e) :: TPunct ":" :: toks (snd e)) d ++ [TPunct "}"])%list /\ Forall good ps).
      { clear d I2. induction d as [|[k' y] d IHl]; intros F.
        - exists (nl ++ spaces n), [("}", TPunct "}", g)]. split; [apply white_gap_nl|]. split; [cbn [render text_of gap_of fst snd go append]; rewrite append_nil_r, !append_assoc; reflexivity|]. split; [reflexivity|]. constructor; [apply good_punct; cbn; auto 8|constructor].
        - apply Forall_cons_iff in F. destruct F as [F1 F2]. destruct (IHl F2) as (g1 & ps & W & R & M & FG). destruct (F1 (2 + n) g1 W) as (py & Ry & My & Fy). cbn [snd] in *.
          exists "", ((",", TPunct ",", (nl ++ spaces (2 + n))%string) :: (quoted k', TStr k', "") :: (":", TPunct ":", " ") :: py ++ ps)%list. split; [apply white_gap_nil|]. split; [|split].
          + cbn [render text_of gap_of fst snd go append]. rewrite render_app, Ry. rewrite !append_assoc. cbn [append]. rewrite R, ?append_assoc. cbn [append]. rewrite ?append_assoc. reflexivity.
          + cbn [map tok_of fst snd flat_map app]. rewrite map_app, My, M, <- app_assoc. reflexivity.
          + constructor; [apply good_punct; [cbn; auto 8|apply white_gap_nl]|]. constructor; [apply good_quoted, white_gap_nil|]. constructor; [apply good_punct; [cbn; auto 8|exact C]|]. apply Forall_app. auto. }
      destruct (T d I2) as (g1 & ps & W & R & M & FG). destruct (I1 (2 + n) g1 W) as (px & Rx & Mx & Fx).
      exists (("{", TPunct "{", (nl ++ spaces (2 + n))%string) :: (quoted k, TStr k, "") :: (":", TPunct ":", " ") :: px ++ ps)%list. split; [|split].
      * cbn [render text_of gap_of fst snd stringify]. rewrite render_app, Rx. change (stringify (S (S n)) x) with (stringify (2 + n) x). fold go. rewrite !append_assoc. cbn [append]. rewrite R, ?append_assoc. cbn [append]. rewrite ?append_assoc. reflexivity.
      * cbn [map tok_of fst snd toks]. rewrite map_app, Mx, M. reflexivity.
      * constructor; [apply good_punct; [cbn; auto 8|apply white_gap_nl]|]. constructor; [apply good_quoted, white_gap_nil|]. constructor; [apply good_punct; [cbn; auto 8|exact C]|]. apply Forall_app. auto.
Qed.
Theorem read_stringify : forall lang v n g, unique v -> fine lang v -> white_gap g -> read lang (stringify n v ++ g) = Some v.
Proof.
  intros lang v n g U F G. destruct (pieces_of v n g G) as (ps & R & M & FG). unfold read. rewrite <- R, lex_render; [|eapply Forall_impl; [|exact FG]; intros p H; apply H|rewrite M; apply separate_toks].
  rewrite M. rewrite <- (app_nil_r (toks v)), parse_value by assumption. reflexivity.
Qed.
