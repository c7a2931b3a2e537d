(** Proofs about config.gypi: writing it, and reading it in build, in gyp and in
    configure. *)
From Coq Require Import ZArith.
From Verif Require Import Lib LibFacts Str StrFacts Js Model_Value Spec_Text Proof_Text Model_Json Model_Gypi Spec_Gypi Proof_Json.
Local Open Scope string_scope.

(** ** Handing on *)
Lemma bools_stand : forall v, stands_for v (bools_to_string v).
Proof.
  induction v as [|b|z|s|l IH|d IH] using json_ind'; cbn [bools_to_string]; try constructor; [destruct b; constructor| |].
  - induction IH; constructor; assumption.
  - induction IH as [|[k x] d H F IH]; constructor; [split; [reflexivity|exact H]|exact IH].
Qed.
Lemma stands_inj : forall v w, stands_for v w -> w = bools_to_string v.
Proof.
  induction v as [|b|z|s|l IH|d IH] using json_ind'; intros w H; inversion H; subst; try reflexivity; cbn [bools_to_string]; f_equal.
  - clear H. revert l' H1. induction IH as [|x l H F IHl]; intros l' H2; inversion H2; subst; [reflexivity|]. cbn [map]. f_equal; auto.
  - clear H. revert d' H1. induction IH as [|[k x] d H F IHl]; intros d' H2; inversion H2 as [|? [k' y] ? ? [A B] C]; subst; [reflexivity|]. cbn [map fst snd] in *. subst k'. f_equal; [f_equal; apply H, B|apply IHl, C].
Qed.
Lemma unique_bools : forall v, unique v -> unique (bools_to_string v).
Proof.
  induction v as [|b|z|s|l IH|d IH] using json_ind'; intros U; cbn [bools_to_string]; try exact U; [constructor| |].
  - inversion U as [| | | |? U'|]; subst. constructor. clear U. induction IH as [|x l H F IHl]; [constructor|]. apply Forall_cons_iff in U'. destruct U'. cbn [map]. constructor; auto.
  - apply in_flat_unique in U. destruct U as [N U]. constructor; [rewrite map_map; exact N|]. clear N. induction IH as [|x l H F IHl]; [constructor|]. apply Forall_cons_iff in U. destruct U. cbn [map]. constructor; auto.
Qed.
Lemma wordless_bools : forall v, ~ within JNull v -> wordless (bools_to_string v).
Proof.
  induction v as [|b|z|s|l IH|d IH] using json_ind'; intros N; cbn [bools_to_string]; try constructor; [destruct N; constructor| |].
  - apply Forall_forall. intros y Hy. apply in_map_iff in Hy. destruct Hy as (x & <- & Hx). rewrite Forall_forall in IH. apply IH; [exact Hx|]. intros X. apply N. exact (in_arr _ x l Hx X).
  - apply Forall_forall. intros y Hy. apply in_map_iff in Hy. destruct Hy as ([k x] & <- & Hx). rewrite Forall_forall in IH. apply (IH (k, x)); [exact Hx|]. intros X. apply N. exact (in_obj _ k x d Hx X).
Qed.
Lemma config_drop : forall v, drop_comment (config_file v) = stringify 0 (bools_to_string v) ++ nl.
Proof. reflexivity. Qed.
Lemma white_nl : white_gap nl.
Proof. apply (white_gap_nl 0). Qed.
Theorem build_reads : forall v, unique v -> exists v', load_config (config_file v) = Some v' /\ stands_for v v'.
Proof.
  intros v U. exists (bools_to_string v). split; [|apply bools_stand]. unfold load_config, json_parse. rewrite config_drop. apply read_stringify; [apply unique_bools, U|exact I|apply white_nl].
Qed.
Lemma config_py : forall v, py_eval (config_file v) = py_eval (stringify 0 (bools_to_string v) ++ nl).
Proof.
  intros v. unfold py_eval, read, config_file. replace (prefix ++ nl ++ stringify 0 (bools_to_string v) ++ nl) with ((prefix ++ nl) ++ stringify 0 (bools_to_string v) ++ nl) by (rewrite append_assoc; reflexivity).
  rewrite (drive_lex Python (prefix ++ nl) Out Out) by reflexivity. reflexivity.
Qed.
Theorem gyp_reads : forall v, unique v -> ~ within JNull v -> exists v', py_eval (config_file v) = Some v' /\ stands_for v v'.
Proof.
  intros v U N. exists (bools_to_string v). split; [|apply bools_stand]. rewrite config_py. apply read_stringify; [apply unique_bools, U|apply wordless_bools, N|apply white_nl].
Qed.

(** ** The plain style *)
Scheme writes_ind' := Minimality for writes Sort Prop with writes_items_ind' := Minimality for writes_items Sort Prop with writes_entries_ind' := Minimality for writes_entries Sort Prop.
Combined Scheme writes_mutind from writes_ind', writes_items_ind', writes_entries_ind'.

(** A token of the source with the gap after it. *)
Inductive src := SPunct (a : ascii) | SNum (z : Z) | SStr (s t : string).
Definition stext (x : src) : string := match x with SPunct a => String a "" | SNum z => rendering z | SStr _ t => t end.
Definition stok (x : src) : tok := match x with SPunct a => TPunct a | SNum z => TNum z | SStr s _ => TStr s end.
Definition src_ok (p : src * string) : Prop := gap (snd p) /\ match fst p with SPunct a => In a ["{"; "}"; "["; "]"; ","; ":"]%char | SNum _ => True | SStr s t => writes_string s t end.
Fixpoint rendered (l : list (src * string)) : string := match l with [] => "" | p :: l' => stext (fst p) ++ snd p ++ rendered l' end.
Definition stoks (l : list (src * string)) : list tok := map (fun p => stok (fst p)) l.
Lemma rendered_app : forall a b, rendered (a ++ b) = rendered a ++ rendered b.
Proof. induction a as [|p a IH]; intros b; [reflexivity|]. cbn [app rendered]. rewrite IH, !append_assoc. reflexivity. Qed.
Lemma stoks_app : forall a b, stoks (a ++ b) = (stoks a ++ stoks b)%list.
Proof. intros. apply map_app. Qed.
Definition sources (v : json) (t : string) : Prop := forall g, gap g -> exists l, rendered l = t ++ g /\ stoks l = toks v /\ Forall src_ok l.
Lemma gap_one : forall a g, In a ["{"; "}"; "["; "]"; ","; ":"]%char -> gap g -> src_ok (SPunct a, g).
Proof. intros a g H G. split; assumption. Qed.
Lemma writes_sources :
  (forall v t, writes v t -> sources v t) /\
  (forall l u, writes_items l u -> forall g, gap g -> exists g0 ps, gap g0 /\ g0 ++ rendered ps = u ++ "]" ++ g /\ Forall src_ok ps /\
     stoks ps = match l with [] => [TPunct "]"] | x :: l' => (toks x ++ flat_map (fun y => TPunct "," :: toks y) l' ++ [TPunct "]"])%list end) /\
  (forall d u, writes_entries d u -> forall g, gap g -> exists g0 ps, gap g0 /\ g0 ++ rendered ps = u ++ "}" ++ g /\ Forall src_ok ps /\
     stoks ps = match d with [] => [TPunct "}"] | (k, x) :: d' => (TStr k :: TPunct ":" :: toks x ++ flat_map (fun e => TPunct "," :: TStr (fst e) :: TPunct ":" :: toks (snd e)) d' ++ [TPunct "}"])%list end).
Proof.
  apply writes_mutind.
  - intros z g G. exists [(SNum z, g)]. split; [cbn [rendered stext fst snd]; rewrite append_nil_r; reflexivity|]. split; [reflexivity|]. repeat constructor. exact G.
  - intros s t W g G. exists [(SStr s t, g)]. split; [cbn [rendered stext fst snd]; rewrite append_nil_r; reflexivity|]. split; [reflexivity|]. repeat constructor; assumption.
  - intros l t W IH g G. destruct (IH g G) as (g0 & ps & G0 & R & F & S). exists ((SPunct "[", g0) :: ps). split; [cbn [rendered stext fst snd]; rewrite R; cbn [append]; rewrite ?append_assoc; reflexivity|]. split; [|constructor; [apply gap_one; [cbn; auto 8|exact G0]|exact F]].
    change (stoks ((SPunct "[", g0) :: ps)) with (TPunct "[" :: stoks ps). rewrite S. destruct l; reflexivity.
  - intros d t W IH g G. destruct (IH g G) as (g0 & ps & G0 & R & F & S). exists ((SPunct "{", g0) :: ps). split; [cbn [rendered stext fst snd]; rewrite R; cbn [append]; rewrite ?append_assoc; reflexivity|]. split; [|constructor; [apply gap_one; [cbn; auto 8|exact G0]|exact F]].
    change (stoks ((SPunct "{", g0) :: ps)) with (TPunct "{" :: stoks ps). rewrite S. destruct d as [|[k x] d]; reflexivity.
  - intros g0 G0 g G. exists g0, [(SPunct "]", g)]. split; [exact G0|]. split; [cbn [rendered stext fst snd append]; rewrite append_nil_r; reflexivity|]. split; [|reflexivity]. constructor; [apply gap_one; [cbn; auto 8|exact G]|constructor].
  - intros v t g0 g' G0 G' W IH g G. destruct (IH g' G') as (ps & R & S & F). exists g0, (ps ++ [(SPunct "]", g)])%list. split; [exact G0|]. split; [rewrite rendered_app, R; cbn [rendered stext fst snd append]; rewrite append_nil_r, !append_assoc; reflexivity|].
    split; [apply Forall_app; split; [exact F|constructor; [apply gap_one; [cbn; auto 8|exact G]|constructor]]|]. rewrite stoks_app, S. reflexivity.
  - intros v t g0 g' w l u G0 G' W IH WU IHu g G. destruct (IHu g G) as (gu & pu & Gu & Ru & Fu & Su). destruct (IH g' G') as (ps & R & S & F). exists g0, (ps ++ (SPunct ",", gu) :: pu)%list. split; [exact G0|].
    split; [rewrite rendered_app, R; cbn [rendered stext fst snd]; rewrite Ru, !append_assoc; reflexivity|]. split; [apply Forall_app; split; [exact F|constructor; [apply gap_one; [cbn; auto 8|exact Gu]|exact Fu]]|].
    rewrite stoks_app, S. change (stoks ((SPunct ",", gu) :: pu)) with (TPunct "," :: stoks pu). rewrite Su. cbn [flat_map app]. rewrite <- app_assoc. reflexivity.
  - intros g0 G0 g G. exists g0, [(SPunct "}", g)]. split; [exact G0|]. split; [cbn [rendered stext fst snd append]; rewrite append_nil_r; reflexivity|]. split; [|reflexivity]. constructor; [apply gap_one; [cbn; auto 8|exact G]|constructor].
  - intros k v kt t g0 g1 g2 g' G0 G1 G2 G' K W IH g G. destruct (IH g' G') as (ps & R & S & F). exists g0, ((SStr k kt, g1) :: (SPunct ":", g2) :: ps ++ [(SPunct "}", g)])%list. split; [exact G0|].
    split; [cbn [rendered stext fst snd]; rewrite rendered_app, R; cbn [rendered stext fst snd append]; rewrite append_nil_r, !append_assoc; cbn [append]; rewrite ?append_assoc; reflexivity|].
    split; [constructor; [split; assumption|constructor; [apply gap_one; [cbn; auto 8|exact G2]|]]; apply Forall_app; split; [exact F|constructor; [apply gap_one; [cbn; auto 8|exact G]|constructor]]|].
    change (stoks ((SStr k kt, g1) :: (SPunct ":", g2) :: ps ++ [(SPunct "}", g)])%list) with (TStr k :: TPunct ":" :: stoks (ps ++ [(SPunct "}", g)])). rewrite stoks_app, S. reflexivity.
  - intros k v kt t g0 g1 g2 g' e d u G0 G1 G2 G' K W IH WU IHu g G. destruct (IHu g G) as (gu & pu & Gu & Ru & Fu & Su). destruct (IH g' G') as (ps & R & S & F). exists g0, ((SStr k kt, g1) :: (SPunct ":", g2) :: ps ++ (SPunct ",", gu) :: pu)%list. split; [exact G0|].
    split; [cbn [rendered stext fst snd]; rewrite rendered_app, R; cbn [rendered stext fst snd]; rewrite Ru, !append_assoc; cbn [append]; rewrite ?append_assoc; reflexivity|].
    split; [constructor; [split; assumption|constructor; [apply gap_one; [cbn; auto 8|exact G2]|]]; apply Forall_app; split; [exact F|constructor; [apply gap_one; [cbn; auto 8|exact Gu]|exact Fu]]|].
    change (stoks ((SStr k kt, g1) :: (SPunct ":", g2) :: ps ++ (SPunct ",", gu) :: pu)%list) with (TStr k :: TPunct ":" :: stoks (ps ++ (SPunct ",", gu) :: pu)). rewrite stoks_app, S. change (stoks ((SPunct ",", gu) :: pu)) with (TPunct "," :: stoks pu). rewrite Su. destruct e as [k' y]. cbn [flat_map app fst snd]. rewrite <- app_assoc. reflexivity.
Qed.
