(** The whole expansion. *)
From Coq Require Import ZArith DecimalString.
From Verif Require Import Lib LibFacts Str StrFacts Model_Value Model_Text Spec_Text Proof_Text Model_Quote Model_Cond Model_Expand Spec_Expand Proof_Expand Proof_Expand2.
Local Open Scope string_scope.

Section Expand.
Variable symbol : ascii.
Hypothesis Hsym : phase_symbol symbol.
Variable command : option string -> bool -> string -> result string.
Variable list_file : list string -> result string.
Variable filters : dict -> result dict.
Variable repr : value -> string.
Variable shlex : string -> result (list string).
Variable eval : dict -> value -> result bool.
Variable c : Model_Merge.ctx.
Variable ph : phase.
Variable vars : dict.
Notation render := (render symbol).
Notation evals := (evals symbol vars command).
Notation items := (items symbol vars command).
Notation names := (names symbol vars command).
Notation E := (expand symbol command list_file filters repr shlex eval c ph).
Notation PL := (fun f => process_list (E f) eval c ph f vars).
Notation RA f := (replace_all command list_file filters repr shlex (E f%nat) (PL f%nat) vars).
Notation RO f := (replacement_of command list_file filters (E f%nat) (PL f%nat) vars).

Lemma items_process : forall f N, 0 < f -> (forall i t s n, evals i t s n -> n < N -> E f vars (VStr (render t)) = Val (as_value s)) ->
  forall i l ss n, items i l ss n -> n < N -> PL f l = Val (map as_value ss).
Proof.
  intros f N Hf HE i l ss n H HN. destruct f as [|f]; [lia|]. cbn beta. cbn [process_list].
  assert (R : forall l ss n, items i l ss n -> n < N -> forall pd pl, rmap (process_item (E (S f)) pd pl vars) l = Val (map (fun s => [as_value s]) ss)).
  { clear l ss n H HN. intros l. induction l as [|v l IH]; intros ss n H HN pd pl; inversion H; subst; [reflexivity|]. cbn [rmap map].
    assert (X : process_item (E (S f)) pd pl vars v = Val [as_value s]).
    { match goal with HX : text_of _ v _ |- _ => inversion HX; subst end; cbn [process_item].
      - match goal with HX : evals i _ s _ |- _ => rewrite (HE _ _ _ _ HX) by lia end. cbn [rbind]. unfold as_value. destruct (is_str_canonical_int s); reflexivity.
      - match goal with HX : evals i _ s _ |- _ => apply evals_lits in HX; subst s end. destruct (as_value_spec (rendering z)) as [(_ & z' & HZ & ->)|[HC _]]; [|exfalso; apply HC, rendering_shape]. pose proof (rendering_reads z). unfold reads_as in *. congruence. }
    rewrite X. cbn [rbind]. erewrite IH by (eassumption || lia). reflexivity. }
  rewrite (R l ss n H HN). cbn [rbind]. f_equal. clear. induction ss as [|s ss IH]; [reflexivity|]. cbn. rewrite IH. reflexivity.
Qed.

Lemma expand_unfold : forall f s, is_str_canonical_int s = false -> has_char symbol s = true -> find_from symbol 0 0 s <> [] ->
  E (S f) vars (VStr s) = rbind (RA f (rev (find_from symbol 0 0 s)) s) (fun output =>
    rbind (match output with
           | VStr o => if String.eqb o s then Val output else E f vars output
           | VList (VList _ :: _) => Val output
           | VList l => rbind (rmap (E f vars) l) (fun l' => Val (VList l'))
           | _ => Val output
           end) (fun output => Val (match output with VList l => VList (map canonical l) | v => canonical v end))).
Proof. intros f s H1 H2 H3. cbn [expand py_str]. rewrite H1, H2. cbn [negb]. destruct (find_from symbol 0 0 s); [congruence|]. reflexivity. Qed.
Lemma expand_plain : forall f s, has_char symbol s = false -> E (S f) vars (VStr s) = Val (as_value s).
Proof. intros f s H. cbn [expand py_str]. unfold as_value. destruct (is_str_canonical_int s); [reflexivity|]. rewrite H. reflexivity. Qed.
Lemma expand_int : forall f z, E (S f) vars (VInt z) = Val (VInt z).
Proof.
  intros f z. cbn [expand py_str]. assert (H : is_str_canonical_int (int_str z) = true) by (apply canonical_iff_rendering; exists z; reflexivity). rewrite H. do 2 f_equal. pose proof (rendering_reads z) as R. unfold reads_as, int_of, rendering, int_str in *. destruct (NilZero.int_of_string (NilZero.string_of_int (Z.to_int z))); [injection R as ->; reflexivity|discriminate].
Qed.

Lemma find_all : forall i t, well_formed symbol i t -> exists ms, marks symbol true 0 t ms /\ find_from symbol 0 0 (render t) = ms.
Proof.
  intros i t H. destruct (find_marks symbol Hsym t i H) as [F _]. destruct (F 0) as (ms & M & FM). exists ms. split; [exact M|]. specialize (FM ""). rewrite append_nil_r in FM. rewrite FM. cbn. rewrite app_nil_r. reflexivity.
Qed.
Theorem expand_evals : forall n i t s, evals i t s n -> forall fuel, n < fuel -> E fuel vars (VStr (render t)) = Val (as_value s).
Proof.
  induction n as [n IHn] using (well_founded_induction lt_wf). intros i t s H fuel HF. destruct fuel as [|f]; [lia|].
  destruct (has_char symbol (render t)) eqn:HS.
  2:{ rewrite (evals_no_symbol _ _ _ _ _ _ _ H HS). apply expand_plain, HS. }
  assert (HC : is_str_canonical_int (render t) = false). { destruct (is_str_canonical_int (render t)) eqn:X; [|reflexivity]. apply (canonical_no_symbol symbol Hsym) in X. congruence. }
  destruct (find_all i t (evals_wf _ _ _ _ _ _ _ H)) as (ms & M & F).
  assert (Hrec : forall i t s m, evals i t s m -> m < n -> E f vars (VStr (render t)) = Val (as_value s)) by (intros; eapply IHn; [|eassumption|lia]; assumption).
  assert (Hrecl : forall i l ss m, items i l ss m -> m < n -> PL f l = Val (map as_value ss)) by (intros i' l ss m HI HM; apply (items_process f n ltac:(lia) Hrec i' l ss m HI HM)).
  destruct (round symbol Hsym vars command list_file filters repr shlex (E f) (PL f) n Hrec Hrecl t true 0 ms M i s n H (le_n n)) as (t' & n' & H' & L & S & Q & _ & C).
  destruct ms as [|m ms].
  { pose proof (proj1 (evals_quiet symbol Hsym vars command) _ _ _ _ H) as [X _]. rewrite (Q eq_refl eq_refl) in X. congruence. }
  rewrite expand_unfold by (try assumption; rewrite F; discriminate). rewrite F. specialize (C "" "" [] eq_refl). cbn [append] in C. rewrite !append_nil_r, app_nil_r in C. rewrite C. cbn [replace_all rbind].
  specialize (S ltac:(discriminate)).
  destruct (String.eqb_spec (render t') (render t)) as [EQ|NE].
  - (* nothing changed: the text stands for itself *)
    cbn [rbind]. assert (G : E (Datatypes.S f) vars (VStr (render t')) = Val (as_value s)) by (eapply (IHn n' S); [exact H'|lia]).
    rewrite EQ in G at 1. rewrite expand_unfold in G by (try assumption; rewrite F; discriminate). rewrite F, C in G. cbn [replace_all rbind] in G. rewrite EQ, String.eqb_refl in G. cbn [rbind] in G. rewrite EQ. exact G.
  - rewrite (IHn n' S i t' s H' f) by lia. cbn [rbind]. rewrite <- (canonical_as_value s) at 2. unfold as_value. destruct (is_str_canonical_int s); reflexivity.
Qed.

(** ** A reference that fails *)
Lemma marks_app : forall t u pos ms, marks symbol true pos (tapp t u) ms -> exists ms1 ms2, ms = (ms1 ++ ms2)%list /\ marks symbol true (pos + len symbol t) u ms2.
Proof.
  induction t as [|a r IH|o cl t IHt r IH|run nm IHn r IH]; intros u pos ms H; cbn [tapp] in H.
  - exists [], ms. split; [reflexivity|]. cbn. rewrite Nat.add_0_r. exact H.
  - inversion H; subst. match goal with HX : marks symbol true (S pos) (tapp r u) ms |- _ => destruct (IH _ _ _ HX) as (m1 & m2 & -> & M) end. exists m1, m2. split; [reflexivity|]. replace (pos + len symbol (Lit a r)) with (S pos + len symbol r) by (unfold len; cbn [Spec_Expand.render String.length]; lia). exact M.
  - inversion H; subst. cbn [orb] in *. match goal with HX : marks symbol true _ (tapp r u) _ |- _ => destruct (IH _ _ _ HX) as (m1 & m2 & -> & M) end. exists (ms1 ++ m1)%list, m2. split; [rewrite app_assoc; reflexivity|].
    replace (pos + len symbol (Group o cl t r)) with (pos + 2 + len symbol t + len symbol r) by (unfold len; cbn [Spec_Expand.render String.length]; rewrite length_app; cbn [String.length]; lia). exact M.
  - inversion H; subst. match goal with HX : marks symbol true _ (tapp r u) _ |- _ => destruct (IH _ _ _ HX) as (m1 & m2 & -> & M) end. exists (reference run arr pos :: ms1 ++ m1)%list, m2. split; [cbn; rewrite app_assoc; reflexivity|].
    replace (pos + len symbol (Ref run nm r)) with (pos + 2 + String.length (mark run) + len symbol nm + len symbol r) by (unfold len; cbn [Spec_Expand.render String.length]; rewrite !length_app; cbn [String.length]; lia). exact M.
Qed.
Lemma wf_app : forall i t u, well_formed symbol i t -> well_formed symbol i u -> well_formed symbol i (tapp t u).
Proof. intros i t u H HU. induction H; cbn [tapp]; [exact HU|constructor; auto..]. Qed.
Lemma ra_fails : forall f run arr nm P T rest e, well_formed symbol true nm -> RO f (reference run arr (String.length P)) (render nm) = Exn e ->
  RA f (reference run arr (String.length P) :: rest) (P ++ String symbol (mark run ++ render nm ++ String ")" T)) = Exn e.
Proof.
  intros f run arr nm P T rest e HW HR. cbn [replace_all]. change (at_ (reference run arr (String.length P))) with (String.length P). rewrite slice_from by reflexivity. rewrite group_ref by assumption.
  assert (E1 : P ++ String symbol (mark run ++ render nm ++ String ")" T) = (P ++ String symbol (mark run)) ++ render nm ++ String ")" T) by (apps; reflexivity).
  rewrite E1 at 1. rewrite slice_mid; [|rewrite length_app; cbn [String.length]; lia|rewrite length_app; cbn [String.length]; unfold len; lia]. rewrite HR. reflexivity.
Qed.

(** whatever is before it, a reference that fails when its turn comes fails the
    whole expansion *)
Lemma reference_fails : forall pre run nm post name k s n e fuel, well_formed symbol false pre -> evals true nm name k -> evals false post s n -> S (k + n) < fuel ->
  (forall f arr pos nm', k + n < f -> (arr = true <-> list_command (render nm)) -> E f vars (VStr (render nm')) = Val (as_value name) -> RO f (reference run arr pos) (render nm') = Exn e) ->
  E fuel vars (VStr (render (tapp pre (Ref run nm post)))) = Exn e.
Proof.
  intros pre run nm post name k s n e fuel HP HN HS HF HR. destruct fuel as [|f]; [lia|].
  assert (W : well_formed symbol false (tapp pre (Ref run nm post))) by (apply wf_app; [exact HP|constructor; eapply evals_wf; eassumption]).
  destruct (find_all false _ W) as (ms & M & F). destruct (marks_app _ _ _ _ M) as (m1 & m2 & -> & M2). cbn [Nat.add] in M2. inversion M2; subst.
  set (N := S (k + n)).
  assert (Hrec : forall i t s m, evals i t s m -> m < N -> E f vars (VStr (render t)) = Val (as_value s)) by (intros; eapply expand_evals; [eassumption|unfold N in *; lia]).
  assert (Hrecl : forall i l ss m, items i l ss m -> m < N -> PL f l = Val (map as_value ss)) by (intros i' l ss m HI HM; apply (items_process f N ltac:(unfold N in *; lia) Hrec i' l ss m HI HM)).
  match goal with H1 : marks symbol false _ nm ?m1', H2 : marks symbol true _ post ?m2' |- _ =>
    destruct (round symbol Hsym vars command list_file filters repr shlex (E f) (PL f) N Hrec Hrecl nm false _ m1' H1 true name k HN ltac:(unfold N; lia)) as (nm' & k' & E1 & L1 & _ & _ & _ & C1);
    destruct (round symbol Hsym vars command list_file filters repr shlex (E f) (PL f) N Hrec Hrecl post true _ m2' H2 false s n HS ltac:(unfold N; lia)) as (post' & n' & E2 & L2 & _ & _ & _ & C2) end.
  assert (HSym : has_char symbol (render (tapp pre (Ref run nm post))) = true). { rewrite render_app, has_char_app. cbn [Spec_Expand.render has_char]. rewrite Ascii.eqb_refl, orb_true_r. reflexivity. }
  rewrite expand_unfold; [|destruct (is_str_canonical_int _) eqn:X; [apply (canonical_no_symbol symbol Hsym) in X; congruence|reflexivity]|exact HSym|rewrite F; destruct m1; discriminate].
  rewrite F, rev_app_distr. cbn [rev]. rewrite rev_app_distr, <- !app_assoc, render_app. cbn [Spec_Expand.render append].
  specialize (C2 (render pre ++ String symbol (mark run ++ render nm ++ ")")) ""). rewrite !append_nil_r in C2.
  replace (render pre ++ String symbol (mark run ++ render nm ++ String ")" (render post))) with ((render pre ++ String symbol (mark run ++ render nm ++ ")")) ++ render post) by (apps; reflexivity).
  rewrite C2 by (rewrite !length_app; cbn [String.length]; rewrite !length_app; cbn [String.length]; unfold len; lia).
  replace ((render pre ++ String symbol (mark run ++ render nm ++ ")")) ++ render post') with ((render pre ++ String symbol (mark run)) ++ render nm ++ String ")" (render post')) by (apps; reflexivity).
  rewrite C1 by (rewrite length_app; cbn [String.length]; unfold len; lia). cbn [app].
  replace ((render pre ++ String symbol (mark run)) ++ render nm' ++ String ")" (render post')) with (render pre ++ String symbol (mark run ++ render nm' ++ String ")" (render post'))) by (apps; reflexivity).
  unfold len. rewrite ra_fails with (e := e); [reflexivity|eapply evals_wf; exact E1|]. apply HR; [lia|assumption|]. eapply Hrec; [exact E1|unfold N; lia].
Qed.
Theorem expand_undefined : forall pre nm name key k post s n fuel, well_formed symbol false pre -> names nm name key k -> assoc key vars = None -> key <> "" -> (forall u, key <> u ++ "!" /\ key <> u ++ "/") -> evals false post s n -> S (k + n) < fuel ->
  E fuel vars (VStr (render (tapp pre (Ref false nm post)))) = Exn (GypError ("Undefined variable " ++ key)).
Proof.
  intros pre nm name key k post s n fuel HP HN HA HK HL HS HF. inversion HN; subst. eapply reference_fails; [exact HP|eassumption|exact HS|exact HF|].
  intros f arr pos nm' _ _ HE. unfold replacement_of, reference. cbn [bar bang]. rewrite HE. unfold as_value. destruct (is_str_canonical_int name) eqn:X; [apply canonical_iff_shape in X; contradiction|]. cbn [rbind].
  match goal with HX : trimmed name key |- _ => rewrite (trimmed_strip _ _ HX) end. rewrite HA. destruct (snoc_case key) as [->|(u & a & ->)]; [congruence|]. rewrite last_char_app. destruct (Ascii.eqb_spec a "!") as [->|]; [destruct (HL u); congruence|]. destruct (Ascii.eqb_spec a "/") as [->|]; [destruct (HL u); congruence|]. reflexivity.
Qed.
Theorem expand_command_fails : forall pre nm name key k post s n b e fuel, well_formed symbol false pre -> names nm name key k -> (b = true <-> list_command (render nm)) -> command None b key = Exn e -> evals false post s n -> S (k + n) < fuel ->
  E fuel vars (VStr (render (tapp pre (Ref true nm post)))) = Exn e.
Proof.
  intros pre nm name key k post s n b e fuel HP HN HB HC HS HF. inversion HN; subst. eapply reference_fails; [exact HP|eassumption|exact HS|exact HF|].
  intros f arr pos nm' _ HA HE. unfold replacement_of, reference. cbn [bar bang Model_Expand.cmd array]. rewrite HE. unfold as_value. destruct (is_str_canonical_int name) eqn:X; [apply canonical_iff_shape in X; contradiction|]. cbn [rbind].
  match goal with HX : trimmed name key |- _ => rewrite (trimmed_strip _ _ HX) end. assert (Eb : arr = b) by (destruct arr, b; intuition congruence). rewrite Eb, HC. reflexivity.
Qed.

(** ** References that ask for a list *)
Definition list_reference (run arr : bool) : found := {| at_ := 0; bang := run; star := true; bar := false; cmd := None; array := arr |}.
Lemma group_list_ref : forall run t, well_formed symbol true t -> find_enclosing_bracket_group (String symbol (list_mark run ++ render t ++ ")")) = (Z.of_nat (String.length (list_mark run)), Z.of_nat (String.length (list_mark run)) + Z.of_nat (len symbol t) + 2)%Z.
Proof.
  intros run t H. unfold find_enclosing_bracket_group. destruct (symbol_scan symbol Hsym) as [O C]. cbn [scan]. rewrite O, C.
  assert (M : forall X, scan [] (-1) (0 + 1) (list_mark run ++ X) = scan ["("%char] (Z.of_nat (String.length (list_mark run))) (1 + Z.of_nat (String.length (list_mark run))) X) by (intros X; destruct run; reflexivity).
  rewrite M, scan_render; [|exact Hsym|exact H|discriminate|destruct run; discriminate]. cbn [scan]. change (is_open ")") with false. cbn iota. change (opener ")") with (Some "("%char). cbn iota beta. change (Ascii.eqb "(" "(") with true. cbn [negb]. f_equal. lia.
Qed.
Lemma expand_values : forall f ss, Forall (fun s => has_char symbol s = false) ss -> rmap (E (S f) vars) (map as_value ss) = Val (map as_value ss).
Proof.
  intros f ss H. induction H as [|s ss HS H IH]; [reflexivity|]. cbn [map rmap]. assert (X : E (S f) vars (as_value s) = Val (as_value s)). { unfold as_value at 1. destruct (is_str_canonical_int s) eqn:X; [rewrite expand_int; unfold as_value; rewrite X; reflexivity|apply expand_plain, HS]. } rewrite X. cbn [rbind]. rewrite IH. reflexivity.
Qed.
Lemma canonical_values : forall ss, map canonical (map as_value ss) = map as_value ss.
Proof. intros ss. rewrite map_map. apply map_ext. exact canonical_as_value. Qed.
(** the list, before its items are expanded (again) *)
Lemma list_round : forall run nm name k f v, evals true nm name k -> k < f ->
  (forall arr nm', (arr = true <-> list_command (render nm)) -> E f vars (VStr (render nm')) = Val (as_value name) -> RO f (list_reference run arr) (render nm') = Val v) ->
  let s := String symbol (list_mark run ++ render nm ++ ")") in
  is_str_canonical_int s = false /\ has_char symbol s = true /\ find_from symbol 0 0 s <> [] /\
  RA f (rev (find_from symbol 0 0 s)) s = rbind (match v with VList l => Val l | _ => rbind (shlex (py_str repr v)) (fun ws => Val (map VStr ws)) end) (fun l => Val (VList l)).
Proof.
  intros run nm name k f v HN HF HR s. pose proof (evals_wf _ _ _ _ _ _ _ HN) as HW.
  assert (HSym : has_char symbol s = true) by (unfold s; cbn [has_char]; rewrite Ascii.eqb_refl; reflexivity).
  split; [destruct (is_str_canonical_int s) eqn:X; [apply (canonical_no_symbol symbol Hsym) in X; congruence|reflexivity]|]. split; [exact HSym|].
  destruct (wf_close symbol Hsym nm "" HW) as [kc K]. destruct (find_marks symbol Hsym nm true HW) as [_ FM]. destruct (FM eq_refl (S (String.length (list_mark run)))) as (ms & M & F).
  assert (HM : exists arr, (arr = true <-> list_command (render nm)) /\ find_from symbol 0 0 s = list_reference run arr :: ms).
  { unfold s. assert (X : exists arr, (arr = true <-> list_command (render nm ++ ")")) /\ match_here symbol 0 (String symbol (list_mark run ++ render nm ++ ")")) = Some (list_reference run arr, S (String.length (list_mark run)) + kc)).
    { destruct run; [apply (match_here_gen symbol "!@" true true _ 0 kc eq_refl K)|apply (match_here_gen symbol "@" false true _ 0 kc eq_refl K)]. }
    destruct X as (arr & HA & HX). rewrite list_command_app in HA. exists arr. split; [exact HA|]. cbn [find_from]. rewrite HX. f_equal. replace (S (String.length (list_mark run)) + kc - 1) with (String.length (list_mark run) + kc) by lia. rewrite find_skip. specialize (F _ _ K). cbn [Nat.add] in *.
    destruct (has_char ")" (render nm)) eqn:C1.
    - rewrite F. rewrite find_plain by (intros X; destruct (symbol_not_bracket symbol Hsym) as (NB & _); apply NB; rewrite <- X; unfold bracket; cbn; auto 8). cbn. apply app_nil_r.
    - destruct F as [-> F]. rewrite F. destruct (to_close_inv _ _ _ K C1) as (k2 & K2 & ->). cbn in K2. injection K2 as <-. unfold len. replace (String.length (render nm) + 1 - String.length (render nm)) with 1 by lia. reflexivity. }
  destruct HM as (arr & HA & HM). rewrite HM. split; [discriminate|]. cbn [rev].
  assert (Hrec : forall i t s m, evals i t s m -> m < S k -> E f vars (VStr (render t)) = Val (as_value s)) by (intros; eapply expand_evals; [eassumption|lia]).
  assert (Hrecl : forall i l ss m, items i l ss m -> m < S k -> PL f l = Val (map as_value ss)) by (intros i' l ss m HI HX; apply (items_process f (S k) ltac:(lia) Hrec i' l ss m HI HX)).
  destruct (round symbol Hsym vars command list_file filters repr shlex (E f) (PL f) (S k) Hrec Hrecl nm false _ ms M true name k HN ltac:(lia)) as (nm' & k' & E1 & L1 & _ & _ & _ & C1).
  unfold s. replace (String symbol (list_mark run ++ render nm ++ ")")) with (String symbol (list_mark run) ++ render nm ++ ")") by (apps; reflexivity). rewrite C1 by reflexivity.
  cbn [replace_all]. change (at_ (list_reference run arr)) with 0. change (Z.of_nat 0) with 0%Z.
  pose proof (slice_from "" (String symbol (list_mark run) ++ render nm' ++ ")") 0%Z eq_refl) as S0. cbn [append] in S0 |- *. rewrite S0. rewrite group_list_ref by (eapply evals_wf; exact E1).
  rewrite !Z.add_0_l.
  assert (LS : (Z.of_nat (String.length (list_mark run)) + Z.of_nat (len symbol nm') + 2)%Z = Z.of_nat (String.length (String symbol (list_mark run ++ render nm' ++ ")")))) by (cbn [String.length]; rewrite !length_app; cbn [String.length]; unfold len; lia).
  rewrite LS. pose proof (slice_mid "" (String symbol (list_mark run ++ render nm' ++ ")")) "" 0%Z _ eq_refl eq_refl) as S1. cbn [append] in S1. rewrite append_nil_r in S1. cbn [String.length Nat.add] in S1 |- *. rewrite S1.
  assert (S2 : py_slice (String symbol (list_mark run ++ render nm' ++ ")")) (Z.of_nat (String.length (list_mark run)) + 1) (Z.of_nat (S (String.length (list_mark run ++ render nm' ++ ")"))) - 1) = render nm').
  { replace (String symbol (list_mark run ++ render nm' ++ ")")) with (String symbol (list_mark run) ++ render nm' ++ ")") by (apps; reflexivity). apply slice_mid; cbn [String.length]; [lia|]. rewrite !length_app. cbn [String.length]. lia. }
  rewrite S2, (HR arr nm' HA) by (eapply Hrec; [exact E1|lia]). cbn [rbind star list_reference andb]. rewrite String.eqb_refl. reflexivity.
Qed.

(** "<@(name)" of a list variable: its items, expanded *)
Theorem expand_list : forall nm name key k l ss m fuel, names nm name key k -> key <> "" -> assoc key vars = Some (VList l) -> items false l ss m -> S (k + m) < fuel ->
  E fuel vars (VStr (String symbol (list_mark false ++ render nm ++ ")"))) = Val (VList (map as_value ss)).
Proof.
  intros nm name key k l ss m fuel HN HK HA HI HF. destruct fuel as [|f]; [lia|]. inversion HN; subst.
  destruct (list_round false nm name k f (VList (map as_value ss))) as (A & B & C & D); [assumption|lia| |].
  - intros arr nm' _ HE. unfold replacement_of, list_reference. cbn [bar bang]. rewrite HE. unfold as_value at 1. destruct (is_str_canonical_int name) eqn:X; [apply canonical_iff_shape in X; contradiction|]. cbn [rbind].
    match goal with HX : trimmed name key |- _ => rewrite (trimmed_strip _ _ HX) end. rewrite HA. cbn [rbind].
    assert (CI : check_items key l = Val tt). { unfold check_items. rewrite (items_scalar _ _ _ _ _ _ _ HI). destruct l; [reflexivity|]. destruct (snoc_case key) as [->|(u & a & ->)]; [congruence|]. rewrite last_char_app, orb_true_r. reflexivity. }
    rewrite CI. cbn [rbind]. rewrite (items_process f (S m) ltac:(lia)) with (ss := ss) (n := m) (i := false); [reflexivity| |exact HI|lia]. intros; eapply expand_evals; [eassumption|lia].
  - rewrite expand_unfold by assumption. rewrite D. cbn [rbind]. assert (Q : Forall (fun s => has_char symbol s = false) ss) by (eapply Forall_impl; [|apply (proj2 (proj2 (evals_quiet symbol Hsym vars command)) _ _ _ _ HI)]; intros x [HX _]; exact HX).
    destruct f as [|f]; [lia|]. pose proof (expand_values f ss Q) as V. destruct ss as [|s1 ss]; [reflexivity|]. cbn [map] in *. assert (NL : forall l', as_value s1 <> VList l') by (intros l'; unfold as_value; destruct (is_str_canonical_int s1); discriminate).
    destruct (as_value s1) eqn:Es1; try (exfalso; eapply NL; reflexivity); rewrite V; cbn [rbind map]; rewrite canonical_values; rewrite <- Es1 at 1; rewrite canonical_as_value, Es1; reflexivity.
Qed.
(** "<@(name)" of a text, and "<!@(command)": the words, each expanded *)
Lemma expand_words_gen : forall run nm name k v ws ss m fuel, evals true nm name k -> (forall l, v <> VList l) -> shlex (py_str repr v) = Val ws -> items false (map VStr ws) ss m -> S (k + m) < fuel ->
  (forall f arr nm', k < f -> (arr = true <-> list_command (render nm)) -> E f vars (VStr (render nm')) = Val (as_value name) -> RO f (list_reference run arr) (render nm') = Val v) ->
  E fuel vars (VStr (String symbol (list_mark run ++ render nm ++ ")"))) = Val (VList (map as_value ss)).
Proof.
  intros run nm name k v ws ss m fuel HN HV HX HI HF HR. destruct fuel as [|f]; [lia|]. destruct (list_round run nm name k f v) as (A & B & C & D); [assumption|lia|intros arr nm' H1 H2; apply HR; [lia|assumption..]|].
  rewrite expand_unfold by assumption. rewrite D. assert (X : match v with VList l => Val l | _ => rbind (shlex (py_str repr v)) (fun ws => Val (map VStr ws)) end = Val (map VStr ws)) by (destruct v; try (rewrite HX; reflexivity); exfalso; eapply HV; reflexivity). rewrite X. cbn [rbind].
  assert (R : forall ws ss m, items false (map VStr ws) ss m -> m < f -> rmap (E f vars) (map VStr ws) = Val (map as_value ss)).
  { clear - Hsym. intros ws. induction ws as [|w ws IH]; intros ss m HI HM; inversion HI; subst; [reflexivity|]. cbn [map rmap]. match goal with HT : text_of _ _ _ |- _ => inversion HT; subst end. erewrite expand_evals by (eassumption || lia). cbn [rbind]. erewrite IH by (eassumption || lia). reflexivity. }
  assert (F : match map VStr ws with VList _ :: _ => Val (VList (map VStr ws)) | l => rbind (rmap (E f vars) l) (fun l' => Val (VList l')) end = Val (VList (map as_value ss))).
  { pose proof (R ws ss m HI ltac:(lia)) as R1. destruct ws as [|w ws]; cbn [map] in *; rewrite R1; reflexivity. }
  destruct ws as [|w ws]; cbn [map] in *; rewrite F; cbn [rbind]; rewrite canonical_values; reflexivity.
Qed.
Theorem expand_words : forall nm name key k v ws ss m fuel, names nm name key k -> assoc key vars = Some v -> is_scalar v = true -> shlex (py_str repr v) = Val ws -> items false (map VStr ws) ss m -> S (k + m) < fuel ->
  E fuel vars (VStr (String symbol (list_mark false ++ render nm ++ ")"))) = Val (VList (map as_value ss)).
Proof.
  intros nm name key k v ws ss m fuel HN HA HV HX HI HF. inversion HN; subst. eapply (expand_words_gen false nm name k v); [eassumption|intros l ->; discriminate|exact HX|exact HI|exact HF|].
  intros f arr nm' _ _ HE. unfold replacement_of, list_reference. cbn [bar bang]. rewrite HE. unfold as_value. destruct (is_str_canonical_int name) eqn:X; [apply canonical_iff_shape in X; contradiction|]. cbn [rbind].
  match goal with HX : trimmed name key |- _ => rewrite (trimmed_strip _ _ HX) end. rewrite HA. cbn [rbind]. destruct v; try discriminate; reflexivity.
Qed.
Theorem expand_command_words : forall nm name key k b out ws ss m fuel, names nm name key k -> (b = true <-> list_command (render nm)) -> command None b key = Val out -> shlex out = Val ws -> items false (map VStr ws) ss m -> S (k + m) < fuel ->
  E fuel vars (VStr (String symbol (list_mark true ++ render nm ++ ")"))) = Val (VList (map as_value ss)).
Proof.
  intros nm name key k b out ws ss m fuel HN HB HC HX HI HF. inversion HN; subst. eapply (expand_words_gen true nm name k (VStr out)); [eassumption|discriminate|exact HX|exact HI|exact HF|].
  intros f arr nm' _ HA HE. unfold replacement_of, list_reference. cbn [bar bang Model_Expand.cmd array]. rewrite HE. unfold as_value. destruct (is_str_canonical_int name) eqn:X; [apply canonical_iff_shape in X; contradiction|]. cbn [rbind].
  match goal with HX : trimmed name key |- _ => rewrite (trimmed_strip _ _ HX) end. assert (Eb : arr = b) by (destruct arr, b; intuition congruence). rewrite Eb, HC. reflexivity.
Qed.
End Expand.
