From Coq Require Import ZArith.
From Verif Require Import Lib LibFacts Str StrFacts Js Spec_Text Proof_Text Model_Release Spec_Release Proof_Release Proof_Release2.
Local Open Scope string_scope.

(** ** Which version *)
Lemma or_spec : forall a b, Model_Release.or a b = if String.eqb a "" then b else a.
Proof. intros [|x a] b; reflexivity. Qed.
Lemma names_nonempty : ~ names_a_version "".
Proof. apply parse_None. reflexivity. Qed.
Lemma asked_iff : forall argv o dv s, asked argv (target o) dv s <-> s = chosen argv o dv.
Proof.
  intros argv o dv s.
  assert (D : s = Model_Release.or (target o) dv <-> ((target o <> "" /\ s = target o) \/ (target o = "" /\ s = dv))).
  { rewrite or_spec. destruct (String.eqb_spec (target o) "") as [E|N]; split; intros H; [auto|destruct H as [[X _]|[_ H]]; [contradiction|exact H]|auto|destruct H as [[_ H]|[X _]]; [exact H|contradiction]]. }
  unfold asked, chosen. destruct argv as [|a l].
  - rewrite D. split; [intros [(rest & X & _)|[_ H]]; [discriminate|exact H]|]. intros H. right. split; [intros a rest X; discriminate|exact H].
  - destruct (parse a) as [sv|] eqn:P.
    + assert (NA : names_a_version a) by (destruct sv as [x y z pre]; apply parse_names in P; exists x, y, z, pre; exact P).
      replace (Model_Release.or a (Model_Release.or (target o) dv)) with a by (destruct a; [destruct (names_nonempty NA)|reflexivity]).
      split; [intros [(rest & [= -> _] & _)|[N _]]; [reflexivity|destruct (N a l eq_refl NA)]|]. intros ->. left. exists l. auto.
    + apply parse_None in P. rewrite D. split; [intros [(rest & [= -> _] & X)|[_ H]]; [contradiction|exact H]|]. intros H. right. split; [intros a' rest [= <- _]; exact P|exact H].
Qed.
Lemma chosen_of : forall argv o dv s, asked argv (target o) dv s -> chosen argv o dv = s.
Proof. intros argv o dv s H. symmetry. apply asked_iff, H. Qed.

Theorem release_version : forall argv o dv dr, match process_release argv o dv dr with
  | Invalid v => asked argv (target o) dv v /\ ~ names_a_version v
  | Release r => exists s x y z pre, asked argv (target o) dv s /\ names_version s x y z pre /\ r_version r = version_text x y z pre
  end.
Proof.
  intros argv o dv dr. unfold process_release. destruct (parse (chosen argv o dv)) as [sv|] eqn:P.
  - assert (X : exists s x y z pre, asked argv (target o) dv s /\ names_version s x y z pre /\ version sv = version_text x y z pre).
    { exists (chosen argv o dv), (major sv), (minor sv), (patch sv), (prerelease sv). split; [apply asked_iff; reflexivity|]. split; [apply parse_spec, P|apply version_eq]. }
    destruct (match parse dv with Some d => String.eqb (version sv) (version d) | None => false end); [|exact X]. destruct dr as [r|]; [|exact X].
    destruct (Model_Release.or (dist_url o) (Model_Release.or (disturl o) (mirror o))); [|exact X]. destruct (headers_url r); exact X.
  - split; [apply asked_iff; reflexivity|apply parse_None, P].
Qed.

(** ** URLs *)
Lemma resolve_slash : forall b r, resolve (b ++ "/") r = (b ++ "/") ++ r.
Proof.
  intros b r. unfold resolve. replace (rsplit1 slash (b ++ "/")) with (Some (b, "")); [rewrite append_assoc; reflexivity|]. symmetry. apply rsplit1_Some. split; reflexivity.
Qed.
Lemma resolve_file : forall d f r, has_char "/" f = false -> resolve (d ++ "/" ++ f) r = (d ++ "/") ++ r.
Proof.
  intros d f r H. unfold resolve. replace (rsplit1 slash (d ++ "/" ++ f)) with (Some (d, f)); [rewrite append_assoc; reflexivity|]. symmetry. apply rsplit1_Some. split; [reflexivity|exact H].
Qed.
Lemma after_scheme_of : forall scheme rest, has_char ":" scheme = false -> after_scheme (scheme ++ "://" ++ rest) = rest.
Proof.
  induction scheme as [|a s IH]; intros rest H; [reflexivity|]. cbn [has_char] in H. destruct (Ascii.eqb_spec a ":") as [->|N]; [discriminate|].
  cbn [append after_scheme]. destruct a as [[] [] [] [] [] [] [] []]; try (apply IH, H). congruence.
Qed.
Lemma split_first_app : forall c x y s t, split_first c s = (x, Some y) -> split_first c (s ++ t) = (x, Some (y ++ t)).
Proof. intros c x y s t H. apply split_first_Some in H. destruct H as [-> N]. apply split_first_Some. split; [rewrite append_assoc; reflexivity|exact N]. Qed.
Lemma first_slash : forall rest, exists h p, split_first "/" (rest ++ "/") = (h, Some p) /\ ("/" ++ p = "/" \/ exists q, p = q ++ "/").
Proof.
  intros rest. destruct (split_first "/" rest) as [h [p|]] eqn:E.
  - exists h, (p ++ "/"). split; [apply split_first_app, E|right; exists p; reflexivity].
  - apply split_first_None in E. destruct E as [<- N]. exists rest, "". split; [apply split_first_Some; split; [reflexivity|exact N]|left; reflexivity].
Qed.
Lemma url_path_app : forall b r, web_address b -> exists q, url_path (b ++ "/") = q ++ "/" /\ url_path ((b ++ "/") ++ r) = (q ++ "/") ++ r.
Proof.
  intros b r (scheme & rest & -> & NC). unfold url_path.
  replace ((scheme ++ "://" ++ rest) ++ "/") with (scheme ++ "://" ++ (rest ++ "/")) by (rewrite !append_assoc; reflexivity).
  replace ((scheme ++ "://" ++ rest ++ "/") ++ r) with (scheme ++ "://" ++ ((rest ++ "/") ++ r)) by (rewrite !append_assoc; reflexivity).
  rewrite !after_scheme_of by exact NC. destruct (first_slash rest) as (h & p & E & SH). rewrite E, (split_first_app _ _ _ _ _ E).
  destruct SH as [SH|(q & ->)].
  - exists "". split; [exact SH|]. cbn [append] in *. injection SH as ->. reflexivity.
  - exists ("/" ++ q). split; [reflexivity|]. rewrite !append_assoc. reflexivity.
Qed.
Lemma components_app : forall q r, components ((q ++ "/") ++ r) = (components q ++ components r)%list.
Proof.
  intros q r. unfold components. destruct (split_on_inv "/" q) as [E F]. pose proof (split_on_nonnil "/" q) as NN. rewrite append_assoc. rewrite E at 1. clear E. induction (split_on "/" q) as [|x l IH]; [congruence|].
  apply Forall_cons_iff in F. destruct F as [Fx F]. destruct l as [|y l].
  - cbn [join]. rewrite split_on_app by exact Fx. change ("/" ++ r) with (String "/" r). cbn [split_on]. rewrite Ascii.eqb_refl. rewrite append_nil_r. cbn [filter]. destruct (negb (String.eqb x "")); reflexivity.
  - rewrite join_cons by discriminate. rewrite !append_assoc. rewrite split_on_app by exact Fx.
    match goal with |- context [split_on "/" (String "/" "" ++ ?t)] => change (split_on "/" (String "/" "" ++ t)) with ("" :: split_on "/" t) end.
    cbn [filter]. rewrite append_nil_r. rewrite IH by (discriminate || exact F). destruct (negb (String.eqb x "")); reflexivity.
Qed.
Lemma components_end : forall q, components (q ++ "/") = components q.
Proof. intros q. rewrite <- (append_nil_r (q ++ "/")), components_app. apply app_nil_r. Qed.
Lemma drop_common_app : forall a b, drop_common a (a ++ b)%list = ([], b).
Proof. induction a as [|x a IH]; intros b; [destruct b; reflexivity|]. cbn. rewrite String.eqb_refl. apply IH. Qed.
Lemma relative_below : forall b l, web_address b -> l <> [] -> Forall (fun x => x <> "" /\ has_char "/" x = false) l ->
  relative (url_path (b ++ "/")) (url_path ((b ++ "/") ++ join "/" l)) = join "/" l.
Proof.
  intros b l W NN F. destruct (url_path_app b (join "/" l) W) as (q & -> & ->). unfold relative. rewrite components_app, components_end, drop_common_app. cbn [map app].
  f_equal. unfold components. rewrite (split_on_join "/"); [|exact NN|eapply Forall_impl; [|exact F]; intros x [_ H]; exact H].
  clear NN. induction F as [|x l [Hx _] F IH]; [reflexivity|]. cbn [filter]. destruct (String.eqb_spec x ""); [contradiction|]. cbn. rewrite IH. reflexivity.
Qed.

(** ** The architecture in a URL *)
Lemma after_prefix_Some : forall p s t, after_prefix p s = Some t <-> s = p ++ t.
Proof.
  induction p as [|a p IH]; intros s t; cbn; [split; [intros [= ->]; reflexivity|intros ->; reflexivity]|]. destruct s as [|b s]; [split; discriminate|]. destruct (Ascii.eqb_spec a b) as [->|N].
  - rewrite IH. split; [intros ->; reflexivity|intros [= ->]; reflexivity].
  - split; [discriminate|intros [= ? _]; congruence].
Qed.
Lemma bits_here_Some : forall archs s t, bits_here archs s = Some t -> exists a, s = "/win-" ++ (a ++ "/" ++ t).
Proof.
  induction archs as [|a archs IH]; intros s t H; [discriminate|]. cbn [bits_here] in H. destruct (after_prefix ("/win-" ++ a ++ "/") s) as [u|] eqn:E.
  - injection H as ->. apply after_prefix_Some in E. exists a. rewrite E, !append_assoc. reflexivity.
  - apply IH, H.
Qed.
Lemma contains_cons : forall x a s, contains x s -> contains x (String a s).
Proof. intros x a s (u & v & ->). exists (String a u), v. reflexivity. Qed.
Lemma replace_bits_none : forall archs arch s, ~ contains "/win-" s -> replace_bits archs arch s = None.
Proof.
  intros archs arch. induction s as [|a s IH]; intros H.
  - cbn [replace_bits]. destruct (bits_here archs "") as [t|] eqn:E; [|reflexivity]. apply bits_here_Some in E. destruct E as (x & E). discriminate.
  - cbn [replace_bits]. destruct (bits_here archs (String a s)) as [t|] eqn:E.
    + apply bits_here_Some in E. destruct E as (x & E). destruct H. exists "", (x ++ "/" ++ t). exact E.
    + rewrite IH; [reflexivity|]. intros X. apply H, contains_cons, X.
Qed.
Lemma no_overlap : forall s t u, s ++ "/win-" ++ t = "/win-" ++ u -> s = "" \/ contains "/win-" s.
Proof.
  intros s t u H. destruct s as [|a s]; [left; reflexivity|right]. cbn in H. injection H as -> H.
  do 4 (destruct s as [|? s]; [discriminate|cbn [append] in H; injection H as -> H]). exists "", s. reflexivity.
Qed.
Lemma replace_bits_at : forall archs arch a p q, ~ contains "/win-" p -> bits_here archs ("/win-" ++ a ++ "/" ++ q) = Some q ->
  replace_bits archs arch (p ++ "/win-" ++ a ++ "/" ++ q) = Some (p ++ "/win-" ++ arch ++ "/" ++ q).
Proof.
  intros archs arch a p q H B. induction p as [|b p IH].
  - cbn [append] in *. cbn [replace_bits]. rewrite B. reflexivity.
  - set (r := a ++ "/" ++ q) in *. change (String b p ++ "/win-" ++ r) with (String b (p ++ "/win-" ++ r)). cbn [replace_bits]. destruct (bits_here archs (String b (p ++ "/win-" ++ r))) as [t|] eqn:E.
    + apply bits_here_Some in E. destruct E as (x & E). change (String b (p ++ "/win-" ++ r)) with (String b p ++ "/win-" ++ r) in E. apply no_overlap in E. destruct E as [E|E]; [discriminate|contradiction].
    + rewrite IH; [reflexivity|]. intros X. apply H, contains_cons, X.
Qed.
Lemma bits_here_of : forall archs a q, In a archs -> Forall (fun x => has_char "/" x = false) archs -> bits_here archs ("/win-" ++ a ++ "/" ++ q) = Some q.
Proof.
  intros archs a q HI F. induction archs as [|x archs IH]; [destruct HI|]. apply Forall_cons_iff in F. destruct F as [Fx F]. cbn [bits_here].
  destruct (after_prefix ("/win-" ++ x ++ "/") ("/win-" ++ a ++ "/" ++ q)) as [t|] eqn:E.
  - apply after_prefix_Some in E. rewrite !append_assoc in E. apply append_inj_l in E.
    destruct HI as [->|HI].
    + apply append_inj_l in E. injection E as ->. reflexivity.
    + assert (Fa : has_char "/" a = false) by (rewrite Forall_forall in F; apply F, HI).
      assert (S1 := proj2 (split_first_Some "/" (a ++ "/" ++ q) a q) (conj eq_refl Fa)). assert (S2 := proj2 (split_first_Some "/" (x ++ "/" ++ t) x t) (conj eq_refl Fx)). rewrite E in S1. rewrite S1 in S2. injection S2 as _ ->. reflexivity.
  - destruct HI as [->|HI]; [|apply IH; assumption]. rewrite (proj2 (after_prefix_Some _ _ q)) in E by (rewrite !append_assoc; reflexivity). discriminate.
Qed.
