(** Proofs about files of certificates. *)
From Coq Require Import Lia.
From Verif Require Import Lib Str StrFacts Model_CaFile Spec_CaFile.
From Verif Require Proof_Vs Proof_Ninja.
Local Open Scope string_scope.

Lemma behind : forall p s, substring (String.length p) (String.length (p ++ s) - String.length p) (p ++ s) = s.
Proof.
  intros p s. replace (String.length (p ++ s) - String.length p) with (String.length s) by (rewrite Proof_Ninja.len_app; lia). induction p as [|a p IH]; cbn [append String.length substring]; [|exact IH].
  induction s as [|a s IH]; [reflexivity|]. cbn [String.length substring]. f_equal. exact IH.
Qed.
Lemma cut_some : forall p s x y, cut p s = Some (x, y) -> s = x ++ p ++ y /\ forall a b, s = a ++ p ++ b -> String.length x <= String.length a.
Proof.
  intros p. induction s as [|c s IH]; intros x y H; cbn [cut] in H.
  - destruct (String.prefix p "") eqn:P; [|discriminate]. apply Proof_Vs.prefix_iff in P. destruct P as (r & P). destruct p as [|d p]; [|discriminate P]. cbn in H. injection H as <- <-. split; [reflexivity|intros a b _; cbn; lia].
  - destruct (String.prefix p (String c s)) eqn:P.
    + apply Proof_Vs.prefix_iff in P. destruct P as (r & P). rewrite P, behind in H. injection H as <- <-. split; [exact P|intros a b _; cbn; lia].
    + destruct (cut p s) as [[x' y']|] eqn:C; [|discriminate]. injection H as <- <-. destruct (IH _ _ eq_refl) as (E & M). split; [rewrite E at 1; reflexivity|].
      intros a b E'. destruct a as [|d a]; [exfalso; cbn [append] in E'; rewrite E', (proj2 (Proof_Vs.prefix_iff p (p ++ b)) (ex_intro _ b eq_refl)) in P; discriminate|]. cbn [append] in E'. injection E' as _ E'. cbn [String.length]. specialize (M a b E'). lia.
Qed.
Lemma cut_none : forall p s, cut p s = None <-> ~ occurs p s.
Proof.
  intros p. induction s as [|c s IH]; cbn [cut].
  - destruct (String.prefix p "") eqn:P.
    + split; [discriminate|]. intros H. apply Proof_Vs.prefix_iff in P. destruct P as (r & P). destruct (H (ex_intro _ "" (ex_intro _ r P))).
    + split; [|reflexivity]. intros _ (a & b & E). destruct a; [|discriminate]. cbn [append] in E. rewrite (proj2 (Proof_Vs.prefix_iff p "") (ex_intro _ b E)) in P. discriminate.
  - destruct (String.prefix p (String c s)) eqn:P.
    + split; [discriminate|]. intros H. apply Proof_Vs.prefix_iff in P. destruct P as (r & P). destruct (H (ex_intro _ "" (ex_intro _ r P))).
    + destruct (cut p s) as [[x y]|] eqn:C.
      * split; [discriminate|]. intros H. destruct (cut_some p s x y C) as (E & _). destruct H. exists (String c x), y. rewrite E at 1. reflexivity.
      * split; [|reflexivity]. intros _ (a & b & E). destruct a as [|d a]; cbn [append] in E; [rewrite E, (proj2 (Proof_Vs.prefix_iff p (p ++ b)) (ex_intro _ b eq_refl)) in P; discriminate|]. injection E as _ E. apply (proj1 IH eq_refl). exists a, b. exact E.
Qed.
Lemma cut_shorter : forall p s x y, cut p s = Some (x, y) -> String.length y + String.length p <= String.length s.
Proof. intros p s x y C. destruct (cut_some p s x y C) as (-> & _). rewrite !Proof_Ninja.len_app. lia. Qed.
Lemma certificates_total : forall fuel s, String.length s < fuel -> exists l, certificates fuel s = Some l.
Proof.
  induction fuel as [|fuel IH]; intros s L; [lia|]. cbn [certificates]. destruct (cut "-----BEGIN CERTIFICATE-----" s) as [[x y]|] eqn:C1; [|eexists; reflexivity]. destruct (cut "-----END CERTIFICATE-----" y) as [[b r]|] eqn:C2; [|eexists; reflexivity].
  assert (L1 := cut_shorter _ _ _ _ C1). assert (L2 := cut_shorter _ _ _ _ C2). cbn [String.length] in L1, L2. destruct (IH r ltac:(lia)) as (l & ->). eexists. reflexivity.
Qed.
Lemma read_total : forall s, exists r, read_ca_file s = Some r.
Proof. intros s. unfold read_ca_file. destruct (certificates_total (S (String.length s)) s ltac:(lia)) as (l & ->). destruct l; eexists; reflexivity. Qed.

(** ** all of them *)
Lemma app_cut : forall a b x y, a ++ x = b ++ y -> String.length a <= String.length b -> exists m, b = a ++ m /\ x = m ++ y.
Proof.
  induction a as [|c a IH]; intros b x y E L; [exists b; split; [reflexivity|exact E]|]. destruct b as [|d b]; [cbn in L; lia|]. cbn [append String.length] in *. injection E as -> E. destruct (IH b x y E ltac:(lia)) as (m & -> & M). exists m. split; [reflexivity|exact M].
Qed.
Lemma nil_app : forall a b, a ++ b = a -> b = "".
Proof. induction a as [|c a IH]; intros b E; [exact E|]. cbn [append] in E. injection E as E. exact (IH b E). Qed.
Lemma cut_here : forall p x y, (forall a b, x ++ p = a ++ p ++ b -> b = "") -> cut p (x ++ p ++ y) = Some (x, y).
Proof.
  intros p x y H. destruct (cut p (x ++ p ++ y)) as [[x' y']|] eqn:C.
  - destruct (cut_some _ _ _ _ C) as (E & M). specialize (M x y eq_refl). rewrite <- !append_assoc in E.
    assert (LE : String.length (x' ++ p) <= String.length (x ++ p)) by (rewrite !Proof_Ninja.len_app; lia). destruct (app_cut (x' ++ p) (x ++ p) y' y (eq_sym E) LE) as (m & E1 & E2). rewrite append_assoc in E1.
    assert (m = "") by exact (H x' m E1). subst m. cbn [append] in E2. subst y'. rewrite append_nil_r in E1. f_equal. f_equal.
    clear -E1. assert (L : String.length x = String.length x') by (apply (f_equal String.length) in E1; rewrite !Proof_Ninja.len_app in E1; lia). revert x' L E1. induction x as [|c x IH]; intros [|d x'] L E; try discriminate L; [reflexivity|]. cbn [append] in E. injection E as -> E. f_equal. apply IH; [injection L as L; exact L|exact E].
  - apply cut_none in C. destruct C. exists x, y. reflexivity.
Qed.
Lemma fuel_more : forall f s l, certificates f s = Some l -> forall f', f <= f' -> certificates f' s = Some l.
Proof.
  induction f as [|f IH]; intros s l H f' L; [discriminate|]. destruct f' as [|f']; [lia|]. cbn [certificates] in *. destruct (cut _ s) as [[x y]|]; [|exact H]. destruct (cut _ y) as [[b r]|]; [|exact H]. destruct (certificates f r) as [l'|] eqn:E; [|discriminate]. rewrite (IH r l' E f' ltac:(lia)). exact H.
Qed.
Lemma bundle_read : forall l last, (forall c b, In (c, b) l -> between c /\ inside b) -> ~ occurs begin_mark last -> exists f, certificates f (bundle l last) = Some (map (fun cb => certificate (snd cb)) l).
Proof.
  induction l as [|[c b] l IH]; intros last H N; cbn [bundle].
  - exists 1. cbn [certificates]. fold begin_mark. rewrite (proj2 (cut_none _ last) N). reflexivity.
  - destruct (IH last (fun c' b' I => H c' b' (or_intror I)) N) as (f & F). exists (S f). cbn [certificates]. destruct (H c b (or_introl eq_refl)) as (B & I). unfold certificate. rewrite !append_assoc. fold begin_mark end_mark. rewrite (cut_here begin_mark c _ B), (cut_here end_mark b _ I), F. reflexivity.
Qed.
Lemma bundle_whole : forall l last, (forall c b, In (c, b) l -> between c /\ inside b) -> ~ occurs begin_mark last -> l <> [] -> read_ca_file (bundle l last) = Some (Some (map (fun cb => certificate (snd cb)) l)).
Proof.
  intros l last H N NE. unfold read_ca_file. destruct (certificates_total (S (String.length (bundle l last))) (bundle l last) ltac:(lia)) as (r & E). rewrite E. destruct (bundle_read l last H N) as (f & F).
  assert (X : r = map (fun cb => certificate (snd cb)) l).
  { assert (A := fuel_more _ _ _ E (S (String.length (bundle l last)) + f) ltac:(lia)). assert (B := fuel_more _ _ _ F (S (String.length (bundle l last)) + f) ltac:(lia)). rewrite A in B. injection B as B. exact B. }
  subst r. destruct l; [contradiction|reflexivity].
Qed.
(** Nothing but what is in the file. *)
Lemma certificates_in : forall f s l x, certificates f s = Some l -> In x l -> occurs x s /\ exists body, x = certificate body /\ inside body.
Proof.
  induction f as [|f IH]; intros s l x H I; [discriminate|]. cbn [certificates] in H. destruct (cut "-----BEGIN CERTIFICATE-----" s) as [[j y]|] eqn:C1; [|injection H as <-; contradiction]. destruct (cut "-----END CERTIFICATE-----" y) as [[b r]|] eqn:C2; [|injection H as <-; contradiction].
  destruct (certificates f r) as [l'|] eqn:E; [|discriminate]. injection H as <-. destruct (cut_some _ _ _ _ C1) as (-> & _). destruct (cut_some _ _ _ _ C2) as (-> & M). destruct I as [I|I].
  - change (certificate b = x) in I. subst x. split; [exists j, r; unfold certificate; rewrite !append_assoc; reflexivity|]. exists b. split; [reflexivity|]. intros a' b' E'. assert (LE := M a' (b' ++ r)). fold end_mark in LE. rewrite <- !append_assoc in LE. rewrite E' in LE. rewrite !append_assoc in LE. specialize (LE eq_refl).
    apply (f_equal String.length) in E'. rewrite !Proof_Ninja.len_app in E'. destruct b'; [reflexivity|]. cbn [String.length] in E'. lia.
  - destruct (IH r l' x E I) as ((a & z & ->) & B). split; [|exact B]. exists (j ++ "-----BEGIN CERTIFICATE-----" ++ b ++ "-----END CERTIFICATE-----" ++ a), z. rewrite !append_assoc. reflexivity.
Qed.
Lemma read_in : forall s l x, read_ca_file s = Some (Some l) -> In x l -> occurs x s /\ exists body, x = certificate body /\ inside body.
Proof. intros s l x H I. unfold read_ca_file in H. destruct (certificates _ s) as [r|] eqn:E; [|discriminate]. destruct r as [|a r]; [discriminate|]. injection H as <-. exact (certificates_in _ _ _ _ E I). Qed.
Lemma read_null : forall s, read_ca_file s = Some None <-> ~ exists a body b, s = a ++ certificate body ++ b.
Proof.
  intros s. unfold read_ca_file. cbn [certificates]. destruct (cut "-----BEGIN CERTIFICATE-----" s) as [[x y]|] eqn:C1.
  - destruct (cut_some _ _ _ _ C1) as (E & M). destruct (cut "-----END CERTIFICATE-----" y) as [[b r]|] eqn:C2.
    + destruct (cut_some _ _ _ _ C2) as (E2 & _). assert (L1 := cut_shorter _ _ _ _ C1). assert (L2 := cut_shorter _ _ _ _ C2). cbn [String.length] in L1, L2. destruct (certificates_total (String.length s) r ltac:(lia)) as (l & ->). split; [discriminate|]. intros H. destruct H. exists x, b, r. unfold certificate, begin_mark, end_mark. rewrite !append_assoc, <- E2. exact E.
    + split; [|reflexivity]. intros _ (a & body & b & E'). apply cut_none in C2. apply C2. unfold certificate in E'. rewrite !append_assoc in E'. specialize (M a _ E'). rewrite E in E'. rewrite <- !append_assoc in E'.
      assert (LE : String.length (x ++ "-----BEGIN CERTIFICATE-----") <= String.length (a ++ begin_mark)) by (rewrite !Proof_Ninja.len_app; unfold begin_mark; cbn [String.length]; lia). rewrite !append_assoc in E'.
      rewrite <- (append_assoc x), <- (append_assoc a) in E'. destruct (app_cut _ _ _ _ E' LE) as (m & _ & E2). exists (m ++ body), b. rewrite E2, !append_assoc. reflexivity.
  - split; [|reflexivity]. intros _ (a & body & b & E'). apply cut_none in C1. apply C1. exists a, (body ++ end_mark ++ b). rewrite E'. unfold certificate. rewrite !append_assoc. reflexivity.
Qed.
Lemma no_file : forall files f, f <> "" -> files f = None -> download files (Some f) = Some No_file.
Proof. intros files [|a f] N F; [contradiction|]. cbn [download]. rewrite F. reflexivity. Qed.
(** a text without dashes at the end, or with few *)
Fixpoint first_only (p s : string) : bool := match s with "" => true | String _ s' => if String.prefix p s then String.eqb s p else first_only p s' end.
Lemma first_sound : forall p s a b, p <> "" -> first_only p s = true -> s = a ++ p ++ b -> b = "".
Proof.
  intros p s. induction s as [|c s IH]; intros a b N F E; [destruct a; [destruct p; [contradiction|discriminate E]|discriminate E]|]. cbn [first_only] in F. destruct (String.prefix p (String c s)) eqn:P.
  - apply String.eqb_eq in F. rewrite E in F. apply (f_equal String.length) in F. rewrite !Proof_Ninja.len_app in F. destruct b; [reflexivity|cbn [String.length] in F; lia].
  - destruct a as [|d a]; cbn [append] in E; [rewrite E, (proj2 (Proof_Vs.prefix_iff p (p ++ b)) (ex_intro _ b eq_refl)) in P; discriminate|]. injection E as _ E. exact (IH a b N F E).
Qed.
Lemma between_sound : forall c, first_only begin_mark (c ++ begin_mark) = true -> between c.
Proof. intros c H a b E. exact (first_sound begin_mark _ a b ltac:(discriminate) H E). Qed.
Lemma inside_sound : forall c, first_only end_mark (c ++ end_mark) = true -> inside c.
Proof. intros c H a b E. exact (first_sound end_mark _ a b ltac:(discriminate) H E). Qed.
Definition two : list (string * string) := [("# Our CA" ++ String "010" "", String "010" "MIIB" ++ String "010" ""); (String "010" "# - the old one -----" ++ String "010" "", String "013" (String "010" "MIIC==") ++ String "010" "")].
Lemma two_ok : two <> [] /\ (forall c b, In (c, b) two -> between c /\ inside b) /\ ~ occurs begin_mark (String "010" "").
Proof.
  split; [discriminate|]. split.
  - intros c b [E|[E|[]]]; injection E as <- <-; (split; [apply between_sound|apply inside_sound]; vm_compute; reflexivity).
  - intros (a & b & E). apply (f_equal String.length) in E. rewrite !Proof_Ninja.len_app in E. cbn [String.length begin_mark] in E. lia.
Qed.
Lemma null_trust : forall files f content builtin, f <> "" -> files f = Some content -> ~ (exists a body b, content = a ++ certificate body ++ b) -> exists t, download files (Some f) = Some (Fetch t) /\ trusted builtin t = builtin.
Proof. intros files [|a f] content builtin N F H; [contradiction|]. apply read_null in H. exists Null. unfold download. rewrite F, H. split; reflexivity. Qed.
Lemma all_trusted : forall files f l last builtin, f <> "" -> files f = Some (bundle l last) -> l <> [] -> (forall c b, In (c, b) l -> between c /\ inside b) -> ~ occurs begin_mark last ->
  exists t, download files (Some f) = Some (Fetch t) /\ trusted builtin t = map (fun cb => certificate (snd cb)) l.
Proof. intros files [|a f] l last builtin N F NE H L; [contradiction|]. exists (These (map (fun cb => certificate (snd cb)) l)). unfold download. rewrite F, (bundle_whole l last H L NE). split; reflexivity. Qed.
Definition trusted_form : string := "-----BEGIN TRUSTED CERTIFICATE-----MIIB-----END TRUSTED CERTIFICATE-----".
Lemma trusted_not : ~ (exists a body b, trusted_form = a ++ certificate body ++ b).
Proof. apply read_null. vm_compute. reflexivity. Qed.
