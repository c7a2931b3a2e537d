From Coq Require Import ZArith.
From Verif Require Import Lib LibFacts Str StrFacts Js Spec_Text Proof_Text Model_Release Spec_Release Proof_Release Proof_Release2 Proof_Release3.
Local Open Scope string_scope.

(** ** No architecture in the base *)
Lemma contains_split : forall s t, contains "/win-" (s ++ String "/" t) -> contains "/win-" s \/ contains "/win-" (String "/" t).
Proof.
  intros s t (a & b & E). revert s E. induction a as [|x a IH]; intros s E.
  - cbn [append] in E. destruct s as [|c s]; [right; exists "", b; exact E|]. left.
    cbn in E. injection E as -> E. do 4 (destruct s as [|? s]; [discriminate|cbn [append] in E; injection E as -> E]). exists "", s. reflexivity.
  - destruct s as [|y s]; [right; exists (String x a), b; exact E|]. cbn [append] in E. injection E as -> E. destruct (IH s E) as [H|H]; [left; apply contains_cons, H|right; exact H].
Qed.
Lemma contains_slash : forall s, contains "/win-" s -> has_char "/" s = true.
Proof. intros s (a & b & ->). rewrite has_char_app. apply orb_true_iff. right. reflexivity. Qed.
Lemma version_no_slash : forall s sv, parse s = Some sv -> has_char "/" (version sv) = false.
Proof. intros s sv H. apply parse_spec in H. destruct H as (_ & _ & F & _). rewrite version_eq. apply version_no; [discriminate|apply not_word_char; reflexivity|exact F]. Qed.
Lemma no_bits : forall site s sv, parse s = Some sv -> ~ contains "/win-" site -> ~ contains "/win-" (site ++ "/v" ++ version sv).
Proof.
  intros site s sv P H X. change ("/v" ++ version sv) with (String "/" (String "v" (version sv))) in X. apply contains_split in X. destruct X as [X|(a & b & E)]; [contradiction|].
  destruct a as [|x a]; [discriminate|]. injection E as _ E. assert (Y : has_char "/" (String "v" (version sv)) = true) by (rewrite E, has_char_app; apply orb_true_iff; right; reflexivity).
  cbn in Y. rewrite (version_no_slash _ _ P) in Y. discriminate.
Qed.
Lemma no_bits_end : forall b, ~ contains "/win-" b -> ~ contains "/win-" (b ++ "/").
Proof.
  intros b H X. apply contains_split in X. destruct X as [X|(x & y & E)]; [contradiction|]. destruct x as [|c x]; [discriminate|]. injection E as _ E. destruct x; discriminate.
Qed.
(** ** Libraries *)
Lemma lib_of_join : forall n nm arch, exists l, l <> [] /\ lib_of n nm arch = join "/" l /\ (has_char "/" nm = false -> has_char "/" arch = false -> arch <> "" -> Forall (fun x => x <> "" /\ has_char "/" x = false) l).
Proof.
  intros n nm arch. assert (L : forall m, has_char "/" m = false -> m ++ ".lib" <> "" /\ has_char "/" (m ++ ".lib") = false) by (intros m H; split; [destruct m; discriminate|rewrite has_char_app, H; reflexivity]).
  unfold lib_of. destruct (1 <=? n)%N.
  - exists ["win-" ++ arch; nm ++ ".lib"]. split; [discriminate|]. split; [reflexivity|]. intros H1 H2 _. constructor; [split; [discriminate|rewrite has_char_app, H2; reflexivity]|]. constructor; [apply L, H1|constructor].
  - destruct (String.eqb arch "x86").
    + exists [nm ++ ".lib"]. split; [discriminate|]. split; [reflexivity|]. intros H1 _ _. constructor; [apply L, H1|constructor].
    + exists [arch; nm ++ ".lib"]. split; [discriminate|]. split; [reflexivity|]. intros H1 H2 H3. constructor; [split; assumption|]. constructor; [apply L, H1|constructor].
Qed.
Lemma resolve_lib : forall b nm arch n, ~ contains "/win-" b -> resolve_lib_url nm (b ++ "/") arch n = (b ++ "/") ++ lib_of n nm arch.
Proof.
  intros b nm arch n H. unfold resolve_lib_url. assert (H' := no_bits_end b H). rewrite !replace_bits_none by exact H'. rewrite andb_false_r. cbn [orb]. rewrite (resolve_slash b ""), append_nil_r, !resolve_slash. unfold lib_of.
  destruct (1 <=? n)%N; [reflexivity|]. destruct (String.eqb arch "x86"); [reflexivity|]. rewrite (append_assoc arch). reflexivity.
Qed.
Lemma relative_lib : forall b nm arch n, web_address b -> has_char "/" nm = false -> has_char "/" arch = false -> arch <> "" -> relative (url_path (b ++ "/")) (url_path ((b ++ "/") ++ lib_of n nm arch)) = lib_of n nm arch.
Proof. intros b nm arch n W H1 H2 H3. destruct (lib_of_join n nm arch) as (l & NN & -> & F). apply relative_below; [exact W|exact NN|apply F; assumption]. Qed.
Lemma web_address_app : forall b t, web_address b -> web_address (b ++ t).
Proof. intros b t (s & r & -> & H). exists s, (r ++ t). rewrite !append_assoc. auto. Qed.

(** ** The result, case by case *)
Definition the_name (dv : string) (dr : option node_release) (sv : semver) : string :=
  match (if match parse dv with Some d => String.eqb (version sv) (version d) | None => false end then dr else None) with
  | Some r => no_dot (r_name r)
  | None => if N.leb 1 (major sv) && N.ltb (major sv) 4 then "iojs" else "node"
  end.
Lemma is_default_iff : forall s dv sv, parse s = Some sv -> (match parse dv with Some d => String.eqb (version sv) (version d) | None => false end = true <-> names_version dv (major sv) (minor sv) (patch sv) (prerelease sv)).
Proof.
  intros s dv sv P. rewrite <- parse_spec. destruct (parse dv) as [d|] eqn:D; [|split; discriminate]. rewrite String.eqb_eq. split; [|intros [= ->]; reflexivity]. intros E. f_equal. symmetry. exact (version_inj _ _ _ _ P D E).
Qed.
Lemma override_empty : forall o, Model_Release.or (dist_url o) (Model_Release.or (disturl o) (mirror o)) = "" <-> nothing_given o.
Proof. intros o. unfold nothing_given. rewrite !or_spec. destruct (String.eqb_spec (dist_url o) ""), (String.eqb_spec (disturl o) ""); intuition congruence. Qed.
Definition site (o : options) : string := match Model_Release.or (dist_url o) (Model_Release.or (disturl o) (mirror o)) with EmptyString => "https://nodejs.org/dist" | u => rstrip "/" u end.
Definition old_release (o : options) dv dr (sv : semver) : result :=
  let base := site o ++ "/v" ++ version sv ++ "/" in
  make_release sv (the_name dv dr sv) base base (resolve base (the_name dv dr sv ++ "-v" ++ version sv ++ (if has_headers sv then "-headers" else "") ++ ".tar.gz")).
Lemma release_cases : forall argv o dv dr s sv, asked argv (target o) dv s -> parse s = Some sv ->
  (exists rel, own o dv dr (major sv) (minor sv) (patch sv) (prerelease sv) rel /\
    process_release argv o dv dr = make_release sv (no_dot (r_name rel)) (resolve (headers_url rel) "") (Model_Release.or (lib_url rel) (resolve (headers_url rel) "")) (headers_url rel)) \/
  ((forall rel, ~ own o dv dr (major sv) (minor sv) (patch sv) (prerelease sv) rel) /\ process_release argv o dv dr = old_release o dv dr sv).
Proof.
  intros argv o dv dr s sv A P. unfold process_release, old_release, site, the_name. rewrite (chosen_of _ _ _ _ A), P. cbv zeta.
  destruct (match parse dv with Some d => String.eqb (version sv) (version d) | None => false end) eqn:D.
  - apply (is_default_iff _ _ _ P) in D. destruct dr as [rel|].
    + destruct (Model_Release.or (dist_url o) (Model_Release.or (disturl o) (mirror o))) as [|a u] eqn:O.
      * destruct (headers_url rel) as [|b h] eqn:H.
        -- right. split; [|reflexivity]. intros rel' ([= <-] & X & _). congruence.
        -- left. exists rel. split; [|rewrite H; reflexivity]. split; [reflexivity|]. split; [congruence|]. split; [exact D|apply override_empty, O].
      * right. split; [|reflexivity]. intros rel' (_ & _ & _ & X). apply override_empty in X. congruence.
    + right. split; [|destruct (Model_Release.or (dist_url o) (Model_Release.or (disturl o) (mirror o))); reflexivity]. intros rel (X & _). discriminate.
  - right. split; [|destruct (Model_Release.or (dist_url o) (Model_Release.or (disturl o) (mirror o))); reflexivity]. intros rel (_ & _ & X & _). apply (is_default_iff _ _ _ P) in X. congruence.
Qed.
Lemma rstrip_spec : forall u, exists sl, u = rstrip "/" u ++ sl /\ slashes sl /\ forall t, rstrip "/" u <> t ++ "/".
Proof.
  induction u as [|a u (sl & E & S & N)]; [exists ""; split; [reflexivity|]; split; [intros b X; discriminate|intros [|] X; discriminate]|]. cbn [rstrip]. destruct (rstrip "/" u) as [|b r] eqn:R.
  - destruct (Ascii.eqb_spec a "/") as [->|Na].
    + exists (String "/" sl). split; [cbn in *; congruence|]. split; [|intros [|] X; discriminate]. intros b Hb. cbn [has_char] in Hb. destruct (Ascii.eqb_spec "/" b); [congruence|apply S, Hb].
    + exists sl. split; [cbn in *; congruence|]. split; [exact S|]. intros [|c [|d t]] X; cbn in X; injection X as X; congruence.
  - exists sl. split; [cbn in *; congruence|]. split; [exact S|]. intros [|c t] X; cbn [append] in X; [injection X as _ X; discriminate|]. injection X as _ X. exact (N t X).
Qed.
Lemma not_ending : forall site sl a, slashes sl -> (forall t, site <> t ++ "/") -> forall site' sl', slashes sl' -> (forall t, site' <> t ++ "/") -> (site ++ sl = a /\ site' ++ sl' = a) -> site = site'.
Proof.
  intros x sl a S N x' sl' S' N' [E E']. rewrite <- E in E'. clear a E. revert x' N' E'. induction x as [|c x IH]; intros x' N' E'.
  - destruct x' as [|d x']; [reflexivity|]. exfalso.
    assert (L : forall y, (forall b, has_char b y = true -> b = "/"%char) -> y <> "" -> exists t, y = t ++ "/").
    { clear. induction y as [|e y IH]; intros H NE; [congruence|]. assert (e = "/"%char) as -> by (apply H; cbn; rewrite Ascii.eqb_refl; reflexivity). destruct y as [|f y]; [exists ""; reflexivity|].
      destruct IH as (t & ->); [intros b Hb; apply H; cbn [has_char] in *; destruct (Ascii.eqb "/" b); auto|discriminate|]. exists (String "/" t). reflexivity. }
    destruct (L (String d x')) as (t & X); [|discriminate|destruct (N' t X)]. intros b Hb. apply S. cbn [append] in E'. rewrite <- E'. change (String d (x' ++ sl')) with (String d x' ++ sl'). rewrite has_char_app, Hb. reflexivity.
  - destruct x' as [|d x'].
    + exfalso. assert (L : forall y, (forall b, has_char b y = true -> b = "/"%char) -> y <> "" -> exists t, y = t ++ "/").
      { clear. induction y as [|e y IH]; intros H NE; [congruence|]. assert (e = "/"%char) as -> by (apply H; cbn; rewrite Ascii.eqb_refl; reflexivity). destruct y as [|f y]; [exists ""; reflexivity|].
        destruct IH as (t & ->); [intros b Hb; apply H; cbn [has_char] in *; destruct (Ascii.eqb "/" b); auto|discriminate|]. exists (String "/" t). reflexivity. }
      destruct (L (String c x)) as (t & X); [|discriminate|destruct (N t X)]. intros b Hb. apply S'. cbn [append] in E'. rewrite E'. change (String c (x ++ sl)) with (String c x ++ sl). rewrite has_char_app, Hb. reflexivity.
    + cbn [append] in E'. injection E' as -> E'. f_equal. apply IH; [|intros t X; apply (N' (String c t)); rewrite X; reflexivity|exact E']. intros t X. apply (N (String c t)). rewrite X. reflexivity.
Qed.
Lemma site_iff : forall o s, site_of (dist_url o) (disturl o) (mirror o) s -> s = site o.
Proof.
  intros o s H. unfold site. destruct H as [(E1 & E2 & E3 & ->)|(u & G & sl & S & EU & N)].
  - rewrite E1, E2, E3. reflexivity.
  - assert (O : Model_Release.or (dist_url o) (Model_Release.or (disturl o) (mirror o)) = u /\ u <> "").
    { rewrite !or_spec. destruct G as [(A & ->)|[(A & B & ->)|(A & B & C & ->)]].
      - apply String.eqb_neq in A as A'. rewrite A'. auto.
      - rewrite A, String.eqb_refl. apply String.eqb_neq in B as B'. rewrite B'. auto.
      - rewrite A, B, !String.eqb_refl. auto. }
    destruct O as [-> NE]. destruct u as [|a u]; [congruence|]. destruct (rstrip_spec (String a u)) as (sl' & E' & S' & N'). exact (not_ending _ _ _ S N _ _ S' N' (conj (eq_sym EU) (eq_sym E'))).
Qed.

(** ** Theorems *)
Lemma Release_inj : forall a b, Release a = Release b -> b = a.
Proof. congruence. Qed.
Theorem release_urls : forall argv o dv dr r s x y z pre st, process_release argv o dv dr = Release r -> asked argv (target o) dv s -> names_version s x y z pre ->
  (forall rel, ~ own o dv dr x y z pre rel) -> site_of (dist_url o) (disturl o) (mirror o) st ->
  base_url r = st ++ "/v" ++ version_text x y z pre ++ "/" /\ shasums_url r = base_url r ++ "SHASUMS256.txt" /\
  (headers_alone x y z pre -> tarball_url r = base_url r ++ name r ++ "-v" ++ version_text x y z pre ++ "-headers.tar.gz") /\
  (~ headers_alone x y z pre -> tarball_url r = base_url r ++ name r ++ "-v" ++ version_text x y z pre ++ ".tar.gz") /\
  (web_address st -> ~ contains "/win-" st -> has_char "/" (name r) = false -> forall key arch, In (key, arch) [("ia32", "x86"); ("x64", "x64"); ("arm64", "arm64")] ->
    assoc key (libs r) = Some (base_url r ++ lib_of x (name r) arch, lib_of x (name r) arch)).
Proof.
  intros argv o dv dr r s x y z pre st HR A NV NO ST. apply parse_names in NV. set (sv := {| major := x; minor := y; patch := z; prerelease := pre |}) in *.
  destruct (release_cases argv o dv dr s sv A NV) as [(rel & X & _)|[_ E]]; [destruct (NO rel X)|]. rewrite E in HR. unfold old_release, make_release in HR. cbv zeta in HR. apply Release_inj in HR. subst r. cbn [base_url shasums_url tarball_url name libs]. apply site_iff in ST. rewrite ST.
  change (version_text x y z pre) with (version_text (major sv) (minor sv) (patch sv) (prerelease sv)). rewrite <- version_eq.
  set (b := site o ++ "/v" ++ version sv). assert (EB : site o ++ "/v" ++ version sv ++ "/" = b ++ "/") by (unfold b; rewrite !append_assoc; reflexivity). rewrite EB, !resolve_slash.
  assert (HH : has_headers sv = true <-> headers_alone x y z pre).
  { unfold has_headers, headers_alone. cbn [prerelease major minor patch sv]. destruct pre as [|p l]; [|split; [discriminate|intros [X _]; discriminate]].
    rewrite !orb_true_iff, !andb_true_iff, !N.eqb_eq, !N.leb_le. intuition lia. }
  split; [reflexivity|]. split; [reflexivity|]. split; [|split].
  - intros H. apply HH in H. rewrite H. reflexivity.
  - intros H. destruct (has_headers sv); [destruct H; apply HH; reflexivity|]. reflexivity.
  - intros W NC NS key arch HI. assert (NB : ~ contains "/win-" b) by (apply (no_bits _ s); assumption). assert (WB : web_address b) by (apply web_address_app, W).
    assert (L : forall a, has_char "/" a = false -> a <> "" -> (resolve_lib_url (the_name dv dr sv) (b ++ "/") a (major sv), relative (url_path (b ++ "/")) (url_path (resolve_lib_url (the_name dv dr sv) (b ++ "/") a (major sv)))) = ((b ++ "/") ++ lib_of x (the_name dv dr sv) a, lib_of x (the_name dv dr sv) a)).
    { intros a Ha NA. rewrite resolve_lib by exact NB. rewrite relative_lib by assumption. reflexivity. }
    destruct HI as [[= <- <-]|[[= <- <-]|[[= <- <-]|[]]]]; cbn [assoc String.eqb Ascii.eqb Bool.eqb]; rewrite L by (reflexivity || discriminate); reflexivity.
Qed.
Theorem release_name : forall argv o dv dr r s x y z pre, process_release argv o dv dr = Release r -> asked argv (target o) dv s -> names_version s x y z pre ->
  (dr = None \/ ~ names_version dv x y z pre) -> name r = if ((1 <=? x) && (x <=? 3))%N then "iojs" else "node".
Proof.
  intros argv o dv dr r s x y z pre HR A NV H. apply parse_names in NV. set (sv := {| major := x; minor := y; patch := z; prerelease := pre |}) in *.
  destruct (release_cases argv o dv dr s sv A NV) as [(rel & (X1 & _ & X2 & _) & _)|[_ E]]; [destruct H as [->|H]; [discriminate|destruct (H X2)]|]. rewrite E in HR. unfold old_release, make_release in HR. cbv zeta in HR. apply Release_inj in HR. subst r. cbn [name]. unfold the_name.
  assert (D : (if match parse dv with Some d => String.eqb (version sv) (version d) | None => false end then dr else None) = None).
  { destruct (match parse dv with Some d => _ | None => _ end) eqn:Q; [|reflexivity]. apply (is_default_iff _ _ _ NV) in Q. destruct H as [->|H]; [reflexivity|destruct (H Q)]. }
  rewrite D. cbn [major sv]. replace (x <? 4)%N with (x <=? 3)%N; [reflexivity|]. destruct (N.leb_spec x 3), (N.ltb_spec x 4); lia.
Qed.
Theorem release_own : forall argv o dv dr r s x y z pre rel d f, process_release argv o dv dr = Release r -> asked argv (target o) dv s -> names_version s x y z pre ->
  own o dv dr x y z pre rel -> headers_url rel = d ++ "/" ++ f -> has_char "/" f = false ->
  base_url r = d ++ "/" /\ tarball_url r = headers_url rel /\ shasums_url r = d ++ "/SHASUMS256.txt" /\
  (web_address d -> ~ contains "/win-" d -> forall key arch, In (key, arch) [("ia32", "x86"); ("x64", "x64"); ("arm64", "arm64")] ->
    (lib_url rel = "" -> has_char "/" (name r) = false -> assoc key (libs r) = Some (base_url r ++ lib_of x (name r) arch, lib_of x (name r) arch)) /\
    (forall a file, lib_url rel = d ++ "/win-" ++ a ++ "/" ++ file -> In a ["x86"; "x64"] \/ (a = "arm64" /\ x <> 3%N) -> has_char "/" file = false -> file <> "" ->
      assoc key (libs r) = Some (base_url r ++ "win-" ++ arch ++ "/" ++ file, "win-" ++ arch ++ "/" ++ file))).
Proof.
  intros argv o dv dr r s x y z pre rel d f HR A NV HO EH NF. apply parse_names in NV. set (sv := {| major := x; minor := y; patch := z; prerelease := pre |}) in *.
  destruct (release_cases argv o dv dr s sv A NV) as [(rel' & X & E)|[NX _]]; [|destruct (NX rel HO)]. assert (rel' = rel) as -> by (destruct X as [X _], HO as [HO _]; congruence).
  rewrite E in HR. unfold old_release, make_release in HR. cbv zeta in HR. apply Release_inj in HR. subst r. cbn [base_url shasums_url tarball_url name libs]. rewrite EH, resolve_file by exact NF. rewrite append_nil_r, resolve_slash.
  split; [reflexivity|]. split; [reflexivity|]. split; [rewrite append_assoc; reflexivity|]. intros W NC key arch HI. split.
  - intros EL NS. rewrite EL. cbn [Model_Release.or].
    assert (L : forall a, has_char "/" a = false -> a <> "" -> (resolve_lib_url (no_dot (r_name rel)) (d ++ "/") a (major sv), relative (url_path (d ++ "/")) (url_path (resolve_lib_url (no_dot (r_name rel)) (d ++ "/") a (major sv)))) = ((d ++ "/") ++ lib_of x (no_dot (r_name rel)) a, lib_of x (no_dot (r_name rel)) a)).
    { intros a Ha NA. rewrite resolve_lib by exact NC. rewrite relative_lib by assumption. reflexivity. }
    destruct HI as [[= <- <-]|[[= <- <-]|[[= <- <-]|[]]]]; cbn [assoc String.eqb Ascii.eqb Bool.eqb]; rewrite L by (reflexivity || discriminate); reflexivity.
  - intros a file EL HA NF2 NE. assert (NL : lib_url rel <> "") by (rewrite EL; destruct d; discriminate). replace (Model_Release.or (lib_url rel) (d ++ "/")) with (lib_url rel) by (destruct (lib_url rel); [congruence|reflexivity]). rewrite EL.
    assert (R : forall b, resolve_lib_url (no_dot (r_name rel)) (d ++ "/win-" ++ a ++ "/" ++ file) b x = d ++ "/win-" ++ b ++ "/" ++ file).
    { intros b. unfold resolve_lib_url. assert (F1 : Forall (fun v => has_char "/" v = false) bits) by (repeat constructor). assert (F2 : Forall (fun v => has_char "/" v = false) bits3) by (repeat constructor).
      assert (I1 : In a bits) by (destruct HA as [HA|[-> _]]; [|cbn; auto]; destruct HA as [<-|[<-|[]]]; cbn; auto).
      rewrite (replace_bits_at bits b a d file NC (bits_here_of _ _ _ I1 F1)). cbn [orb]. destruct (N.eqb_spec x 3) as [->|N3]; [|rewrite (replace_bits_at bits b a d file NC (bits_here_of _ _ _ I1 F1)); reflexivity].
      assert (I2 : In a bits3) by (destruct HA as [HA|[_ N3]]; [|congruence]; destruct HA as [<-|[<-|[]]]; cbn; auto).
      rewrite (replace_bits_at bits3 b a d file NC (bits_here_of _ _ _ I2 F2)). reflexivity. }
    assert (L : forall b, has_char "/" b = false -> (resolve_lib_url (no_dot (r_name rel)) (d ++ "/win-" ++ a ++ "/" ++ file) b (major sv), relative (url_path (d ++ "/")) (url_path (resolve_lib_url (no_dot (r_name rel)) (d ++ "/win-" ++ a ++ "/" ++ file) b (major sv)))) = ((d ++ "/") ++ "win-" ++ b ++ "/" ++ file, "win-" ++ b ++ "/" ++ file)).
    { intros b Hb. change (major sv) with x. rewrite R. replace (d ++ "/win-" ++ b ++ "/" ++ file) with ((d ++ "/") ++ join "/" ["win-" ++ b; file]) by (cbn [join]; rewrite !append_assoc; reflexivity).
      rewrite relative_below; [|exact W|discriminate|]. 2:{ constructor; [split; [discriminate|rewrite has_char_app, Hb; reflexivity]|]. constructor; [split; assumption|constructor]. } cbn [join]. rewrite !append_assoc. reflexivity. }
    destruct HI as [[= <- <-]|[[= <- <-]|[[= <- <-]|[]]]]; cbn [assoc String.eqb Ascii.eqb Bool.eqb]; rewrite L by reflexivity; reflexivity.
Qed.

(** ** Directories *)
Lemma dir_of : forall argv o dv dr r, process_release argv o dv dr = Release r -> version_dir r = (if String.eqb (name r) "node" then "" else name r ++ "-") ++ r_version r /\ exists a t, r_version r = String a t /\ digit a.
Proof.
  intros argv o dv dr r HR. pose proof (release_version argv o dv dr) as V. rewrite HR in V. destruct V as (s & x & y & z & pre & A & NV & EV). split; [|rewrite EV; apply version_shape].
  apply parse_names in NV. destruct (release_cases argv o dv dr s _ A NV) as [(rel & _ & E)|[_ E]]; rewrite E in HR; injection HR as <-; reflexivity.
Qed.
Theorem dirs_differ : forall argv o dv dr r argv' o' dv' dr' r', process_release argv o dv dr = Release r -> process_release argv' o' dv' dr' = Release r' ->
  plain_name (name r) -> plain_name (name r') -> version_dir r = version_dir r' -> name r = name r' /\ r_version r = r_version r'.
Proof.
  intros argv o dv dr r argv' o' dv' dr' r' H H' [P1 P2] [P1' P2'] E. apply dir_of in H, H'. destruct H as [D (a & t & V & HD)], H' as [D' (a' & t' & V' & HD')]. rewrite D, D' in E.
  destruct (String.eqb_spec (name r) "node") as [N|N], (String.eqb_spec (name r') "node") as [N'|N']; cbn [append] in E.
  - split; [congruence|exact E].
  - exfalso. rewrite V in E. destruct (name r') as [|b n]; cbn [append] in E; injection E as E _; [subst a; apply dash_not_digit, HD|subst b; apply (P2' a n eq_refl), HD].
  - exfalso. rewrite V' in E. destruct (name r) as [|b n]; cbn [append] in E; injection E as E _; [subst a'; apply dash_not_digit, HD'|subst b; apply (P2 a' n eq_refl), HD'].
  - rewrite !append_assoc in E. cbn [append] in E. assert (S1 := proj2 (split_first_Some "-" _ _ _) (conj eq_refl P1) : split_first "-" (name r ++ String "-" (r_version r)) = _). assert (S2 := proj2 (split_first_Some "-" _ _ _) (conj eq_refl P1') : split_first "-" (name r' ++ String "-" (r_version r')) = _).
    change (name r ++ String "-" (r_version r) = name r' ++ String "-" (r_version r')) in E. rewrite E in S1. rewrite S1 in S2. injection S2 as -> ->. auto.
Qed.

(** ** The fallback *)
Theorem fallback_same : forall argv o dv dr, (forall a rest, argv = a :: rest -> ~ names_a_version a) -> ~ In noretry argv -> installs_in_fallback argv o dv dr = installs argv o dv dr.
Proof.
  intros argv o dv dr H N. unfold installs_in_fallback. rewrite (proj2 (mem_false _ _) N). unfold installs, process_release.
  replace (chosen (noretry :: argv) o dv) with (chosen argv o dv); [reflexivity|]. destruct argv as [|a l]; [reflexivity|]. unfold chosen. change (parse noretry) with (@None semver). rewrite (proj2 (parse_None a)); [reflexivity|]. apply (H a l eq_refl).
Qed.

(** ** Removing *)
Lemma below_iff : forall p q, below p q = true <-> under p q.
Proof.
  induction p as [|x p IH]; intros q; cbn [below]; [split; [intros _; exists q; reflexivity|reflexivity]|]. destruct q as [|y q]; [split; [discriminate|intros (r & X); discriminate]|]. rewrite andb_true_iff, String.eqb_eq, IH. split.
  - intros [-> (r & ->)]. exists r. reflexivity.
  - intros (r & X). injection X as -> ->. split; [reflexivity|exists r; reflexivity].
Qed.
Lemma resolve_version : forall dev s sv, parse s = Some sv -> resolve_path dev (version sv) = (dev ++ [version sv])%list.
Proof.
  intros dev s sv P. pose proof (version_no_slash _ _ P) as NS. rewrite version_eq in NS |- *. destruct (version_shape (major sv) (minor sv) (patch sv) (prerelease sv)) as (a & t & E & HD). rewrite E in *. unfold resolve_path.
  destruct (Ascii.eqb_spec a "/") as [->|NA]; [unfold digit in HD; cbn in HD; intuition discriminate|].
  replace (split_on "/" (String a t)) with [String a t]. 2:{ symmetry. apply (split_on_join "/" [String a t]); [discriminate|constructor; [exact NS|constructor]]. }
  cbn [normalize]. assert (ND : a <> "."%char) by (intros ->; unfold digit in HD; cbn in HD; intuition discriminate).
  replace (String.eqb (String a t) "") with false by reflexivity. destruct (String.eqb_spec (String a t) ".") as [X|_]; [injection X as -> _; congruence|]. destruct (String.eqb_spec (String a t) "..") as [X|_]; [injection X as -> _; congruence|]. cbn [orb rev]. rewrite rev_involutive. reflexivity.
Qed.
Theorem remove_version : forall dev argv t f v x y z pre, (argv = v :: tl argv /\ v <> "" \/ (argv = [] \/ hd "" argv = "") /\ v = t) -> names_version v x y z pre ->
  let p := (dev ++ [version_text x y z pre])%list in
  match remove dev argv t f with
  | NoVersion => False
  | Already => forall q, In q f -> ~ under p q
  | Removed f' => (exists q, In q f /\ under p q) /\ forall q, In q f' <-> In q f /\ ~ under p q
  end.
Proof.
  intros dev argv t f v x y z pre HA NV p. assert (E : Model_Release.or (match argv with a :: _ => a | [] => "" end) t = v).
  { rewrite or_spec. destruct HA as [[-> NE]|[[->|H] ->]]; [apply String.eqb_neq in NE; rewrite NE; reflexivity|reflexivity|]. destruct argv as [|a l]; [reflexivity|]. cbn in H. subst a. reflexivity. }
  unfold remove. rewrite E. apply parse_names in NV as P. set (sv := {| major := x; minor := y; patch := z; prerelease := pre |}) in *. destruct v as [|a v]; [discriminate P|]. rewrite P, (resolve_version _ _ _ P). cbv zeta. rewrite version_eq. change (dev ++ [version_text (major sv) (minor sv) (patch sv) (prerelease sv)])%list with p.
  destruct (existsb (fun q => below p q) f) eqn:X.
  - apply existsb_exists in X. destruct X as (q & HI & B). apply below_iff in B. split; [exists q; auto|]. intros q'. rewrite filter_In, negb_true_iff, <- not_true_iff_false, below_iff. reflexivity.
  - intros q HI U. apply below_iff in U. rewrite <- not_true_iff_false in X. apply X. apply existsb_exists. exists q. auto.
Qed.

Lemma installs_dir : forall argv o dv dr d, installs argv o dv dr = Some d -> exists r, process_release argv o dv dr = Release r /\ d = version_dir r.
Proof.
  intros argv o dv dr d H. unfold installs in H. destruct (process_release argv o dv dr) as [|r]; [discriminate|]. exists r. split; [reflexivity|]. destruct (too_old _); [discriminate|]. destruct (prerelease _) as [|p l]; [congruence|]. destruct (String.eqb p "pre"); congruence.
Qed.
Theorem remove_undoes : forall dev argv o dv dr f v x y z pre r, (argv = v :: tl argv \/ argv = [] /\ v = target o) -> names_version v x y z pre ->
  process_release argv o dv dr = Release r -> name r = "node" -> installs argv o dv dr = Some (version_dir r) -> In (dev ++ [version_dir r])%list f ->
  exists f', remove dev argv (target o) f = Removed f' /\ forall q, In q f' <-> In q f /\ ~ under (dev ++ [version_dir r])%list q.
Proof.
  intros dev argv o dv dr f v x y z pre r HA NV HR HN HI HF. assert (NE : v <> "") by (intros ->; apply parse_names in NV; discriminate).
  assert (A : asked argv (target o) dv v).
  { destruct HA as [E|[-> ->]]; [left; exists (tl argv); split; [exact E|exists x, y, z, pre; exact NV]|right; split; [discriminate|left; auto]]. }
  assert (V : version_dir r = version_text x y z pre).
  { destruct (dir_of _ _ _ _ _ HR) as [-> _]. rewrite HN. cbn [append String.eqb Ascii.eqb Bool.eqb]. pose proof (release_version argv o dv dr) as RV. rewrite HR in RV. destruct RV as (s & x' & y' & z' & pre' & A' & NV' & ->).
    apply asked_iff in A, A'. assert (s = v) as -> by congruence. apply parse_names in NV, NV'. rewrite NV in NV'. injection NV' as -> -> -> ->. reflexivity. }
  pose proof (remove_version dev argv (target o) f v x y z pre) as R. cbv zeta in R. rewrite <- V in R.
  destruct (remove dev argv (target o) f) as [| |f'].
  - destruct R; [|exact NV]. destruct HA as [E|[-> ->]]; auto.
  - exfalso. apply (R ltac:(destruct HA as [E|[-> ->]]; auto) NV _ HF). exists []. rewrite app_nil_r. reflexivity.
  - exists f'. split; [reflexivity|]. apply R; [destruct HA as [E|[-> ->]]; auto|exact NV].
Qed.

(** ** What can be installed *)
Theorem installs_iff : forall argv o dv dr s x y z pre, asked argv (target o) dv s -> names_version s x y z pre ->
  exists r, process_release argv o dv dr = Release r /\ forall d, installs argv o dv dr = Some d <-> installable x y z pre /\ d = version_dir r.
Proof.
  intros argv o dv dr s x y z pre A NV. apply parse_names in NV. set (sv := {| major := x; minor := y; patch := z; prerelease := pre |}) in *.
  assert (R : exists r, process_release argv o dv dr = Release r /\ r_semver r = sv).
  { destruct (release_cases argv o dv dr s sv A NV) as [(rel & _ & E)|[_ E]]; rewrite E; unfold old_release, make_release; eexists; split; reflexivity. }
  destruct R as (r & R & S). exists r. split; [exact R|]. intros d. unfold installs. rewrite R, S. cbn [prerelease sv].
  assert (T : too_old sv = true <-> ~ ((0 < x)%N \/ (8 < y)%N \/ (y = 8%N /\ ((0 < z)%N \/ pre = [])))).
  { unfold too_old. cbn [major minor patch prerelease sv]. destruct (N.eqb_spec x 0), (N.ltb_spec y 8), (N.eqb_spec y 8), (N.eqb_spec z 0), pre as [|p l]; cbn [andb orb];
      (split; [try discriminate; intros _; intuition (try lia; try discriminate)|intros H'; try reflexivity; exfalso; apply H'; try lia; intuition (try lia)]). }
  unfold installable. destruct (too_old sv).
  - split; [discriminate|]. intros [[H _] _]. destruct (proj1 T eq_refl H).
  - assert (H : (0 < x)%N \/ (8 < y)%N \/ (y = 8%N /\ ((0 < z)%N \/ pre = []))).
    { destruct (N.ltb_spec 0 x); [auto|]. destruct (N.ltb_spec 8 y); [auto|]. right. right. destruct (N.eqb_spec y 8) as [E|E].
      - split; [exact E|]. destruct (N.ltb_spec 0 z); [auto|]. destruct pre as [|p l]; [auto|]. exfalso. enough (false = true) by discriminate. apply T. intuition (try lia; try discriminate).
      - exfalso. enough (false = true) by discriminate. apply T. intuition lia. }
    destruct pre as [|p l]; [split; [intros [= <-]; split; [split; [exact H|discriminate]|reflexivity]|intros [_ ->]; reflexivity]|].
    destruct (String.eqb_spec p "pre") as [->|E]; [split; [discriminate|intros [[_ N] _]; destruct (N l eq_refl)]|].
    split; [intros [= <-]; split; [split; [exact H|intros rest [= X]; congruence]|reflexivity]|intros [_ ->]; reflexivity].
Qed.

(** ** Concrete cases *)
Definition no_options : options := {| target := ""; dist_url := ""; disturl := ""; mirror := "" |}.
Definition names_exact : forall s sv, parse s = Some sv -> names_version s (major sv) (minor sv) (patch sv) (prerelease sv) := fun s sv => proj1 (parse_spec s sv).
Lemma fallback_loses : exists argv o dv dr d d', installs argv o dv dr = Some d /\ installs_in_fallback argv o dv dr = Some d' /\ d <> d' /\ ~ In noretry argv.
Proof. exists ["16.0.0"], no_options, "v20.1.0", None, "16.0.0", "20.1.0". repeat split; try (vm_compute; reflexivity); [discriminate|]. intros [X|[]]; discriminate. Qed.
Lemma mirror_breaks : exists argv o dv r, process_release argv o dv None = Release r /\ web_address (mirror o) /\ dist_url o = "" /\ disturl o = "" /\ site_of "" "" (mirror o) (mirror o) /\ assoc "ia32" (libs r) = Some ("https://example.com/win-x86/dist/v18.0.0/", "../../../win-x86/dist/v18.0.0") /\ base_url r = "https://example.com/win-x64/dist/v18.0.0/".
Proof.
  exists ["18.0.0"], {| target := ""; dist_url := ""; disturl := ""; mirror := "https://example.com/win-x64/dist" |}, "v20.1.0". eexists. split; [vm_compute; reflexivity|]. cbn [mirror dist_url disturl assoc libs base_url String.eqb Ascii.eqb Bool.eqb].
  split; [exists "https", "example.com/win-x64/dist"; split; reflexivity|]. split; [reflexivity|]. split; [reflexivity|]. split; [|split; reflexivity].
  right. exists "https://example.com/win-x64/dist". split; [right; right; repeat split; discriminate|]. exists "". split; [intros a X; discriminate|]. split; [reflexivity|]. intros t X.
  assert (Y : forall u a, (exists t, u = t ++ String a "") -> forall b, match rev (list_ascii_of_string u) with c :: _ => c | [] => b end = a).
  { intros u a (t' & ->) b. clear. assert (L : list_ascii_of_string (t' ++ String a "") = (list_ascii_of_string t' ++ [a])%list) by (induction t' as [|c t' IH]; [reflexivity|cbn; rewrite IH; reflexivity]). rewrite L, rev_unit. reflexivity. }
  specialize (Y _ _ (ex_intro _ t X) "a"%char). vm_compute in Y. discriminate.
Qed.
Lemma remove_parent : exists dev argv f f' q, remove dev argv "" f = Removed f' /\ In q f /\ ~ In q f' /\ ~ under dev q.
Proof. exists ["home"; "me"; ".cache"; "node-gyp"], ["../.."], [["home"; "me"; "thesis"]; ["home"; "me"; ".cache"; "node-gyp"; "18.0.0"; "include"]], [], ["home"; "me"; "thesis"]. split; [vm_compute; reflexivity|]. split; [left; reflexivity|]. split; [intros []|]. intros (r & X). discriminate. Qed.
Lemma remove_iojs : exists dev argv o dv d, installs argv o dv None = Some d /\ remove dev argv (target o) [(dev ++ [d])%list] = Already.
Proof. exists ["home"; "gyp"], ["3.3.1"], no_options, "v20.1.0", "iojs-3.3.1". split; vm_compute; reflexivity. Qed.
