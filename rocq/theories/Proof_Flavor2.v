(** Compilers, their macros and the platforms (Model_Flavor against Spec_Flavor). *)
From Coq Require Import Lia.
From Verif Require Proof_Path Proof_Vs Proof_Install2.
From Verif Require Import Lib Str StrFacts LibFacts Model_Value Model_Path Model_Flavor Spec_Flavor Proof_Flavor.
Local Open Scope string_scope.

(** ** which compiler *)
Lemma get_some : forall e k v, get e k = Some v <-> says e k v.
Proof.
  intros e k v. unfold get, says. destruct (assoc k e) as [[|c s]|]; split.
  - discriminate.
  - intros [A B]. congruence.
  - intros A. split; [exact A|]. injection A as <-. discriminate.
  - intros [A _]. exact A.
  - discriminate.
  - intros [A _]. discriminate A.
Qed.
Lemma get_none : forall e k, get e k = None <-> silent e k.
Proof.
  intros e k. unfold get, silent. destruct (assoc k e) as [[|c s]|]; split; auto; try discriminate. intros [A|A]; discriminate A.
Qed.
Lemma not_both : forall e k v, says e k v -> silent e k -> False.
Proof. intros e k v [A B] [C|C]; congruence. Qed.
Lemma words_iff : forall e c fl ws, compiler_words false e c fl = Run ws <-> exists a b, spells c a /\ ((silent e fl /\ b = []) \/ exists f, says e fl f /\ spells f b) /\ ws = (a ++ b)%list.
Proof.
  intros e c fl ws. unfold compiler_words, replace_sep. split.
  - destruct (shlex_split c) as [a|] eqn:A; [|discriminate]. apply shlex_iff in A. destruct (get e fl) as [f|] eqn:G.
    + destruct (shlex_split f) as [b|] eqn:B; [|discriminate]. apply shlex_iff in B. intros E. injection E as <-. exists a, b. split; [exact A|]. split; [|reflexivity]. right. exists f. split; [apply get_some; exact G|exact B].
    + intros E. injection E as <-. exists a, []. split; [exact A|]. split; [|rewrite app_nil_r; reflexivity]. left. split; [apply get_none; exact G|reflexivity].
  - intros (a & b & A & B & ->). apply shlex_iff in A. rewrite A. destruct B as [[S ->]|(f & S & B)].
    + apply get_none in S. rewrite S, app_nil_r. reflexivity.
    + apply get_some in S. apply shlex_iff in B. rewrite S, B. reflexivity.
Qed.
Lemma chosen_iff : forall e c fl, chosen e c fl <->
  match or_else (get e "CC_target") (get e "CC") with
  | Some cc => cc = c /\ fl = "CFLAGS"
  | None => match or_else (get e "CXX_target") (get e "CXX") with Some cxx => cxx = c /\ fl = "CXXFLAGS" | None => False end
  end.
Proof.
  intros e c fl. split.
  - intros C. destruct C as [v A|v A B|v A B C|v A B C D]; repeat match goal with H : says _ _ _ |- _ => apply get_some in H; rewrite H | H : silent _ _ |- _ => apply get_none in H; rewrite H end; cbn [or_else]; auto.
  - destruct (get e "CC_target") as [v|] eqn:A; [|destruct (get e "CC") as [v|] eqn:B; [|destruct (get e "CXX_target") as [v|] eqn:C; [|destruct (get e "CXX") as [v|] eqn:D]]]; cbn [or_else]; try contradiction;
      intros [-> ->]; repeat match goal with H : get _ _ = Some _ |- _ => apply get_some in H | H : get _ _ = None |- _ => apply get_none in H end.
    + apply chosen_cc_target; assumption.
    + apply chosen_cc; assumption.
    + apply chosen_cxx_target; assumption.
    + apply chosen_cxx; assumption.
Qed.
Theorem command_iff : forall e input ws, compiler_command false input e = Run ws <-> asked e input ws.
Proof.
  intros e input ws. unfold asked. split.
  - intros E. assert (X : exists c fl ws', chosen e c fl /\ compiler_words false e c fl = Run ws' /\ ws = (ws' ++ ["-dM"; "-E"; "-x"; "c"; input])%list).
    { unfold compiler_command in E. pose proof (chosen_iff e) as C.
      destruct (or_else (get e "CC_target") (get e "CC")) as [cc|]; [|destruct (or_else (get e "CXX_target") (get e "CXX")) as [cc|]; [|discriminate E]].
      - destruct (compiler_words false e cc "CFLAGS") as [| |w] eqn:W; try discriminate E. injection E as <-. exists cc, "CFLAGS", w. split; [apply C; auto|]. auto.
      - destruct (compiler_words false e cc "CXXFLAGS") as [| |w] eqn:W; try discriminate E. injection E as <-. exists cc, "CXXFLAGS", w. split; [apply C; auto|]. auto. }
    destruct X as (c & fl & w & C & W & ->). apply words_iff in W. destruct W as (a & b & A & B & ->). exists c, fl, a, b. rewrite <- app_assoc. auto.
  - intros (c & fl & a & b & C & A & B & ->). assert (W : compiler_words false e c fl = Run (a ++ b)) by (apply words_iff; exists a, b; auto).
    apply chosen_iff in C. unfold compiler_command. destruct (or_else (get e "CC_target") (get e "CC")) as [cc|]; [|destruct (or_else (get e "CXX_target") (get e "CXX")) as [cc|]; [|contradiction]];
      destruct C as [-> ->]; rewrite W, <- app_assoc; reflexivity.
Qed.
Theorem nobody_iff : forall w e input, compiler_command w input e = Nobody <-> nobody e.
Proof.
  intros w e input. unfold nobody. split.
  - intros E k K. apply get_none. unfold compiler_command in E. assert (Y : forall c fl, compiler_words w e c fl <> Nobody) by (intros c fl; unfold compiler_words; destruct (shlex_split _); [destruct (get e fl); [destruct (shlex_split _)|]|]; discriminate).
    assert (O : or_else (get e "CC_target") (get e "CC") = None /\ or_else (get e "CXX_target") (get e "CXX") = None).
    { destruct (or_else (get e "CC_target") (get e "CC")) as [cc|].
      - specialize (Y cc "CFLAGS"). destruct (compiler_words w e cc "CFLAGS"); congruence.
      - split; [reflexivity|]. destruct (or_else (get e "CXX_target") (get e "CXX")) as [cc|]; [|reflexivity]. specialize (Y cc "CXXFLAGS"). destruct (compiler_words w e cc "CXXFLAGS"); congruence. }
    destruct O as [O1 O2]. cbn [In] in K. destruct (get e "CC_target") eqn:A, (get e "CC") eqn:B, (get e "CXX_target") eqn:C, (get e "CXX") eqn:D; try discriminate O1; try discriminate O2.
    decompose [or] K; subst; try contradiction; assumption.
  - intros S. assert (G : forall k, In k ["CC_target"; "CC"; "CXX_target"; "CXX"] -> get e k = None) by (intros k K; apply get_none, S, K). unfold compiler_command.
    rewrite !G by (cbn [In]; tauto). reflexivity.
Qed.

(** On Windows *)
Lemma forward_slashes : forall s t, forward s t <-> slashes s = t.
Proof.
  split.
  - intros F. induction F as [|s t F IH|c s t N F IH]; cbn [slashes append]; [reflexivity|rewrite IH; reflexivity|]. rewrite (eqb_no c backslash N), IH. reflexivity.
  - intros <-. induction s as [|c s IH]; cbn [slashes]; [constructor|]. destruct (Ascii.eqb c backslash) eqn:E.
    + apply Ascii.eqb_eq in E. subst c. apply (forward_backslash s (slashes s) IH).
    + apply forward_char; [apply Ascii.eqb_neq; exact E|exact IH].
Qed.
Lemma forward_get : forall e e' k, forward_values e e' -> get e' k = option_map slashes (get e k).
Proof.
  intros e e' k F. unfold get. assert (A : assoc k e' = option_map slashes (assoc k e)).
  { induction F as [|[a b] [a' b'] e e' [X Y] F IH]; [reflexivity|]. cbn [fst snd] in X, Y. subst a'. cbn [assoc]. destruct (String.eqb k a); [|exact IH]. apply forward_slashes in Y. subst b'. reflexivity. }
  rewrite A. destruct (assoc k e) as [[|c s]|]; reflexivity.
Qed.
Theorem command_windows : forall e e' input, forward_values e e' -> compiler_command true input e = compiler_command false input e'.
Proof.
  intros e e' input F. unfold compiler_command, compiler_words. rewrite !(forward_get e e' _ F). unfold replace_sep.
  destruct (get e "CC_target"), (get e "CC"), (get e "CXX_target"), (get e "CXX"); cbn [option_map or_else]; try reflexivity; destruct (get e "CFLAGS"), (get e "CXXFLAGS"); reflexivity.
Qed.

(** ** what it defines *)
Lemma concat_split : forall l, l <> [] -> Forall (fun x => has_char " " x = false) l -> split_char " " (String.concat " " l) = l.
Proof.
  induction l as [|x l IH]; [contradiction|]. intros _ F. inversion F as [|? ? Hx Fl]; subst. destruct l as [|y l].
  - cbn [String.concat]. apply Proof_Path.split_char_none. exact Hx.
  - change (String.concat " " (x :: y :: l)) with (x ++ String " " (String.concat " " (y :: l))). rewrite Proof_Path.split_char_app by exact Hx. rewrite IH; [reflexivity|discriminate|exact Fl].
Qed.
Lemma split_concat_space : forall s, String.concat " " (split_char " " s) = s.
Proof.
  induction s as [|c s IH]; [reflexivity|]. cbn [split_char]. pose proof (Proof_Path.split_char_nonempty " " s) as N. destruct (Ascii.eqb c " ") eqn:E.
  - apply Ascii.eqb_eq in E. subst c. destruct (split_char " " s) as [|x xs] eqn:X; [contradiction|]. change (String.concat " " ("" :: x :: xs)) with (String " " (String.concat " " (x :: xs))). rewrite IH. reflexivity.
  - destruct (split_char " " s) as [|x xs] eqn:X; [contradiction|]. destruct xs as [|y ys]; cbn [String.concat] in IH |- *; rewrite <- IH; reflexivity.
Qed.
(** What a line adds *)
Lemma line_key : forall line, prefix "#define " line = true -> exists k vs, split_char " " line = "#define" :: k :: vs /\ declares line k (String.concat " " vs).
Proof.
  intros line P. apply Proof_Vs.prefix_iff in P. destruct P as (r & ->). assert (S : split_char " " ("#define " ++ r) = "#define" :: split_char " " r) by (apply (Proof_Path.split_char_app " " "#define" r); reflexivity).
  pose proof (Proof_Path.split_char_nonempty " " r) as N. destruct (split_char " " r) as [|k vs] eqn:X; [contradiction|]. exists k, vs. split; [exact S|]. split.
  - apply (Proof_Path.split_char_no_char " " r). rewrite X. left. reflexivity.
  - pose proof (split_concat_space r) as C. rewrite X in C. destruct vs as [|v vs].
    + left. split; [|reflexivity]. cbn [String.concat] in C. subst r. reflexivity.
    + right. change (String.concat " " (k :: v :: vs)) with (k ++ " " ++ String.concat " " (v :: vs)) in C. rewrite C. reflexivity.
Qed.
Lemma declares_split : forall line k v, declares line k v -> prefix "#define " line = true /\ exists vs, split_char " " line = "#define" :: k :: vs /\ String.concat " " vs = v.
Proof.
  intros line k v (N & H); destruct H as [[-> ->]| ->].
  - split; [apply Proof_Vs.prefix_iff; exists k; reflexivity|]. exists []. split; [|reflexivity]. change ("#define " ++ k) with ("#define" ++ String " " k). rewrite (Proof_Path.split_char_app " " "#define" k) by reflexivity.
    rewrite Proof_Path.split_char_none by exact N. reflexivity.
  - split; [apply Proof_Vs.prefix_iff; eexists; reflexivity|]. exists (split_char " " v). split; [|apply split_concat_space].
    change ("#define " ++ k ++ " " ++ v) with ("#define" ++ String " " (k ++ String " " v)). rewrite (Proof_Path.split_char_app " " "#define") by reflexivity. rewrite Proof_Path.split_char_app by exact N. reflexivity.
Qed.
Lemma read_line_step : forall d line k v, assoc k (read_line d line) = Some v <-> declares line k v \/ ((forall w, ~ declares line k w) /\ assoc k d = Some v).
Proof.
  intros d line k v. unfold read_line. destruct (prefix "#define " line) eqn:P.
  - destruct (line_key line P) as (k' & vs & S & D). rewrite S, Proof_Install2.assoc_set. destruct (String.eqb k' k) eqn:E.
    + apply String.eqb_eq in E. subst k'. split.
      * intros X. injection X as <-. left. exact D.
      * intros [X|[X _]]; [|exfalso; exact (X _ D)]. apply declares_split in X. destruct X as (_ & vs' & S' & <-). rewrite S in S'. injection S' as <-. reflexivity.
    + apply String.eqb_neq in E. split.
      * intros X. right. split; [|exact X]. intros w Y. apply declares_split in Y. destruct Y as (_ & vs' & S' & _). rewrite S in S'. injection S' as Y _. congruence.
      * intros [X|[_ X]]; [|exact X]. apply declares_split in X. destruct X as (_ & vs' & S' & _). rewrite S in S'. injection S' as Y _. congruence.
  - split.
    + intros X. right. split; [|exact X]. intros w Y. apply declares_split in Y. destruct Y as (Y & _). congruence.
    + intros [X|[_ X]]; [|exact X]. apply declares_split in X. destruct X as (Y & _). congruence.
Qed.
Lemma declares_dec : forall line k, (exists v, declares line k v) \/ (forall v, ~ declares line k v).
Proof.
  intros line k. destruct (assoc k (read_line [] line)) as [v|] eqn:E.
  - left. exists v. apply read_line_step in E. destruct E as [E|[_ E]]; [exact E|discriminate E].
  - right. intros v D. assert (X : assoc k (read_line [] line) = Some v) by (apply read_line_step; left; exact D). congruence.
Qed.
Lemma defined_snoc : forall ls line k v, defined (ls ++ [line]) k v <-> declares line k v \/ ((forall w, ~ declares line k w) /\ defined ls k v).
Proof.
  intros ls line k v. split.
  - intros (b & l & a & E & D & N). destruct (@exists_last _ (l :: a)) as (a' & z & Z); [discriminate|]. rewrite Z, app_assoc in E. apply app_inj_tail in E. destruct E as [E ->].
    destruct a' as [|y a'].
    + cbn [app] in Z. injection Z as -> ->. left. exact D.
    + cbn [app] in Z. injection Z as <- ->. right. split; [intros w; apply N; apply in_or_app; right; left; reflexivity|].
      exists b, l, a'. split; [exact E|]. split; [exact D|]. intros l' w I. apply N. apply in_or_app. left. exact I.
  - intros [D|[N (b & l & a & -> & D & M)]].
    + exists ls, line, []. split; [reflexivity|]. split; [exact D|]. intros l w [].
    + exists b, l, (a ++ [line])%list. split; [rewrite <- app_assoc; reflexivity|]. split; [exact D|]. intros l' w I. apply in_app_or in I. destruct I as [I|[<-|[]]]; [apply M; exact I|apply N].
Qed.
Lemma fold_lines : forall ls k v, assoc k (fold_left read_line ls []) = Some v <-> defined ls k v.
Proof.
  intros ls. induction ls as [|line ls IH] using rev_ind; intros k v.
  - cbn. split; [discriminate|]. intros (b & l & a & E & _). destruct b; discriminate E.
  - rewrite fold_left_app. cbn [fold_left]. rewrite read_line_step, defined_snoc, IH. tauto.
Qed.
(** The lines *)
Lemma unix_line : forall l r, one_line l -> unix_lines (l ++ r) = l ++ unix_lines r.
Proof.
  induction l as [|c l IH]; intros r [A B]; [reflexivity|]. cbn [has_char] in A, B. cbn [append unix_lines]. unfold cr. destruct (Ascii.eqb c "013"); [discriminate B|]. rewrite IH; [reflexivity|].
  split; [destruct (Ascii.eqb c "010"); [discriminate A|exact A]|exact B].
Qed.
Lemma lines_back : forall eol ls, In eol [String "010" ""; String "013" (String "010" "")] -> Forall one_line ls -> split_char lf (unix_lines (printed eol ls)) = (ls ++ [""])%list.
Proof.
  intros eol ls I F. induction F as [|l ls O F IH]; [reflexivity|]. assert (E : printed eol (l :: ls) = l ++ eol ++ printed eol ls) by (unfold printed; cbn [map]; destruct ls; cbn [map String.concat]; rewrite ?append_nil_r, ?append_assoc; reflexivity).
  rewrite E, unix_line by exact O. assert (U : unix_lines (eol ++ printed eol ls) = String lf (unix_lines (printed eol ls))) by (destruct I as [<-|[<-|[]]]; reflexivity).
  rewrite U, Proof_Path.split_char_app by (apply O). rewrite IH. reflexivity.
Qed.
Theorem macros_read : forall eol ls k v, In eol [String "010" ""; String "013" (String "010" "")] -> Forall one_line ls -> (assoc k (read_defines (printed eol ls)) = Some v <-> defined ls k v).
Proof.
  intros eol ls k v I F. unfold read_defines. rewrite (lines_back eol ls I F), fold_left_app. cbn [fold_left read_line prefix]. apply fold_lines.
Qed.

(** ** what it is generated for *)
Lemma begins_iff : forall a s, prefix a s = true <-> begins a s.
Proof. intros a s. apply Proof_Vs.prefix_iff. Qed.
Lemma platform_sound : forall p, system p (flavor_by_platform p).
Proof.
  intros p. unfold flavor_by_platform. cbn [assoc]. destruct (String.eqb p "cygwin") eqn:E1; [apply String.eqb_eq in E1; subst; constructor; cbn; auto|]. destruct (String.eqb p "win32") eqn:E2; [apply String.eqb_eq in E2; subst; constructor; cbn; auto|].
  destruct (String.eqb p "darwin") eqn:E3; [apply String.eqb_eq in E3; subst; constructor|].
  destruct (prefix "sunos" p) eqn:P1; [apply on_solaris, begins_iff; exact P1|]. destruct (prefix "dragonfly" p) eqn:P2; [apply on_freebsd; left; apply begins_iff; exact P2|]. destruct (prefix "freebsd" p) eqn:P3; [apply on_freebsd; right; apply begins_iff; exact P3|].
  destruct (prefix "openbsd" p) eqn:P4; [apply on_openbsd, begins_iff; exact P4|]. destruct (prefix "netbsd" p) eqn:P5; [apply on_netbsd, begins_iff; exact P5|]. destruct (prefix "aix" p) eqn:P6; [apply on_aix, begins_iff; exact P6|].
  destruct (prefix "os390" p) eqn:P7; [apply on_zos; left; apply begins_iff; exact P7|]. destruct (prefix "zos" p) eqn:P8; [apply on_zos; right; apply begins_iff; exact P8|]. cbn [orb].
  destruct (String.eqb p "os400") eqn:E4; [apply String.eqb_eq in E4; subst; constructor|]. apply String.eqb_neq in E1, E2, E3, E4. apply on_linux.
  - cbn [In]. intuition congruence.
  - intros a I B. apply begins_iff in B. cbn [In] in I. decompose [or] I; subst; try contradiction; congruence.
Qed.
Lemma prefix_apart : forall a b p, prefix a p = true -> prefix b p = true -> prefix a b = true \/ prefix b a = true.
Proof.
  induction a as [|x a IH]; intros [|y b] p A B; auto. destruct p as [|z p]; [cbn in A; discriminate A|]. cbn [prefix] in A, B. destruct (ascii_dec x z) as [->|]; [|discriminate A]. destruct (ascii_dec y z) as [->|]; [|discriminate B].
  cbn [prefix]. destruct (ascii_dec z z); [|contradiction]. apply (IH b p A B).
Qed.
Theorem platform_iff : forall p f, flavor_by_platform p = f <-> system p f.
Proof.
  intros p f. split; [intros <-; apply platform_sound|]. intros S.
  assert (X : forall a b, begins a p -> begins b p -> (prefix a b || prefix b a) = true) by (intros a b A B; apply begins_iff in A, B; apply orb_true_iff; exact (prefix_apart a b p A B)).
  assert (T : forall a, begins a p -> In a ["sunos"; "dragonfly"; "freebsd"; "openbsd"; "netbsd"; "aix"; "os390"; "zos"] -> assoc p [("cygwin", "win"); ("win32", "win"); ("darwin", "mac")] = None /\ String.eqb p "os400" = false /\
    forall b, In b ["sunos"; "dragonfly"; "freebsd"; "openbsd"; "netbsd"; "aix"; "os390"; "zos"] -> a <> b -> prefix b p = false).
  { intros a A I. split; [|split].
    - assert (K : forall q, In q ["cygwin"; "win32"; "darwin"] -> String.eqb p q = false).
      { intros q Q. destruct (String.eqb p q) eqn:E; [|reflexivity]. exfalso. apply String.eqb_eq in E. subst p. destruct A as (r & R). cbn [In] in I, Q. decompose [or] I; subst; try contradiction; decompose [or] Q; subst; try contradiction; discriminate. }
      cbn [assoc]. rewrite !K by (cbn; tauto). reflexivity.
    - destruct (String.eqb p "os400") eqn:E; [|reflexivity]. exfalso. apply String.eqb_eq in E. subst p. destruct A as (r & R). cbn [In] in I. decompose [or] I; subst; try contradiction; discriminate R.
    - intros b J N. destruct (prefix b p) eqn:E; [|reflexivity]. exfalso. apply begins_iff in E. specialize (X a b A E). cbn [In] in I, J. decompose [or] I; subst; try contradiction; decompose [or] J; subst; try contradiction; discriminate X. }
  destruct S as [p I| |p B|p [B|B]|p B|p B|p B|p [B|B]| |p N M]; try reflexivity.
  - cbn [In] in I. destruct I as [<-|[<-|[]]]; reflexivity.
  - destruct (T _ B) as (A & _ & _); [cbn; tauto|]. unfold flavor_by_platform. rewrite A. apply begins_iff in B. rewrite B. reflexivity.
  - destruct (T _ B) as (A & _ & F); [cbn; tauto|]. unfold flavor_by_platform. rewrite A, !F by (cbn; try tauto; discriminate). apply begins_iff in B. rewrite B. reflexivity.
  - destruct (T _ B) as (A & _ & F); [cbn; tauto|]. unfold flavor_by_platform. rewrite A. apply begins_iff in B. rewrite B, (F "sunos") by (cbn; try tauto; discriminate). rewrite orb_true_r. reflexivity.
  - destruct (T _ B) as (A & _ & F); [cbn; tauto|]. unfold flavor_by_platform. apply begins_iff in B. rewrite A, B, (F "sunos"), (F "dragonfly"), (F "freebsd") by (cbn; try tauto; discriminate). reflexivity.
  - destruct (T _ B) as (A & _ & F); [cbn; tauto|]. unfold flavor_by_platform. apply begins_iff in B. rewrite A, B, (F "sunos"), (F "dragonfly"), (F "freebsd"), (F "openbsd") by (cbn; try tauto; discriminate). reflexivity.
  - destruct (T _ B) as (A & _ & F); [cbn; tauto|]. unfold flavor_by_platform. apply begins_iff in B. rewrite A, B, (F "sunos"), (F "dragonfly"), (F "freebsd"), (F "openbsd"), (F "netbsd") by (cbn; try tauto; discriminate). reflexivity.
  - destruct (T _ B) as (A & _ & F); [cbn; tauto|]. unfold flavor_by_platform. apply begins_iff in B. rewrite A, B, (F "sunos"), (F "dragonfly"), (F "freebsd"), (F "openbsd"), (F "netbsd"), (F "aix") by (cbn; try tauto; discriminate). reflexivity.
  - destruct (T _ B) as (A & _ & F); [cbn; tauto|]. unfold flavor_by_platform. apply begins_iff in B. rewrite A, B, (F "sunos"), (F "dragonfly"), (F "freebsd"), (F "openbsd"), (F "netbsd"), (F "aix"), (F "os390") by (cbn; try tauto; discriminate). reflexivity.
  - assert (P : forall a, In a ["sunos"; "dragonfly"; "freebsd"; "openbsd"; "netbsd"; "aix"; "os390"; "zos"] -> prefix a p = false) by (intros a I; destruct (prefix a p) eqn:E; [|reflexivity]; exfalso; apply begins_iff in E; exact (M a I E)).
    unfold flavor_by_platform. rewrite !P by (cbn; tauto). cbn [orb assoc]. cbn [In] in N.
    assert (K : forall q, In q ["cygwin"; "win32"; "darwin"; "os400"] -> String.eqb p q = false) by (intros q Q; apply String.eqb_neq; intros ->; cbn [In] in Q; tauto).
    rewrite !K by (cbn; tauto). reflexivity.
Qed.
Lemma meant_by : forall (has : string -> bool) (macro : string -> Prop) p f, (forall k, has k = true <-> macro k) ->
  ((if has "__EMSCRIPTEN__" then "emscripten" else if has "__wasm__" then (if has "__wasi__" then "wasi" else "wasm") else flavor_by_platform p) = f <-> meant macro p f).
Proof.
  intros has macro p f H. assert (N : forall k, has k = false <-> ~ macro k) by (intros k; rewrite <- H; destruct (has k); split; congruence). split.
  - intros <-. destruct (has "__EMSCRIPTEN__") eqn:A; [apply meant_emscripten, H; exact A|]. apply N in A. destruct (has "__wasm__") eqn:B.
    + apply H in B. destruct (has "__wasi__") eqn:C; [apply H in C; apply meant_wasi; assumption|apply N in C; apply meant_wasm; assumption].
    + apply N in B. apply meant_system; [exact A|exact B|apply platform_sound].
  - intros M. destruct M as [A|A B C|A B C|f A B C]; repeat match goal with X : macro _ |- _ => apply H in X; rewrite X | X : ~ macro _ |- _ => apply N in X; rewrite X end; try reflexivity. apply platform_iff. exact C.
Qed.
Theorem flavor_asked : forall input platform run e ws eol ls f, asked e input ws -> run ws = Some (printed eol ls) -> In eol [String "010" ""; String "013" (String "010" "")] -> Forall one_line ls ->
  (get_flavor None false input platform run e = Some f <-> meant (fun k => exists v, defined ls k v) platform f).
Proof.
  intros input platform run e ws eol ls f A R I F. apply command_iff in A. unfold get_flavor. rewrite A, R. cbn [option_map].
  rewrite <- (meant_by (fun k => mem k (map fst (read_defines (printed eol ls))))).
  - split; [intros E; injection E as E; exact E|intros E; rewrite E; reflexivity].
  - intros k. rewrite mem_In. split.
    + intros M. apply in_map_iff in M. destruct M as ([k' v] & <- & M). cbn [fst]. destruct (assoc k' (read_defines (printed eol ls))) as [w|] eqn:W; [|exfalso; apply (assoc_None _ k') in W; apply W; apply in_map_iff; exists (k', v); auto].
      exists w. apply (macros_read eol ls k' w I F). exact W.
    + intros (v & D). apply (macros_read eol ls k v I F) in D. apply assoc_In in D. apply in_map_iff. exists (k, v). auto.
Qed.
Theorem flavor_nobody : forall w input platform run e f, nobody e -> (get_flavor None w input platform run e = Some f <-> system platform f).
Proof.
  intros w input platform run e f N. apply (nobody_iff w e input) in N. unfold get_flavor. rewrite N. cbn [mem map existsb fst]. rewrite <- platform_iff. split; [intros E; injection E as E; exact E|intros E; rewrite E; reflexivity].
Qed.

(** ** the variables *)
Lemma setdefault_get : forall k v d q, assoc q (setdefault k v d) = match assoc q d with Some x => Some x | None => if String.eqb k q then Some v else None end.
Proof.
  intros k v d q. unfold setdefault. destruct (assoc k d) as [x|] eqn:E.
  - destruct (assoc q d) eqn:Q; [reflexivity|]. destruct (String.eqb k q) eqn:K; [|reflexivity]. apply String.eqb_eq in K. subst. congruence.
  - rewrite Proof_Install2.assoc_set. destruct (String.eqb k q) eqn:K; [|destruct (assoc q d); reflexivity]. apply String.eqb_eq in K. subst. rewrite E. reflexivity.
Qed.
Theorem variables_kept : forall dir flavor d k v, assoc k d = Some v -> assoc k (calculate_variables dir flavor d) = Some v.
Proof. intros dir flavor d k v H. unfold calculate_variables. destruct (String.eqb flavor "mac"); rewrite !setdefault_get, H; reflexivity. Qed.
Theorem os_default : forall dir flavor d, assoc "OS" d = None -> assoc "OS" (calculate_variables dir flavor d) = Some (if String.eqb flavor "android" then "linux" else flavor).
Proof.
  intros dir flavor d H. unfold calculate_variables. destruct (String.eqb flavor "mac") eqn:E; rewrite !setdefault_get, H; [|reflexivity]. apply String.eqb_eq in E. subst. reflexivity.
Qed.
Theorem suffix_default : forall dir flavor d, assoc "SHARED_LIB_SUFFIX" d = None ->
  assoc "SHARED_LIB_SUFFIX" (calculate_variables dir flavor d) = Some (match assoc flavor [("mac", ".dylib"); ("aix", ".a"); ("zos", ".x")] with Some s => s | None => ".so" end).
Proof.
  intros dir flavor d H. unfold calculate_variables. cbn [assoc]. destruct (String.eqb flavor "mac") eqn:E; rewrite !setdefault_get, H; [reflexivity|]. cbn [String.eqb Ascii.eqb Bool.eqb].
  destruct (String.eqb flavor "aix"), (String.eqb flavor "zos"); reflexivity.
Qed.
