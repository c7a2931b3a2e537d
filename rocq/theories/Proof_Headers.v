From Coq Require Import Lia.
From Verif Require Import Lib Str LibFacts StrFacts Model_Args Spec_Args Proof_Args Model_Configure Spec_Configure Proof_Configure Model_Headers Spec_Headers.
Local Open Scope string_scope.

Lemma ends_iff : forall a, line_end a = true <-> ends_line a.
Proof. intros a. unfold line_end, ends_line. rewrite orb_true_iff, !Ascii.eqb_eq. reflexivity. Qed.
Lemma lines_has : forall s, has_lines s (lines s).
Proof.
  induction s as [|a s IH]; [apply hl_last; intros a _; reflexivity|]. cbn [lines]. destruct IH as [s H|s b t ls H E R].
  - destruct (line_end a) eqn:L.
    + apply (hl_more "" a s [s]); [intros b _; reflexivity|apply ends_iff; exact L|apply hl_last; exact H].
    + apply hl_last. intros b B. cbn [has_char]. destruct (Ascii.eqb_spec a b) as [->|_]; [apply ends_iff in B; congruence|exact (H b B)].
  - destruct (line_end a) eqn:L.
    + apply (hl_more "" a (s ++ String b t) (s :: ls)); [intros c _; reflexivity|apply ends_iff; exact L|apply hl_more; assumption].
    + apply (hl_more (String a s) b t ls); [|exact E|exact R]. intros c C. cbn [has_char]. destruct (Ascii.eqb_spec a c) as [->|_]; [apply ends_iff in C; congruence|exact (H c C)].
Qed.
Lemma lines_unique : forall s ls, has_lines s ls -> ls = lines s.
Proof.
  assert (O : forall s, one_line s -> lines s = [s]).
  { induction s as [|a s IH]; intros H; [reflexivity|]. cbn [lines]. assert (H' : one_line s) by (intros b B; specialize (H b B); cbn [has_char] in H; destruct (Ascii.eqb a b); [discriminate|exact H]). rewrite (IH H'). destruct (line_end a) eqn:L; [|reflexivity]. apply ends_iff in L. specialize (H a L). cbn [has_char] in H. rewrite Ascii.eqb_refl in H. discriminate. }
  intros s ls H. induction H as [s H|s a t ls H E R IH]; [symmetry; exact (O s H)|]. subst ls.
  assert (NE : forall x, lines x <> []) by (induction x as [|b x IHx]; [discriminate|]; cbn [lines]; destruct (lines x); [congruence|destruct (line_end b); discriminate]).
  induction s as [|b s IHs]; cbn [append lines].
  - destruct (lines t) as [|l ls] eqn:T; [destruct (NE t T)|]. apply ends_iff in E. rewrite E. reflexivity.
  - assert (H' : one_line s) by (intros c C; specialize (H c C); cbn [has_char] in H; destruct (Ascii.eqb b c); [discriminate|exact H]). rewrite <- (IHs H'). destruct (line_end b) eqn:L; [|reflexivity]. apply ends_iff in L. specialize (H b L). cbn [has_char] in H. rewrite Ascii.eqb_refl in H. discriminate.
Qed.
Lemma strip_iff : forall p s r, strip_prefix p s = Some r <-> s = p ++ r.
Proof.
  induction p as [|a p IH]; intros s r; cbn [strip_prefix append]; [split; congruence|]. destruct s as [|b s]; [split; discriminate|]. destruct (Ascii.eqb_spec a b) as [->|N]; [rewrite IH; split; [intros ->; reflexivity|intros E; injection E; auto]|split; [discriminate|intros E; congruence]].
Qed.
Lemma digit_is : forall a, is_digit a = true <-> digit a.
Proof.
  intros a. split.
  - destruct a as [[] [] [] [] [] [] [] []]; intros H; try discriminate H; unfold digit; cbn; tauto.
  - unfold digit. cbn. intros H. repeat (destruct H as [<-|H]; [reflexivity|]). destruct H.
Qed.
Lemma leading_spec : forall s, exists rest, s = leading_digits s ++ rest /\ (forall a, has_char a (leading_digits s) = true -> digit a) /\ forall a t, rest = String a t -> ~ digit a.
Proof.
  induction s as [|a s (rest & E & A & B)]; [exists ""; repeat split; [discriminate|discriminate]|]. cbn [leading_digits]. destruct (is_digit a) eqn:D.
  - exists rest. cbn [append]. rewrite <- E. split; [reflexivity|]. split; [|exact B]. intros b H. cbn [has_char] in H. destruct (Ascii.eqb_spec a b) as [Q|_]; [rewrite <- Q; apply digit_is; exact D|exact (A b H)].
  - exists (String a s). split; [reflexivity|]. split; [discriminate|]. intros b t E'. injection E' as <- <-. intros X. apply digit_is in X. congruence.
Qed.
Lemma leading_unique : forall n rest, (forall a, has_char a n = true -> digit a) -> (forall a t, rest = String a t -> ~ digit a) -> leading_digits (n ++ rest) = n.
Proof.
  induction n as [|a n IH]; intros rest H R; cbn [append].
  - destruct rest as [|b r]; [reflexivity|]. cbn [leading_digits]. destruct (is_digit b) eqn:D; [|reflexivity]. apply digit_is in D. destruct (R b r eq_refl D).
  - cbn [leading_digits]. assert (digit a) as D by (apply H; cbn [has_char]; rewrite Ascii.eqb_refl; reflexivity). apply digit_is in D. rewrite D, IH; [reflexivity| |exact R]. intros b B. apply H. cbn [has_char]. rewrite B. destruct (Ascii.eqb a b); reflexivity.
Qed.
Lemma number_iff : forall name line n, line_number name line = Some n <-> defines_number name line n.
Proof.
  intros name line n. unfold line_number, defines_number. split.
  - intros H. destruct (strip_prefix ("#define " ++ name ++ " ") line) as [r|] eqn:S; [|discriminate]. apply strip_iff in S. destruct (leading_spec r) as (rest & E & A & B). destruct (leading_digits r) as [|d ds] eqn:L; [discriminate|]. injection H as <-. split; [split; [discriminate|exact A]|]. exists rest. split; [|exact B]. rewrite S, !append_assoc, <- E. reflexivity.
  - intros ([NE A] & rest & -> & B). rewrite (proj2 (strip_iff ("#define " ++ name ++ " ") _ (n ++ rest))) by (rewrite !append_assoc; reflexivity). rewrite (leading_unique n rest A B). destruct n; [congruence|reflexivity].
Qed.
Lemma first_iff : forall name ls n, first_number name ls = Some n <-> first_defined name ls n.
Proof.
  intros name ls n. unfold first_defined. induction ls as [|l ls IH]; cbn [first_number]; [split; [discriminate|intros (a & x & b & E & _); destruct a; discriminate]|]. destruct (line_number name l) as [m|] eqn:L.
  - pose proof (proj1 (number_iff _ _ _) L) as D. split.
    + intros [= <-]. exists [], l, ls. split; [reflexivity|]. split; [exact D|intros x y []].
    + intros (a & x & b & E & Dx & N). destruct a as [|y a]; [injection E as <- _|injection E as <- _; destruct (N l m (or_introl eq_refl) D)]. apply number_iff in Dx. congruence.
  - rewrite IH. split.
    + intros (a & x & b & -> & Dx & N). exists (l :: a), x, b. split; [reflexivity|]. split; [exact Dx|]. intros y z [<-|I]; [intros Q; apply number_iff in Q; congruence|exact (N y z I)].
    + intros (a & x & b & E & Dx & N). destruct a as [|y a]; [injection E as <- _; apply number_iff in Dx; congruence|]. injection E as _ E. exists a, x, b. split; [exact E|]. split; [exact Dx|]. intros u w I. exact (N u w (or_intror I)).
Qed.
Theorem version_iff : forall text v, header_version text = Some v <-> text_version text v.
Proof.
  intros text v. unfold header_version, text_version. split.
  - destruct (first_number "NODE_MAJOR_VERSION" (lines text)) as [a|] eqn:A; [|discriminate]. destruct (first_number "NODE_MINOR_VERSION" (lines text)) as [b|] eqn:B; [|discriminate]. destruct (first_number "NODE_PATCH_VERSION" (lines text)) as [c|] eqn:C; [|discriminate]. intros [= <-].
    exists (lines text), a, b, c. split; [apply lines_has|]. split; [apply first_iff; exact A|]. split; [apply first_iff; exact B|]. split; [apply first_iff; exact C|reflexivity].
  - intros (ls & a & b & c & L & A & B & C & ->). apply lines_unique in L. subst ls. apply first_iff in A, B, C. rewrite A, B, C. reflexivity.
Qed.
Lemma replacement_plain : forall rest h, has_char "$" h = false -> replacement rest h = h.
Proof.
  intros rest h. induction h as [|a h IH]; intros H; [reflexivity|]. cbn [has_char] in H. destruct (Ascii.eqb_spec a "$") as [->|N]; [discriminate|]. assert (E : replacement rest (String a h) = String a (replacement rest h)) by (destruct a as [[] [] [] [] [] [] [] []]; try reflexivity; congruence). rewrite E, (IH H). reflexivity.
Qed.
Lemma home_iff : forall h d e, has_char "$" h = false -> (at_home h d e <-> e = expand_home h d).
Proof.
  intros h d e H. unfold at_home. assert (T : forall r, expand_home h ("~" ++ r) = h ++ r) by (intros r; cbn [append expand_home]; rewrite (replacement_plain r h H); reflexivity).
  assert (U : (forall r, d <> "~" ++ r) -> expand_home h d = d) by (intros N; destruct d as [|a d]; [reflexivity|]; destruct (Ascii.eqb_spec a "~") as [->|NA]; [destruct (N d); reflexivity|]; destruct a as [[] [] [] [] [] [] [] []]; try reflexivity; congruence).
  split.
  - intros [(r & -> & ->)|[N ->]]; [symmetry; apply T|symmetry; exact (U N)].
  - intros ->. destruct d as [|a d]; [right; split; [intros r; discriminate|apply U; intros r; discriminate]|]. destruct (Ascii.eqb_spec a "~") as [->|NA].
    + left. exists d. split; [reflexivity|apply (T d)].
    + right. assert (N : forall r, String a d <> "~" ++ r) by (intros r E; injection E as -> _; congruence). split; [exact N|exact (U N)].
Qed.
Definition nodedir_of (p : header_place) : option string :=
  match given_text (opt_nodedir p) with
  | Some d => Some d
  | None => if use_prefix p then match match read p (prefix_header p) with Some t => header_version t | None => None end with
        | Some v => if String.eqb v (version p) then given_text (Some (node_prefix p)) else None | None => None end else None
  end.
Lemma empty_cases : forall o, empty o <-> o = None \/ o = Some "".
Proof.
  intros o. unfold empty, not_empty. split.
  - intros H. destruct o as [[|a s]|]; auto. destruct (H (String a s)). split; [reflexivity|discriminate].
  - intros [-> | ->] s [E N]; congruence.
Qed.
Lemma named_iff : forall p d, nodedir_of p = Some d <-> named p d.
Proof.
  intros p d. unfold nodedir_of, named. destruct (given_text (opt_nodedir p)) as [x|] eqn:G.
  - apply given_iff in G. split; [intros [= <-]; left; exact G|]. intros [[E _]|([E|E] & _)]; destruct G as [G1 G2]; congruence.
  - apply empty_iff, empty_cases in G. split.
    + intros H. destruct (use_prefix p); [|discriminate]. destruct (read p (prefix_header p)) as [t|] eqn:R; [|discriminate]. destruct (header_version t) as [v|] eqn:V; [|discriminate]. destruct (String.eqb_spec v (version p)) as [->|]; [|discriminate]. apply given_iff in H. destruct H as [H N]. right. split; [exact G|]. split; [reflexivity|]. split; [congruence|]. split; [exact N|]. exists t. split; [reflexivity|apply version_iff; exact V].
    + intros [[E N]|(_ & U & -> & N & t & R & V)]; [destruct G; congruence|]. apply version_iff in V. rewrite U, R, V, String.eqb_refl. apply given_iff. split; [reflexivity|exact N].
Qed.
Theorem headers_are : forall p, has_char "$" (home p) = false ->
  (forall d, get_node_dir p = In_directory d <-> exists n, named p n /\ at_home (home p) n d) /\
  (forall v e d, get_node_dir p = Install v e d <-> (forall n, ~ named p n) /\ version_ok p = true /\ v = version p /\ (e = true <-> tarball p = false) /\ d = installed p) /\
  (get_node_dir p = Invalid_version <-> (forall n, ~ named p n) /\ version_ok p = false).
Proof.
  intros p H. assert (E : get_node_dir p = match nodedir_of p with Some d => In_directory (expand_home (home p) d) | None => if version_ok p then Install (version p) (negb (tarball p)) (installed p) else Invalid_version end) by reflexivity.
  destruct (nodedir_of p) as [n|] eqn:N; rewrite E.
  - apply named_iff in N. split; [|split].
    + intros d. split.
      * intros [= <-]. exists n. split; [exact N|]. apply (home_iff _ _ _ H). reflexivity.
      * intros (m & M & A). apply named_iff in N, M. apply (home_iff _ _ _ H) in A. congruence.
    + intros v e d. split; [discriminate|]. intros (X & _). destruct (X _ N).
    + split; [discriminate|]. intros (X & _). destruct (X _ N).
  - assert (M : forall n, ~ named p n) by (intros n X; apply named_iff in X; congruence). split; [|split].
    + intros d. split; [destruct (version_ok p); discriminate|]. intros (m & X & _). destruct (M _ X).
    + intros v e d. destruct (version_ok p); [|split; [discriminate|intros (_ & X & _); discriminate]]. split.
      * intros [= <- <- <-]. split; [exact M|]. repeat split; destruct (tarball p); intros; try reflexivity; discriminate.
      * intros (_ & _ & -> & X & ->). f_equal. destruct (tarball p), e; try reflexivity; [destruct X as [X _]; discriminate (X eq_refl)|destruct X as [_ X]; discriminate (X eq_refl)].
    + destruct (version_ok p); split; try discriminate; [intros (_ & X); discriminate|intros _; split; [exact M|reflexivity]|reflexivity].
Qed.

(** Visual Studio. *)
Lemma using_make_iff : forall argv, using_make_from argv = true <->
  (exists a f b, argv = (a ++ f :: b)%list /\ starts_with "--format=make" f) \/ (exists a f v b, argv = (a ++ f :: v :: b)%list /\ (f = "-f" \/ f = "--format") /\ starts_with "make" v).
Proof.
  assert (P : forall p s, prefix_of p s = true <-> starts_with p s) by (intros p s; apply prefix_iff).
  induction argv as [|x argv IH]; cbn [using_make_from].
  - split; [discriminate|]. intros [(a & f & b & E & _)|(a & f & v & b & E & _)]; destruct a; discriminate.
  - rewrite orb_true_iff, IH. split.
    + intros [[(a & f & b & -> & S)|(a & f & v & b & -> & S)]|H].
      * left. exists (x :: a), f, b. auto.
      * right. exists (x :: a), f, v, b. auto.
      * destruct (String.eqb_spec x "-f") as [->|N1]; [|destruct (String.eqb_spec x "--format") as [->|N2]]; cbn [orb] in H.
        -- destruct argv as [|v b]; [discriminate|]. right. exists [], "-f", v, b. apply P in H. auto.
        -- destruct argv as [|v b]; [discriminate|]. right. exists [], "--format", v, b. apply P in H. auto.
        -- left. exists [], x, argv. apply P in H. auto.
    + intros [(a & f & b & E & S)|(a & f & v & b & E & F & S)].
      * destruct a as [|y a]; [injection E as -> ->|injection E as -> ->; left; left; exists a, f, b; auto]. right. apply P in S. destruct (String.eqb_spec f "-f") as [->|_]; [discriminate|]. destruct (String.eqb_spec f "--format") as [->|_]; [discriminate|]. exact S.
      * destruct a as [|y a]; [injection E as -> ->|injection E as -> ->; left; right; exists a, f, v, b; auto]. right. apply P in S. destruct F as [-> | ->]; exact S.
Qed.

(** Where node is. *)
Theorem layouts : forall root windows exec,
  find_node_directory ("lib" :: "node-gyp" :: "node_modules" :: "npm" :: "deps" :: root) windows exec = Some root /\
  find_node_directory ("lib" :: "node-gyp" :: "node_modules" :: "npm" :: "node_modules" :: "lib" :: root) false exec = Some root /\
  find_node_directory ("lib" :: "node-gyp" :: "node_modules" :: "npm" :: "node_modules" :: root) true exec = Some root.
Proof. intros. repeat split. Qed.
Lemma by_executable : forall script windows node root c p, skipn 4 script = c :: p \/ (skipn 4 script = [] /\ c = "") -> c <> "deps" -> c <> "node_modules" ->
  find_node_directory script windows (node :: "bin" :: root) = Some root /\
  (forall b, b = "Release" \/ b = "Debug" -> find_node_directory script true (node :: b :: root) = Some root /\ forall out, find_node_directory script false (node :: b :: out :: root) = Some root).
Proof.
  intros script windows node root c p H N1 N2. assert (B : base (up 4 script) = c) by (unfold up; destruct H as [-> | [-> ->]]; reflexivity).
  apply String.eqb_neq in N1, N2. split.
  - unfold find_node_directory. rewrite B, N1, N2. reflexivity.
  - intros b [-> | ->]; (split; [|intros out]); unfold find_node_directory; rewrite B, N1, N2; reflexivity.
Qed.
Theorem located : forall script windows exec root, find_node_directory script windows exec = Some root <->
  (exists c p, skipn 4 script = c :: p /\ ((c = "deps" /\ root = p) \/ (c = "node_modules" /\ ((windows = true /\ root = p) \/ (windows = false /\ root = tl p))))) \/
  ((forall p, skipn 4 script <> "deps" :: p /\ skipn 4 script <> "node_modules" :: p) /\
   exists c p, tl exec = c :: p /\ ((c = "bin" /\ root = p) \/ ((c = "Release" \/ c = "Debug") /\ ((windows = true /\ root = p) \/ (windows = false /\ root = tl p))))).
Proof.
  intros script windows exec root. unfold find_node_directory, up. set (s := skipn 4 script). change (skipn 1 exec) with (match exec with [] => [] | _ :: l => l end).
  assert (T : (match exec with [] => [] | _ :: l => l end) = tl exec) by reflexivity. rewrite T. set (e := tl exec).
  assert (B : forall l (x : string), x <> "" -> (base l = x <-> exists p, l = x :: p)).
  { intros l x NX. destruct l as [|y l]; cbn [base]; [split; [congruence|intros [p E]; discriminate]|]. split; [intros ->; eauto|intros [p E]; injection E; auto]. }
  destruct (String.eqb_spec (base s) "deps") as [E1|N1].
  - apply B in E1; [|discriminate]. destruct E1 as [p E1]. rewrite E1. cbn [skipn]. split.
    + intros [= <-]. left. exists "deps", p. auto.
    + intros [(c & q & E & [[_ ->]|[-> _]])|(N & _)]; [injection E as _ ->; reflexivity|discriminate|destruct (N p) as [X _]; congruence].
  - destruct (String.eqb_spec (base s) "node_modules") as [E2|N2].
    + apply B in E2; [|discriminate]. destruct E2 as [p E2]. rewrite E2. cbn [skipn]. assert (U : skipn 1 p = tl p) by (destruct p; reflexivity). split.
      * intros H. left. exists "node_modules", p. split; [reflexivity|]. right. split; [reflexivity|]. destruct windows; injection H as <-; [left; auto|right; split; [reflexivity|destruct p; reflexivity]].
      * intros [(c & q & E & [[-> _]|[-> [[-> ->]|[-> ->]]]])|(N & _)]; [discriminate| | |destruct (N p) as [_ X]; congruence]; injection E as ->; [reflexivity|destruct q; reflexivity].
    + assert (ND : forall p, s <> "deps" :: p /\ s <> "node_modules" :: p) by (intros p; split; intros E; [apply N1|apply N2]; rewrite E; reflexivity).
      assert (L : forall P : Prop, (exists c p, s = c :: p /\ (c = "deps" /\ root = p \/ c = "node_modules" /\ (windows = true /\ root = p \/ windows = false /\ root = tl p))) \/ (forall p, s <> "deps" :: p /\ s <> "node_modules" :: p) /\ P <-> P).
      { intros P. split; [|auto]. intros [(c & p & E & [[-> _]|[-> _]])|[_ H]]; [destruct (ND p) as [X _]; congruence|destruct (ND p) as [_ X]; congruence|exact H]. }
      rewrite L. clear L. destruct (String.eqb_spec (base e) "bin") as [E3|N3].
      * apply B in E3; [|discriminate]. destruct E3 as [p E3]. rewrite E3. cbn [skipn]. split; [intros [= <-]; exists "bin", p; auto|]. intros (c & q & E & [[_ ->]|[[-> | ->] _]]); [injection E as _ ->; reflexivity|discriminate|discriminate].
      * destruct (String.eqb_spec (base e) "Release") as [E4|N4]; [|destruct (String.eqb_spec (base e) "Debug") as [E5|N5]]; cbn [orb].
        -- apply B in E4; [|discriminate]. destruct E4 as [p E4]. rewrite E4. cbn [skipn]. split.
           ++ intros H. exists "Release", p. split; [reflexivity|]. right. split; [auto|]. destruct windows; injection H as <-; [auto|right; split; [reflexivity|destruct p; reflexivity]].
           ++ intros (c & q & E & [[-> _]|[_ [[-> ->]|[-> ->]]]]); [discriminate| |]; injection E as _ ->; [reflexivity|destruct q; reflexivity].
        -- apply B in E5; [|discriminate]. destruct E5 as [p E5]. rewrite E5. cbn [skipn]. split.
           ++ intros H. exists "Debug", p. split; [reflexivity|]. right. split; [auto|]. destruct windows; injection H as <-; [auto|right; split; [reflexivity|destruct p; reflexivity]].
           ++ intros (c & q & E & [[-> _]|[_ [[-> ->]|[-> ->]]]]); [discriminate| |]; injection E as _ ->; [reflexivity|destruct q; reflexivity].
        -- split; [discriminate|]. intros (c & q & E & [[-> _]|[[-> | ->] _]]); rewrite E in N3, N4, N5; cbn [base] in *; congruence.
Qed.

(** Witnesses. *)
Definition nl : string := String "010" "".
Definition example_header : string :=
  "#ifndef SRC_NODE_VERSION_H_" ++ nl ++ "#define NODE_MAJOR_VERSION 20" ++ nl ++ "#define NODE_MINOR_VERSION 11" ++ nl ++ "#define NODE_PATCH_VERSION 1" ++ nl ++ "#define NODE_VERSION_IS_LTS 1" ++ nl.
Definition example_headers : header_place :=
  {| opt_nodedir := None; use_prefix := true; node_prefix := "/usr"; prefix_header := "/usr/include/node/node_version.h";
     read := fun f => if String.eqb f "/usr/include/node/node_version.h" then Some example_header else None;
     home := "/home/me"; version := "20.11.1"; version_ok := true; tarball := false; installed := "/home/me/.cache/node-gyp/20.11.1" |}.
Definition nodedir_headers (h d : string) : header_place :=
  {| opt_nodedir := Some d; use_prefix := false; node_prefix := "/usr"; prefix_header := "/usr/include/node/node_version.h"; read := fun _ => None;
     home := h; version := "20.11.1"; version_ok := true; tarball := false; installed := "/home/me/.cache/node-gyp/20.11.1" |}.
Lemma dollar_home : ~ (forall p n, opt_nodedir p = Some n -> n <> "" -> exists d, get_node_dir p = In_directory d /\ at_home (home p) n d).
Proof.
  intros H. destruct (H (nodedir_headers "/srv/a$$b" "~/node") "~/node" eq_refl ltac:(discriminate)) as (d & E & A). vm_compute in E. injection E as <-. destruct A as [(r & E & F)|[N _]]; [|exact (N "/node" eq_refl)]. injection E as <-. discriminate.
Qed.
Lemma other_home : ~ (forall p n, opt_nodedir p = Some ("~" ++ n) -> n <> "" -> (forall r, n <> "/" ++ r) -> get_node_dir p <> In_directory (home p ++ n)).
Proof.
  intros H. apply (H (nodedir_headers "/home/me" "~you/node") "you/node" eq_refl ltac:(discriminate)); [intros r; discriminate|reflexivity].
Qed.
Theorem looks_iff : forall p argv, looks_for_vs p argv = true <-> win p = true /\
  ~ (exists a f b, argv = (a ++ f :: b)%list /\ starts_with "--format=make" f) /\ ~ (exists a f v b, argv = (a ++ f :: v :: b)%list /\ (f = "-f" \/ f = "--format") /\ starts_with "make" v).
Proof.
  intros p argv. unfold looks_for_vs. rewrite andb_true_iff, negb_true_iff, <- not_true_iff_false, using_make_iff. tauto.
Qed.
Definition windows_place : place :=
  {| platform := "win32"; resolve := fun d f => d ++ "\" ++ f; join := fun l => String.concat "\" l; dirname := fun f => f;
     exists_file := fun _ => true; readable := fun _ => true; node_dir := "C:\headers"; nodedir := None; node_engine := None; js_engine := None;
     release_name := "node"; major_16 := true; zoslib_includes := None; node_root := "C:\node"; cwd := "C:\mod"; own_dir := "C:\gyp"; config_gypi := "C:\mod\build\config.gypi" |}.
Lemma joined_format : ~ (forall p argv default env r, win p = true -> gyp default env argv = Some r -> run_formats r = ["make"] -> looks_for_vs p argv = false).
Proof. intros H. discriminate (H windows_place ["-fmake"] "msvs" no_environment _ eq_refl eq_refl eq_refl). Qed.
Lemma local_npm : ~ (forall script root name found, find_node_directory script false (name :: "bin" :: root) = Some found -> found = root).
Proof. intros H. discriminate (H ["lib"; "node-gyp"; "node_modules"; "npm"; "node_modules"; "app"; "p"] ["usr"] "node" _ eq_refl). Qed.
