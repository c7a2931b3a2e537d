(** Products, linking and libraries. *)
From Verif Require Import Lib LibFacts Str StrFacts.
From Verif Require Model_Args Model_Build Model_Path Model_Names Proof_Parts Proof_Suffix Proof_Flags5 Proof_Vs Proof_Args.
From Verif Require Import Model_Writer Model_Xcode Spec_Flags Spec_Xcode Proof_Xcode Proof_Xcode1 Proof_Xcode2 Proof_Xcode3.
Local Open Scope string_scope.

Lemma drop_lib_iff : forall k n b, bare k n b -> b = match k with Executable => n | _ => drop_lib n end.
Proof.
  intros k n b [(K & ->)|(K & ->)].
  - unfold drop_lib. assert (X : (if String.prefix "lib" ("lib" ++ b) then substring 3 (String.length ("lib" ++ b) - 3) ("lib" ++ b) else "lib" ++ b) = b).
    { rewrite (proj2 (Proof_Vs.prefix_iff "lib" ("lib" ++ b)) (ex_intro _ b eq_refl)). change 3 with (String.length "lib"). apply drop_app. }
    rewrite X. destruct k; congruence.
  - unfold drop_lib. destruct k; try reflexivity; (destruct K as [K|K]; [discriminate K|]); (destruct (String.prefix "lib" n) eqn:E; [apply Proof_Vs.prefix_iff in E; destruct E as (r & E); destruct (K r E)|reflexivity]).
Qed.
Theorem produces_product : forall t file, produces t file -> product t = Some file.
Proof.
  intros t file (K & p & b & e & -> & P & B & E). unfold product.
  assert (P' : p = match product_prefix t with Some p => p | None => match type t with Static_library | Shared_library => "lib" | _ => "" end end) by (destruct P as [->|(-> & ->)]; [reflexivity|unfold kind_prefix; destruct (type t); reflexivity]).
  assert (E' : e = match product_extension t with Some e => "." ++ e | None => match type t with Static_library => ".a" | Shared_library => ".dylib" | Loadable_module => ".so" | _ => "" end end) by (destruct E as [(x & -> & ->)|(-> & ->)]; [reflexivity|unfold kind_suffix; destruct (type t); reflexivity]).
  assert (B' : b = match product_name t with Some n => n | None => match type t with Executable => target_name t | _ => drop_lib (target_name t) end end) by (destruct B as [->|(-> & B)]; [reflexivity|apply drop_lib_iff in B; destruct (type t); exact B]).
  rewrite P', B', E'. destruct (type t); try congruence; reflexivity.
Qed.

(** ** What all configurations have *)
Lemma value_refl : forall v, value_eqb v v = true.
Proof. intros [x|l]; cbn; [apply String.eqb_refl|]. destruct (list_eq_dec string_dec l l); congruence. Qed.
Lemma sorted_in : forall t s, NoDup (map fst (configurations t)) -> In s (sorted_configs t) -> exists n c, In (n, c) (configurations t) /\ s = xcode c.
Proof.
  intros t s N I. unfold sorted_configs in I. apply in_map_iff in I. destruct I as (n & E & I). apply (proj1 (sort_In _ _)) in I. apply in_map_iff in I. destruct I as ((n' & c) & E' & I). cbn in E'. subst n'.
  rewrite (In_assoc _ n c _ N I) in E. exists n, c. split; [exact I|symmetry; exact E].
Qed.
Lemma sorted_nonempty : forall t, configurations t <> [] -> sorted_configs t <> [].
Proof. intros t N E. unfold sorted_configs in E. apply map_eq_nil in E. assert (L := sort_length (map fst (configurations t))). rewrite E in L. destruct (configurations t); [congruence|discriminate L]. Qed.
Lemma per_target_const : forall t k o, configurations t <> [] -> (forall s, In s (sorted_configs t) -> assoc k s = o) -> per_target t k = Some o.
Proof.
  intros t k o N H. unfold per_target. assert (M := sorted_nonempty t N). destruct (sorted_configs t) as [|s rest]; [congruence|]. rewrite (H s) by (left; reflexivity).
  assert (X : forallb (fun s' => match o with Some a => match assoc k s' with Some b => value_eqb a b | None => false end | None => match assoc k s' with Some _ => false | None => true end end) rest = true).
  { apply forallb_forall. intros s' I. rewrite (H s') by (right; exact I). destruct o; [apply value_refl|reflexivity]. }
  rewrite X. reflexivity.
Qed.
Lemma agree_per : forall t k v d, agree t k v d -> per_target t k = Some (Some (Text v)) \/ (per_target t k = Some None /\ v = d).
Proof.
  intros t k v d (C & N & [H|(H & ->)]).
  - left. apply per_target_const; [exact C|]. intros s I. destruct (sorted_in t s N I) as (n & c & J & ->). destruct (H n c J) as (M & K). apply In_assoc; assumption.
  - right. split; [|reflexivity]. apply per_target_const; [exact C|]. intros s I. destruct (sorted_in t s N I) as (n & c & J & ->). apply lacks_iff. exact (H n c J).
Qed.

(** ** Install names *)
Lemma tidy_eq : forall b d, tidy b d -> standardize b = d.
Proof.
  intros b d [b' H|a r H|b' H N]; unfold standardize.
  - rewrite H. reflexivity.
  - assert (X : has_char "/" ("@" ++ a ++ "/" ++ r) = true) by (cbn [append has_char]; rewrite has_char_app; cbn [append has_char]; rewrite Ascii.eqb_refl; rewrite orb_true_r; reflexivity). rewrite X.
    rewrite (proj2 (Proof_Vs.prefix_iff "@" ("@" ++ a ++ "/" ++ r)) (ex_intro _ _ eq_refl)).
    assert (Y : Model_Args.split1 "/" ("@" ++ a ++ "/" ++ r) = Some ("@" ++ a, r)).
    { change ("@" ++ a ++ "/" ++ r) with (("@" ++ a) ++ "/" ++ r). assert (Q : has_char "/" ("@" ++ a) = false) by (cbn; exact H). revert Q. generalize ("@" ++ a). induction s as [|x s IH]; intros Q; [reflexivity|].
      cbn [has_char] in Q. apply orb_false_elim in Q. destruct Q as (Q1 & Q2). change (String x s ++ "/" ++ r) with (String x (s ++ "/" ++ r)). cbn [Model_Args.split1]. rewrite Q1, (IH Q2). reflexivity. }
    rewrite Y. reflexivity.
  - rewrite H. destruct (String.prefix "@" b') eqn:E; [apply Proof_Vs.prefix_iff in E; destruct E as (r & E); destruct (N r E)|]. unfold Model_Path.path_join. destruct (Model_Path.isabs (Model_Path.normpath b')); reflexivity.
Qed.
Definition shared_kind (t : spec) : Prop := type t = Shared_library \/ type t = Loadable_module.
Lemma installed_name_eq : forall t n, shared_kind t -> installed_as t n -> install_name t = Some (Some n).
Proof.
  intros t n K H. assert (E : install_name t = bind (per_target t "LD_DYLIB_INSTALL_NAME") (fun v => match v with
    | Some (Items _) => None
    | _ => let n := match v with Some (Text x) => x | _ => default_install end in
      if has_char "$" n then if String.eqb n default_install then bind (per_target t "DYLIB_INSTALL_NAME_BASE") (fun b => match b with
          | Some (Items _) => None
          | _ => let base := match b with Some (Text x) => x | _ => "/usr/local/lib" end in bind (product t) (fun p =>
            let n := replace "$(DYLIB_INSTALL_NAME_BASE:standardizepath)" (standardize base) n in
            if contains "$(WRAPPER_NAME)" n || contains "$(PRODUCT_NAME)" n then None else Some (Some (replace "$(EXECUTABLE_PATH)" p n)))
          end) else None else Some (Some n) end)) by (unfold install_name; destruct K as [->| ->]; reflexivity).
  rewrite E. clear E. destruct H as [v A D N|b d p A B T D P Q].
  - destruct (agree_per _ _ _ _ A) as [X|(_ & X)]; [|congruence]. rewrite X. cbn [bind]. cbv zeta. rewrite D. reflexivity.
  - assert (X : match per_target t "LD_DYLIB_INSTALL_NAME" with Some (Some (Text x)) => x = default_install | Some None => True | _ => False end) by (destruct (agree_per _ _ _ _ A) as [->|(-> & _)]; [reflexivity|exact I]).
    destruct (per_target t "LD_DYLIB_INSTALL_NAME") as [[[x|l]|]|]; try contradiction; cbn [bind]; cbv zeta; [subst x|];
      (change (has_char "$" default_install) with true; rewrite String.eqb_refl; cbn iota;
       assert (Y : match per_target t "DYLIB_INSTALL_NAME_BASE" with Some (Some (Text x)) => x = b | Some None => b = "/usr/local/lib" | _ => False end) by (destruct (agree_per _ _ _ _ B) as [->|(-> & ->)]; reflexivity);
       rewrite (produces_product _ _ P); apply tidy_eq in T;
       assert (Z : replace "$(DYLIB_INSTALL_NAME_BASE:standardizepath)" d default_install = d ++ "/$(EXECUTABLE_PATH)");
       [unfold default_install; change "$(DYLIB_INSTALL_NAME_BASE:standardizepath)/$(EXECUTABLE_PATH)" with ("$(DYLIB_INSTALL_NAME_BASE:standardizepath)" ++ "/$(EXECUTABLE_PATH)");
        change "$(DYLIB_INSTALL_NAME_BASE:standardizepath)" with (String "$" "(DYLIB_INSTALL_NAME_BASE:standardizepath)"); rewrite Proof_Suffix.replace_hit; reflexivity|];
       assert (Cw : forall r, contains (String "$" r) (d ++ "/$(EXECUTABLE_PATH)") = contains (String "$" r) "/$(EXECUTABLE_PATH)") by (intros r; apply Proof_Suffix.contains_skip; exact D);
       assert (R : replace "$(EXECUTABLE_PATH)" p (d ++ "/$(EXECUTABLE_PATH)") = d ++ "/" ++ p);
       [rewrite Proof_Suffix.replace_plain by exact D; change "/$(EXECUTABLE_PATH)" with ("/" ++ "$(EXECUTABLE_PATH)" ++ ""); rewrite Proof_Suffix.replace_plain by reflexivity;
        change "$(EXECUTABLE_PATH)" with (String "$" "(EXECUTABLE_PATH)"); rewrite Proof_Suffix.replace_hit; cbn [replace replace_from]; rewrite append_nil_r; reflexivity|];
       destruct (per_target t "DYLIB_INSTALL_NAME_BASE") as [[[x|l]|]|]; try contradiction; cbn [bind]; cbv zeta; [subst x|subst b]; rewrite T, Z, !Cw, R; reflexivity).
Qed.
Lemma escaped_eq : forall n e, escaped n e -> e = replace " " "\ " n.
Proof.
  intros n e. unfold replace. induction 1 as [|s r _ IH|a s r N _ IH]; [reflexivity| |].
  - rewrite IH. cbn [replace_from]. rewrite (proj2 (Proof_Vs.prefix_iff " " (String " " s)) (ex_intro _ s eq_refl)). reflexivity.
  - rewrite IH. cbn [replace_from]. destruct (String.prefix " " (String a s)) eqn:E; [|reflexivity]. apply Proof_Vs.prefix_iff in E. destruct E as (t & E). cbn in E. injection E as E _. congruence.
Qed.
Lemma install_words_eq : forall t w, install_words t w -> exists name, install_name t = Some name /\
  w = match name, type t with _, Loadable_module => [] | Some (String _ _ as n), _ => ["-install_name"; replace " " "\ " n] | _, _ => [] end.
Proof.
  intros t w [n e K I E|n K I|K].
  - exists (Some n). split; [apply installed_name_eq; [left; exact K|exact I]|]. rewrite K. apply escaped_eq in E. destruct n as [|a n]; [|rewrite E; reflexivity].
    exfalso. inversion I as [v A D N|b d p A B T D P Q Z]; [congruence|]. destruct d; discriminate Z.
  - exists (Some n). split; [apply installed_name_eq; [right; exact K|exact I]|]. rewrite K. destruct n; reflexivity.
  - exists None. unfold install_name. destruct K as [->|[->| ->]]; split; reflexivity.
Qed.

(** ** Linking *)
Lemma switches_eq : forall s, flat_map (flag_of s) link_switches = (flag_if (test s "DEAD_CODE_STRIPPING" "YES" "NO") "-Wl,-dead_strip" ++ flag_if (test s "PREBINDING" "YES" "NO") "-Wl,-prebind")%list.
Proof. intros s. cbn [flat_map link_switches flag_of]. rewrite app_nil_r. reflexivity. Qed.
Lemma map_flags : forall tb l r, Forall2 (from_build tb) l r -> r = map (map_linker_flag tb) l.
Proof. intros tb l r H. induction H as [|f g l r A _ IH]; [reflexivity|]. cbn [map]. rewrite (map_flag _ _ _ A). congruence. Qed.
Theorem link_eq : forall m t c dir tb flags, proper (xcode c) -> plain_dirs c -> link_words m t c dir tb flags -> get_ldflags m t c dir tb = Some flags.
Proof.
  intros m t c dir tb flags P D. unfold link_words, get_ldflags. cbv zeta.
  intros (given & other & sw & compat & current & least & sys & search & order & archs & dir' & install & rpaths & root & dirs & lib & -> & H1 & H2 & H3 & H4 & H5 & H6 & H7 & H8 & H9 & H10 & H11 & H12 & H13 & H14 & H15 & H16).
  assert (N := proj1 P). destruct (sdk_total m (xcode c) P) as (r & R). apply oldest_iff in H6; [|exact P]. rewrite H6. cbn [bind]. rewrite R. cbn [bind].
  assert (O : match assoc "ORDER_FILE" (xcode c) with Some (Text f) => Some ["-Wl,-order_file"; "-Wl," ++ tb f] | Some (Items _) => None | None => Some [] end = Some order).
  { destruct H9 as [f I|L]; [apply assoc_iff in I; [|exact N]; rewrite I; reflexivity|]. apply lacks_iff in L. rewrite L. reflexivity. }
  rewrite O. cbn [bind].
  assert (A : (if crossing m then Some [] else bind (one_arch m c) (fun a => Some ["-arch"; a])) = Some archs) by (destruct H10 as [C|a C B]; rewrite C; [reflexivity|]; apply built_iff in B; [|exact P]; rewrite B; reflexivity).
  rewrite A. cbn [bind]. destruct (install_words_eq _ _ H12) as (name & M & W). rewrite M. cbn [bind]. f_equal.
  apply lists_iff in H1; [|exact P|apply is_listed; reflexivity]. apply map_flags in H2. apply switched_iff in H3; [|exact N]. rewrite switches_eq in H3.
  apply (worded_iff m) in H4; [|exact P|apply not_listed; reflexivity]. apply (worded_iff m) in H5; [|exact P|apply not_listed; reflexivity]. apply (sysroot_iff m _ r) in H7; [|exact P|exact R].
  apply lists_iff in H8; [|exact P|apply is_listed; reflexivity]. apply lists_iff in H13; [|exact P|apply is_listed; reflexivity]. apply (root_iff m _ r) in H14; [|exact P|exact R]. rewrite H14 in H15. apply dirs_iff in H15; [|exact D].
  apply (worded_iff m) in H16; [|exact P|apply not_listed; reflexivity].
  assert (Q : dir' = if String.eqb dir "." then "./" else dir) by (destruct H11 as [(-> & ->)|(X & ->)]; [reflexivity|]; destruct (String.eqb_spec dir "."); [congruence|reflexivity]).
  rewrite frameworks_eq, <- H1, <- H2, <- H4, <- H5, <- H7, <- H8, <- H13, <- H15, <- H16, <- W, <- Q, H3, <- !app_assoc. reflexivity.
Qed.

(** ** Libraries *)
Lemma not_framework : forall s, (forall q, s <> q ++ ".framework") -> ends_with ".framework" s = false.
Proof. intros s H. destruct (ends_with ".framework" s) eqn:E; [|reflexivity]. apply Proof_Flags5.ends_iff in E. destruct E as (a & E). destruct (H a E). Qed.
Lemma dots_iff : forall n, only_dots n = true <-> dots_only n.
Proof.
  unfold dots_only. induction n as [|a n IH]; cbn; [split; [intros _ a []|reflexivity]|]. rewrite andb_true_iff, IH, Ascii.eqb_eq. split.
  - intros (-> & H) b [<-|I]; [reflexivity|exact (H b I)].
  - intros H. split; [apply H; left; reflexivity|]. intros b I. apply H. right. exact I.
Qed.
Lemma splitext_file : forall d n e, directory d -> has_char "/" n = false -> ~ dots_only n -> has_char "." e = false -> has_char "/" e = false -> splitext (d ++ n ++ "." ++ e) = (d ++ n, "." ++ e).
Proof.
  intros d n e D N O E S. unfold splitext. assert (B : has_char "/" (n ++ "." ++ e) = false) by (rewrite has_char_app, N; cbn; exact S).
  assert (R : rsplit1 "." (n ++ "." ++ e) = Some (n, e)) by (apply rsplit1_Some; split; [reflexivity|exact E]).
  assert (X : only_dots n = false) by (destruct (only_dots n) eqn:Y; [apply dots_iff in Y; contradiction|reflexivity]).
  destruct D as [->|(p & ->)].
  - change ("" ++ n ++ "." ++ e) with (n ++ "." ++ e). rewrite (proj2 (rsplit1_None "/" _) B), R, X. reflexivity.
  - assert (Y : rsplit1 "/" ((p ++ "/") ++ n ++ "." ++ e) = Some (p, n ++ "." ++ e)) by (apply rsplit1_Some; split; [rewrite append_assoc; reflexivity|exact B]). rewrite Y, R, X. rewrite append_assoc. reflexivity.
Qed.
Lemma splitext_parts : forall p, fst (splitext p) ++ snd (splitext p) = p.
Proof.
  intros p. unfold splitext. destruct (rsplit1 "/" p) as [(d & b)|] eqn:E.
  - apply rsplit1_Some in E. destruct E as (-> & H). destruct (rsplit1 "." b) as [(r & e)|] eqn:F; [|apply append_nil_r]. apply rsplit1_Some in F. destruct F as (-> & _). destruct (only_dots r); [apply append_nil_r|]. cbn [fst snd]. rewrite !append_assoc. reflexivity.
  - destruct (rsplit1 "." p) as [(r & e)|] eqn:F; [|apply append_nil_r]. apply rsplit1_Some in F. destruct F as (-> & _). destruct (only_dots r); [apply append_nil_r|]. reflexivity.
Qed.
Lemma no_dollar_prefix : forall s, has_char "$" s = false -> String.prefix "$(SDKROOT)" s = false.
Proof. intros s H. destruct (String.prefix "$(SDKROOT)" s) eqn:E; [|reflexivity]. apply Proof_Vs.prefix_iff in E. destruct E as (t & ->). discriminate H. Qed.
Lemma library_name_file : forall l n, library_name l = Some n -> library_file l.
Proof.
  intros l n H. unfold library_name in H. destruct (String.prefix "lib" l) eqn:E; [|discriminate H]. apply Proof_Vs.prefix_iff in E. destruct E as (r & ->). change 3 with (String.length "lib") in H. rewrite drop_app in H.
  destruct (rsplit1 "." r) as [(b & e)|] eqn:F; [|discriminate H]. apply rsplit1_Some in F. destruct F as (-> & _). destruct ((String.eqb e "a" || String.eqb e "dylib") && negb (String.eqb b "") && negb (has_char "/" b)) eqn:G; [|discriminate H].
  apply andb_true_iff in G. destruct G as (G & S). apply andb_true_iff in G. destruct G as (G & M). apply orb_true_iff in G. apply negb_true_iff in S, M. apply String.eqb_neq in M. exists b. split; [exact M|]. split; [exact S|].
  destruct G as [G|G]; apply String.eqb_eq in G; subst e; [left|right]; reflexivity.
Qed.
Theorem linked_eq : forall m root l r, linked_as m root l r -> adjust_library m root l = r.
Proof.
  intros m root l r H. destruct H as [d n D S Q O|n e N S Q E|d n D Q S O DN X1 X2|p Q F X|l Q F L]; unfold adjust_library, l_flag.
  - rewrite (proj2 (Proof_Flags5.ends_iff ".framework" (d ++ n ++ ".framework"))) by (exists (d ++ n); rewrite append_assoc; reflexivity).
    assert (B : snd (Model_Names.path_split (d ++ n ++ ".framework")) = n ++ ".framework").
    { symmetry. apply last_part_iff. split; [rewrite has_char_app, S; reflexivity|]. destruct D as [->|(p & ->)]; [left; reflexivity|right; exists p; rewrite append_assoc; reflexivity]. }
    rewrite B. assert (C := splitext_file "" n "framework" (or_introl eq_refl) S O eq_refl eq_refl). change ("" ++ n ++ "." ++ "framework") with (n ++ ".framework") in C. rewrite C. cbn [fst]. change ("" ++ n) with n.
    assert (Z : has_char "$" ("-framework " ++ n) = false) by exact Q. rewrite (no_dollar_prefix _ Z), Proof_Suffix.replace_none by exact Z. reflexivity.
  - assert (F : ends_with ".framework" ("lib" ++ n ++ e) = false).
    { apply not_framework. intros q G. assert (A : rsplit1 "." ("lib" ++ n ++ e) = Some (q, "framework")) by (rewrite G; apply rsplit1_Some; split; reflexivity).
      assert (B : exists x, rsplit1 "." ("lib" ++ n ++ e) = Some ("lib" ++ n, x) /\ x <> "framework") by (destruct E as [->| ->]; [exists "a"|exists "dylib"]; (split; [apply rsplit1_Some; split; [rewrite append_assoc; reflexivity|reflexivity]|discriminate])).
      destruct B as (x & B & C). rewrite A in B. injection B as _ B. congruence. }
    rewrite F. assert (M : library_name ("lib" ++ n ++ e) = Some n).
    { unfold library_name. rewrite (proj2 (Proof_Vs.prefix_iff "lib" ("lib" ++ n ++ e)) (ex_intro _ _ eq_refl)). change 3 with (String.length "lib"). rewrite drop_app.
      assert (NE : String.eqb n "" = false) by (apply String.eqb_neq; exact N).
      destruct E as [->| ->]; [assert (R : rsplit1 "." (n ++ ".a") = Some (n, "a")) by (apply rsplit1_Some; split; reflexivity)|assert (R : rsplit1 "." (n ++ ".dylib") = Some (n, "dylib")) by (apply rsplit1_Some; split; reflexivity)]; rewrite R, NE, S; reflexivity. }
    rewrite M. assert (Z : has_char "$" ("-l" ++ n) = false) by exact Q. rewrite (no_dollar_prefix _ Z), Proof_Suffix.replace_none by exact Z. reflexivity.
  - assert (F : ends_with ".framework" ("$(SDKROOT)" ++ d ++ n ++ ".dylib") = false).
    { apply not_framework. intros q G. assert (A : rsplit1 "." ("$(SDKROOT)" ++ d ++ n ++ ".dylib") = Some (q, "framework")) by (rewrite G; apply rsplit1_Some; split; reflexivity).
      assert (B : rsplit1 "." ("$(SDKROOT)" ++ d ++ n ++ ".dylib") = Some ("$(SDKROOT)" ++ d ++ n, "dylib")) by (apply rsplit1_Some; split; [rewrite !append_assoc; reflexivity|reflexivity]). rewrite A in B. discriminate B. }
    rewrite F. change (library_name ("$(SDKROOT)" ++ d ++ n ++ ".dylib")) with (@None string). cbv beta iota zeta. rewrite (proj2 (Proof_Vs.prefix_iff "$(SDKROOT)" ("$(SDKROOT)" ++ d ++ n ++ ".dylib")) (ex_intro _ _ eq_refl)).
    change "$(SDKROOT)" with (String "$" "(SDKROOT)"). rewrite Proof_Suffix.replace_hit. assert (Z : has_char "$" (d ++ n ++ ".dylib") = false) by (rewrite <- append_assoc, has_char_app, Q; reflexivity). rewrite Proof_Suffix.replace_none by exact Z.
    assert (D' : directory (root ++ d)) by (destruct D as [->|(p & ->)]; [congruence|right; exists (root ++ p); rewrite append_assoc; reflexivity]).
    assert (Y := splitext_file (root ++ d) n "dylib" D' S O eq_refl eq_refl). rewrite !append_assoc in Y. change ("." ++ "dylib") with ".dylib" in Y. rewrite Y. rewrite X1.
    rewrite append_assoc, append_assoc, X2. reflexivity.
  - assert (F' : ends_with ".framework" ("$(SDKROOT)" ++ p) = false).
    { apply not_framework. intros q G. destruct (Nat.le_gt_cases (String.length "$(SDKROOT)") (String.length q)) as [K|K].
      - symmetry in G. destruct (app_longer _ _ _ _ G K) as (e & _ & E). exact (F e E).
      - assert (K' : String.length q <= String.length "$(SDKROOT)") by lia. destruct (app_longer _ _ _ _ G K') as (e & E1 & E2). destruct e as [|x e]; [rewrite append_nil_r in E1; subst q; cbn in K; lia|].
        cbn in E2. injection E2 as E2 _. subst x. assert (Z : has_char "." "$(SDKROOT)" = true) by (rewrite E1, has_char_app; cbn; apply orb_true_r). discriminate Z. }
    rewrite F'. change (library_name ("$(SDKROOT)" ++ p)) with (@None string). cbv beta iota zeta. rewrite (proj2 (Proof_Vs.prefix_iff "$(SDKROOT)" ("$(SDKROOT)" ++ p)) (ex_intro _ _ eq_refl)).
    change "$(SDKROOT)" with (String "$" "(SDKROOT)"). rewrite Proof_Suffix.replace_hit, Proof_Suffix.replace_none by exact Q. assert (Y := splitext_parts (root ++ p)). destruct (splitext (root ++ p)) as (base, ext). cbn [fst snd] in Y.
    destruct (String.eqb_spec ext ".dylib") as [->|]; [|reflexivity]. cbn [andb]. symmetry in Y. destruct (X base Y) as [Z|Z]; rewrite Z; [reflexivity|]. rewrite andb_false_r. reflexivity.
  - rewrite (not_framework _ F). destruct (library_name l) as [n|] eqn:E; [apply library_name_file in E; contradiction|]. rewrite (no_dollar_prefix _ Q), Proof_Suffix.replace_none by exact Q. reflexivity.
Qed.
Lemma common_root_eq : forall m t root, common_root m t root -> target_sdk m t = Some root.
Proof.
  intros m t root (v & A & R). unfold target_sdk. destruct (agree_per _ _ _ _ A) as [E|(E & ->)]; rewrite E; cbn [bind].
  - destruct R as [(p & -> & ->)|(N & R)].
    + rewrite (proj2 (slash_prefix ("/" ++ p)) (ex_intro _ p eq_refl)). reflexivity.
    + destruct (String.prefix "/" v) eqn:S; [apply slash_prefix in S; destruct S as (p & S); destruct (N p S)|]. destruct R as [->|(-> & ->)]; reflexivity.
  - destruct R as [(p & X & _)|(_ & R)]; [discriminate X|]. destruct R as [->|(-> & ->)]; reflexivity.
Qed.
Theorem libraries_eq : forall m t root ls rs, common_root m t root -> Forall2 (linked_as m root) ls rs -> adjust_libraries m t ls = Some rs.
Proof.
  intros m t root ls rs C F. assert (E : map (adjust_library m root) ls = rs) by (clear C; induction F as [|l r ls rs A _ IH]; [reflexivity|]; cbn [map]; rewrite (linked_eq _ _ _ _ A); congruence).
  unfold adjust_libraries. destruct ls; [inversion F; reflexivity|]. rewrite (common_root_eq _ _ _ C). cbn [bind]. rewrite E. reflexivity.
Qed.

(** ** Settings for some SDKs only *)
Lemma conditional_iff : forall k, ends_with "]" k = true <-> conditional k. Proof. intros k. apply Proof_Flags5.ends_iff. Qed.
Theorem convert_plain : forall name s, (forall a, name <> a ++ "iphoneos") -> convert name s = filter (fun kv => negb (ends_with "]" (fst kv))) s.
Proof.
  intros name s N. assert (E : ends_with "iphoneos" name = false) by (destruct (ends_with "iphoneos" name) eqn:X; [apply Proof_Flags5.ends_iff in X; destruct X as (a & X); destruct (N a X)|reflexivity]).
  unfold convert. assert (G : forall ks r, fold_left (convert_key name) ks r = filter (fun kv => negb (mem (fst kv) ks)) r).
  { induction ks as [|k ks IH]; intros r; cbn [fold_left].
    - induction r as [|kv r IHr]; [reflexivity|]. cbn [filter]. change (mem (fst kv) []) with false. cbn [negb]. f_equal. exact IHr.
    - rewrite IH. unfold convert_key. rewrite E, andb_false_r. clear IH. induction r as [|kv r IHr]; [reflexivity|]. cbn [filter]. unfold mem in *. cbn [existsb]. destruct (String.eqb (fst kv) k); cbn [negb orb filter]; [exact IHr|].
      destruct (existsb (String.eqb (fst kv)) ks); cbn [negb]; [exact IHr|]. f_equal. exact IHr. }
  rewrite G. apply filter_ext_in. intros (k & v) I. cbn [fst]. f_equal. destruct (ends_with "]" k) eqn:F.
  - apply mem_In. apply filter_In. split; [apply (in_map fst) in I; exact I|exact F].
  - apply mem_false. intros J. apply filter_In in J. destruct J as (_ & J). congruence.
Qed.
