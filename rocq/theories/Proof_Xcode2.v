(** All flags for compilers, and those for one language. *)
From Verif Require Import Lib LibFacts Str StrFacts.
From Verif Require Model_Build Model_Path.
From Verif Require Import Model_Writer Model_Xcode Spec_Flags Spec_Xcode Proof_Xcode Proof_Xcode1.
Local Open Scope string_scope.

Lemma level_iff : forall m s l, proper s -> (says s "GCC_OPTIMIZATION_LEVEL" l "s" <-> appendf m s "GCC_OPTIMIZATION_LEVEL" "-O" (Some "s") = ["-O" ++ l]).
Proof.
  intros m s l P. unfold appendf. split.
  - intros [I|(L & ->)]; [apply assoc_iff in I; [|apply P]; rewrite I; reflexivity|]. apply lacks_iff in L. rewrite L. reflexivity.
  - destruct (assoc "GCC_OPTIMIZATION_LEVEL" s) as [v|] eqn:E.
    + destruct (text_of _ _ _ P (not_listed "GCC_OPTIMIZATION_LEVEL" eq_refl) E) as (x & ->). cbn [shown]. intros H. injection H as H. subst x. left. apply assoc_iff; [apply P|exact E].
    + intros H. right. split; [apply lacks_iff; exact E|]. injection H as H. symmetry. exact H.
Qed.
Lemma level_total : forall s, proper s -> exists l, says s "GCC_OPTIMIZATION_LEVEL" l "s".
Proof.
  intros s P. destruct (assoc "GCC_OPTIMIZATION_LEVEL" s) as [v|] eqn:E.
  - destruct (text_of _ _ _ P (not_listed "GCC_OPTIMIZATION_LEVEL" eq_refl) E) as (x & ->). exists x. left. apply assoc_iff; [apply P|exact E].
  - exists "s". right. split; [apply lacks_iff; exact E|reflexivity].
Qed.
Lemma pic_eq : forall s, match assoc "GCC_DYNAMIC_NO_PIC" s with Some v => is_text v "YES" | None => false end = test s "GCC_DYNAMIC_NO_PIC" "YES" "NO".
Proof. intros s. unfold test, get. destruct (assoc "GCC_DYNAMIC_NO_PIC" s); reflexivity. Qed.
Lemma alias_eq : forall s, match assoc "GCC_STRICT_ALIASING" s with
     | Some v => if is_text v "YES" then ["-fstrict-aliasing"] else if is_text v "NO" then ["-fno-strict-aliasing"] else []
     | None => [] end = flat_map (flag_of s) aliasing_switches.
Proof.
  intros s. cbn [flat_map aliasing_switches flag_of]. unfold test, get. destruct (assoc "GCC_STRICT_ALIASING" s) as [v|]; [|reflexivity]. destruct (is_text v "YES") eqn:A; [|destruct (is_text v "NO"); reflexivity].
  apply is_text_iff in A. subst v. reflexivity.
Qed.
Lemma first_eq : forall s, flat_map (flag_of s) first_switches =
  (flag_if (test s "CLANG_WARN_CONSTANT_CONVERSION" "YES" "NO") "-Wconstant-conversion" ++ flag_if (test s "GCC_CHAR_IS_UNSIGNED_CHAR" "YES" "NO") "-funsigned-char" ++
    flag_if (test s "GCC_CW_ASM_SYNTAX" "YES" "YES") "-fasm-blocks" ++ flag_if (test s "GCC_DYNAMIC_NO_PIC" "YES" "NO") "-mdynamic-no-pic" ++ flag_if (test s "GCC_ENABLE_PASCAL_STRINGS" "YES" "YES") "-mpascal-strings")%list.
Proof. intros s. cbn [flat_map first_switches flag_of]. rewrite app_nil_r. reflexivity. Qed.
Lemma second_eq : forall s, flat_map (flag_of s) second_switches =
  (flag_if (test s "GCC_SYMBOLS_PRIVATE_EXTERN" "YES" "NO") "-fvisibility=hidden" ++ flag_if (test s "GCC_TREAT_WARNINGS_AS_ERRORS" "YES" "NO") "-Werror" ++
    flag_if (test s "GCC_WARN_ABOUT_MISSING_NEWLINE" "YES" "NO") "-Wnewline-eof" ++ flag_if (test s "LLVM_LTO" "YES" "NO") "-flto")%list.
Proof. intros s. cbn [flat_map second_switches flag_of]. rewrite app_nil_r. reflexivity. Qed.
Lemma frameworks_eq : forall root c, framework_flags root c = map (append "-F") (map (replace "$(SDKROOT)" root) (framework_dirs c)).
Proof. intros root c. unfold framework_flags. rewrite map_map. reflexivity. Qed.
Definition compiled_flags (m : machine) (c : config) (root : option string) (debug least archs : list string) : list string :=
  let s := xcode c in
  (root_flags s root ++ flat_map (flag_of s) first_switches ++ appendf m s "GCC_OPTIMIZATION_LEVEL" "-O" (Some "s") ++ debug ++ flat_map (flag_of s) aliasing_switches ++ flat_map (flag_of s) second_switches ++
   least ++ archs ++ items_of s "WARNING_CFLAGS" ++ map (append "-F") (map (replace "$(SDKROOT)" (or_empty root)) (framework_dirs c)))%list.
Lemma get_cflags_eq : forall m c, get_cflags m c =
  bind (sdk_path m (xcode c)) (fun root => bind (debug_flags (xcode c)) (fun debug => bind (version_min m (xcode c)) (fun least => bind (arch_flags m c) (fun archs => Some (compiled_flags m c root debug least archs))))).
Proof.
  intros m c. unfold get_cflags. destruct (sdk_path m (xcode c)) as [root|]; [|reflexivity]. cbn [bind]. destruct (debug_flags (xcode c)) as [debug|]; [|reflexivity]. cbn [bind].
  destruct (version_min m (xcode c)) as [least|]; [|reflexivity]. cbn [bind]. destruct (arch_flags m c) as [archs|]; [|reflexivity]. cbn [bind]. f_equal. unfold compiled_flags.
  rewrite alias_eq, pic_eq, first_eq, second_eq, frameworks_eq, <- !app_assoc. reflexivity.
Qed.
Theorem compile_iff : forall m c flags, proper (xcode c) -> plain_dirs c -> (get_cflags m c = Some flags <-> compile_words m c flags).
Proof.
  intros m c flags P D. rewrite get_cflags_eq. unfold compile_words. cbv zeta. destruct (sdk_total m (xcode c) P) as (root & R). rewrite R. cbn [bind]. assert (N := proj1 P). split.
  - destruct (debug_flags (xcode c)) as [debug|] eqn:E; [|discriminate]. cbn [bind]. destruct (version_min m (xcode c)) as [least|] eqn:V; [|discriminate]. cbn [bind].
    destruct (arch_flags m c) as [archs|] eqn:A; [|discriminate]. cbn [bind]. intros H. injection H as <-. destruct (level_total _ P) as (l & L).
    exists (root_flags (xcode c) root), (flat_map (flag_of (xcode c)) first_switches), l, debug, (flat_map (flag_of (xcode c)) aliasing_switches), (flat_map (flag_of (xcode c)) second_switches), least, archs, (items_of (xcode c) "WARNING_CFLAGS"), (or_empty root), (map (replace "$(SDKROOT)" (or_empty root)) (framework_dirs c)).
    split; [unfold compiled_flags; rewrite (proj1 (level_iff m _ l P) L); reflexivity|]. split; [apply (sysroot_iff m _ root); auto|]. split; [apply switched_iff; auto|]. split; [exact L|]. split; [apply debugging_iff; assumption|].
    split; [apply switched_iff; auto|]. split; [apply switched_iff; auto|]. split; [apply oldest_iff; assumption|]. split; [apply architecture_iff; assumption|]. split; [apply lists_iff; [exact P|apply is_listed; reflexivity|reflexivity]|].
    split; [apply (root_iff m _ root); auto|apply dirs_iff; auto].
  - intros (sys & first & level & debug & alias & second & least & archs & warnings & root' & dirs & -> & H1 & H2 & H3 & H4 & H5 & H6 & H7 & H8 & H9 & H10 & H11).
    apply debugging_iff in H4; [|exact P]. rewrite H4. cbn [bind]. apply oldest_iff in H7; [|exact P]. rewrite H7. cbn [bind]. apply architecture_iff in H8; [|exact P]. rewrite H8. cbn [bind]. f_equal. unfold compiled_flags.
    apply (sysroot_iff m _ root) in H1; [|exact P|exact R]. apply switched_iff in H2; [|exact N]. apply switched_iff in H5; [|exact N]. apply switched_iff in H6; [|exact N]. apply lists_iff in H9; [|exact P|apply is_listed; reflexivity].
    apply (root_iff m _ root) in H10; [|exact P|exact R]. subst root'. apply dirs_iff in H11; [|exact D]. rewrite (proj1 (level_iff m _ level P) H3). subst. reflexivity.
Qed.

(** ** One language *)
Lemma c_standard_iff : forall m s w, proper s -> (c_standard s w <-> w = if is_text (get s "GCC_C_LANGUAGE_STANDARD" (Text "")) "ansi" then ["-ansi"] else appendf m s "GCC_C_LANGUAGE_STANDARD" "-std=" None).
Proof.
  intros m s w P. assert (Q : is_text (get s "GCC_C_LANGUAGE_STANDARD" (Text "")) "ansi" = true <-> In ("GCC_C_LANGUAGE_STANDARD", Text "ansi") s).
  { change (test s "GCC_C_LANGUAGE_STANDARD" "ansi" "" = true <-> In ("GCC_C_LANGUAGE_STANDARD", Text "ansi") s). rewrite test_iff by apply P. unfold says. split; [intros [I|(_ & X)]; [exact I|discriminate X]|auto]. }
  assert (L : ~ In "GCC_C_LANGUAGE_STANDARD" list_keys) by (apply not_listed; reflexivity). split.
  - intros [I|w' I W]; [apply Q in I; rewrite I; reflexivity|]. apply (worded_iff m) in W; [|exact P|exact L]. destruct (is_text (get s "GCC_C_LANGUAGE_STANDARD" (Text "")) "ansi"); [destruct I; apply Q; reflexivity|exact W].
  - destruct (is_text (get s "GCC_C_LANGUAGE_STANDARD" (Text "")) "ansi"); intros ->; [apply c_ansi; apply Q; reflexivity|]. apply c_other; [intros I; apply Q in I; discriminate I|]. apply (worded_iff m); auto.
Qed.
Theorem c_iff : forall m c flags, proper (xcode c) -> (get_cflags_c m c = flags <-> c_words (xcode c) flags).
Proof.
  intros m c flags P. unfold get_cflags_c, c_words. cbv zeta. split.
  - intros <-. eexists. eexists. split; [reflexivity|]. split; [apply (c_standard_iff m); auto|]. apply lists_iff; [exact P|apply is_listed; reflexivity|reflexivity].
  - intros (a & b & -> & A & B). apply (c_standard_iff m) in A; [|exact P]. apply lists_iff in B; [|exact P|apply is_listed; reflexivity]. subst. reflexivity.
Qed.
Lemma cxx_standard_iff : forall m s w, proper s -> (cxx_standard s w <-> w = match assoc "CLANG_CXX_LANGUAGE_STANDARD" s with Some v => if empty v then [] else ["-std=" ++ shown m v] | None => [] end).
Proof.
  intros m s w P. split.
  - intros [v I N|[I|(L & _)]].
    + apply assoc_iff in I; [|apply P]. rewrite I. destruct v; [congruence|reflexivity].
    + apply assoc_iff in I; [|apply P]. rewrite I. reflexivity.
    + apply lacks_iff in L. rewrite L. reflexivity.
  - destruct (assoc "CLANG_CXX_LANGUAGE_STANDARD" s) as [v|] eqn:E.
    + destruct (text_of _ _ _ P (not_listed "CLANG_CXX_LANGUAGE_STANDARD" eq_refl) E) as (x & ->). apply assoc_iff in E; [|apply P]. destruct x as [|a x]; cbn [empty shown]; intros ->.
      * apply cxx_none. left. exact E.
      * apply cxx_given; [exact E|discriminate].
    + intros ->. apply cxx_none. right. split; [apply lacks_iff; exact E|reflexivity].
Qed.
Lemma refers_iff : forall f, inherited f = true <-> refers f.
Proof. intros f. unfold inherited, refers. apply mem_In. Qed.
Lemma inherited_iff : forall cf own w, with_inherited cf own w <-> w = flat_map (fun f => if inherited f then cf else [f]) own.
Proof.
  intros cf. induction own as [|f own IH]; intros w.
  - split; [intros H; inversion H; reflexivity|intros ->; constructor].
  - cbn [flat_map]. destruct (inherited f) eqn:E.
    + apply refers_iff in E. split; [intros H; inversion H; subst; [f_equal; apply IH; assumption|contradiction]|]. intros ->. constructor; [exact E|apply IH; reflexivity].
    + assert (X : ~ refers f) by (intros X; apply refers_iff in X; congruence). split; [intros H; inversion H; subst; [contradiction|cbn [app]; f_equal; apply IH; assumption]|]. intros ->. cbn [app]. apply inherited_other; [exact X|apply IH; reflexivity].
Qed.
Lemma cxx_other_iff : forall s w, proper s -> (cxx_other s w <-> w = flat_map (fun f => if inherited f then items_of s "OTHER_CFLAGS" else [f]) (items (get s "OTHER_CPLUSPLUSFLAGS" (Items ["$(inherited)"])))).
Proof.
  intros s w P. unfold get. split.
  - intros [own cf w' I L W|cf X L]; (apply lists_iff in L; [|exact P|apply is_listed; reflexivity]); subst cf.
    + apply assoc_iff in I; [|apply P]. rewrite I. apply inherited_iff in W. exact W.
    + apply lacks_iff in X. rewrite X. cbn [items flat_map]. change (inherited "$(inherited)") with true. cbn iota. rewrite app_nil_r. reflexivity.
  - intros ->. assert (L : lists s "OTHER_CFLAGS" (items_of s "OTHER_CFLAGS")) by (apply lists_iff; [exact P|apply is_listed; reflexivity|reflexivity]).
    destruct (assoc "OTHER_CPLUSPLUSFLAGS" s) as [v|] eqn:E.
    + destruct (items_in _ _ _ P (is_listed "OTHER_CPLUSPLUSFLAGS" eq_refl) E) as (l & ->). apply assoc_iff in E; [|apply P]. apply (cxx_own s l (items_of s "OTHER_CFLAGS") _ E L). apply inherited_iff. reflexivity.
    + cbn [items flat_map]. change (inherited "$(inherited)") with true. cbn iota. rewrite app_nil_r. apply cxx_same; [apply lacks_iff; exact E|exact L].
Qed.
Lemma cxx_eq : forall s, flat_map (flag_of s) cxx_switches =
  (flag_if (test s "GCC_ENABLE_CPP_RTTI" "NO" "YES") "-fno-rtti" ++ flag_if (test s "GCC_ENABLE_CPP_EXCEPTIONS" "NO" "YES") "-fno-exceptions" ++ flag_if (test s "GCC_INLINES_ARE_PRIVATE_EXTERN" "YES" "NO") "-fvisibility-inlines-hidden" ++
   flag_if (test s "GCC_THREADSAFE_STATICS" "NO" "YES") "-fno-threadsafe-statics" ++ flag_if (test s "GCC_WARN_ABOUT_INVALID_OFFSETOF_MACRO" "NO" "YES") "-Wno-invalid-offsetof")%list.
Proof. intros s. cbn [flat_map cxx_switches flag_of]. rewrite app_nil_r. reflexivity. Qed.
Theorem cxx_iff : forall m c flags, proper (xcode c) -> (get_cflags_cc m c = flags <-> cxx_words (xcode c) flags).
Proof.
  intros m c flags P. assert (N := proj1 P). assert (E : get_cflags_cc m c = ((match assoc "CLANG_CXX_LANGUAGE_STANDARD" (xcode c) with Some v => if empty v then [] else [append "-std=" (shown m v)] | None => [] end) ++
    appendf m (xcode c) "CLANG_CXX_LIBRARY" "-stdlib=" None ++ flat_map (flag_of (xcode c)) cxx_switches ++
    flat_map (fun f => if inherited f then items_of (xcode c) "OTHER_CFLAGS" else [f]) (items (get (xcode c) "OTHER_CPLUSPLUSFLAGS" (Items ["$(inherited)"]))))%list) by (unfold get_cflags_cc; rewrite cxx_eq, <- !app_assoc; reflexivity).
  rewrite E. clear E. unfold cxx_words. assert (L : ~ In "CLANG_CXX_LIBRARY" list_keys) by (apply not_listed; reflexivity). split.
  - intros <-. do 4 eexists. split; [reflexivity|]. split; [apply (cxx_standard_iff m); auto|]. split; [apply (worded_iff m); auto|]. split; [apply switched_iff; auto|apply cxx_other_iff; auto].
  - intros (std & lib & sw & other & -> & A & B & C & D). apply (cxx_standard_iff m) in A; [|exact P]. apply (worded_iff m) in B; [|exact P|exact L]. apply switched_iff in C; [|exact N]. apply cxx_other_iff in D; [|exact P]. subst. reflexivity.
Qed.
Lemma objc_eq : forall c, get_cflags_objc c = flat_map (flag_of (xcode c)) objc_switches.
Proof.
  intros c. unfold get_cflags_objc. cbn [flat_map objc_switches flag_of]. cbv zeta. rewrite app_nil_r.
  unfold test. destruct (is_text (get (xcode c) "GCC_ENABLE_OBJC_GC" (Text "unsupported")) "supported") eqn:A; [|destruct (is_text (get (xcode c) "GCC_ENABLE_OBJC_GC" (Text "unsupported")) "required"); reflexivity].
  apply is_text_iff in A. rewrite A. reflexivity.
Qed.
Theorem objc_iff : forall c flags, proper (xcode c) -> (get_cflags_objc c = flags <-> switched (xcode c) objc_switches flags).
Proof. intros c flags P. rewrite objc_eq, switched_iff by apply P. split; congruence. Qed.
Theorem objcc_iff : forall c flags, proper (xcode c) -> (get_cflags_objcc c = flags <-> switched (xcode c) (objc_switches ++ objcc_switches) flags).
Proof.
  intros c flags P. unfold get_cflags_objcc. rewrite objc_eq, switched_iff, flat_map_app by apply P. cbn [flat_map objcc_switches flag_of]. rewrite app_nil_r. split; congruence.
Qed.
