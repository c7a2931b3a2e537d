(** Proofs about flags on macOS: compiling. *)
From Verif Require Import Lib Str StrFacts LibFacts Model_Path Model_Memo Spec_Quote Model_Quote Proof_Quote Model_Writer Proof_Suffix Proof_Parts Model_Flags Spec_Flags Proof_Flags Proof_Flags2 Proof_Flags3 Proof_Flags4 Proof_Flags6 Proof_Flags7.
From Verif Require Import Model_FlagsMac Spec_FlagsMac Proof_FlagsMac.
Local Open Scope string_scope.

Definition lines_of (ts : list built) : list assignment := flat_map target_lines ts.
Lemma before_stable : forall v0 before, stable v0 (fst (read_lines (v0, []) (lines_of before))).
Proof. intros v0 before. apply (read_stable (lines_of before) (v0, [])). intros l x. apply lines_owned. Qed.
Lemma specific_none : forall ts (s : variables * specifics) f x, snd s = [] -> ~ In x special_names -> specific (snd (read_lines s (lines_of ts))) f x = None.
Proof.
  intros ts s f x Hs Hx. rewrite specific_keeps; [rewrite Hs; reflexivity|]. intros fs text H. exfalso. apply in_flat_map in H. destruct H as (t & _ & H). apply line_files in H. apply Hx. apply H.
Qed.
Lemma after_keeps : forall after s f x, (forall u, In u after -> ~ In f (objects (target_of u)) /\ (type (target_of u) = None_ \/ f <> binary_of u)) ->
  specific (snd (read_lines s (lines_of after))) f x = specific (snd s) f x.
Proof.
  intros after s f x H. apply specific_keeps. intros fs text Hin Hf. apply in_flat_map in Hin. destruct Hin as (u & Hu & Hin). destruct (H u Hu) as [H1 H2]. apply line_files in Hin. destruct Hin as (_ & Hin & _).
  destruct Hin as [->|(-> & Ht)]; [contradiction|]. destruct Hf as [Hf|[]]. destruct H2; [contradiction|congruence].
Qed.
Lemma toolset_for : forall t f v0 s a b, stable v0 (fst s) -> In (toolset (target_of t)) ["target"; "host"] -> target_lines t = (a ++ b)%list -> lookup_in (fst s) "TOOLSET" = Some (toolset (target_of t)) ->
  (specific (snd s) f "TOOLSET" = Some (Some (toolset (target_of t))) \/ exists fs text, In (Assign_for fs "TOOLSET" text) b /\ In f fs) ->
  specific (snd (read_lines s b)) f "TOOLSET" = Some (Some (toolset (target_of t))).
Proof.
  intros t f v0 s a b. revert s a. induction b as [|l b IH]; intros [v sp] a Hs Ht E Hl Hf.
  { destruct Hf as [Hf|(? & ? & [] & _)]. exact Hf. }
  unfold read_lines. cbn [fold_left]. apply (IH _ (a ++ [l])%list).
  - destruct l as [y text|fs y text]; [|exact Hs]. cbn [read_line fst] in *. apply (stable_trans _ v); [exact Hs|]. intros z Hz. apply lookup_other. intros ->.
    rewrite (line_owned t z text) in Hz; [discriminate|]. rewrite E. apply in_app_iff. right. left. reflexivity.
  - exact Ht.
  - rewrite <- app_assoc. exact E.
  - destruct l as [y text|fs y text]; [|exact Hl]. cbn [read_line fst] in *. destruct (string_dec y "TOOLSET") as [->|N]; [|rewrite lookup_other by exact N; exact Hl].
    rewrite lookup_same. rewrite (toolset_text t text) by (rewrite E; apply in_app_iff; right; left; reflexivity). destruct Ht as [<-|[<-|[]]]; reflexivity.
  - destruct l as [y text|fs y text]; cbn [read_line snd] in *.
    + destruct Hf as [Hf|(fs & text' & [H|H] & Hi)]; [left; exact Hf|discriminate|right; exists fs, text'; auto].
    + rewrite specific_app. destruct (in_dec string_dec f fs) as [Hi|Hi]; [destruct (string_dec y "TOOLSET") as [->|N]|].
      * left. rewrite specific_in by exact Hi. assert (Et : text = "$(TOOLSET)") by (apply (line_files t fs "TOOLSET" text); [rewrite E; apply in_app_iff; right; left; reflexivity|reflexivity]). subst text. cbn [fst] in Hl. f_equal.
        change (read_value (lookup_in v) "$(TOOLSET)") with (match lookup_in v "TOOLSET" with Some w => Some ("" ++ w) | None => None end). rewrite Hl. reflexivity.
      * rewrite specific_not by (intros [_ X]; congruence). destruct Hf as [Hf|(fs' & text' & [H|H] & Hi')]; [left; exact Hf|congruence|right; exists fs', text'; auto].
      * rewrite specific_not by (intros [X _]; contradiction). destruct Hf as [Hf|(fs' & text' & [H|H] & Hi')]; [left; exact Hf| |right; exists fs', text'; auto].
        injection H as -> _ _. contradiction.
Qed.
Lemma near_dirs : forall v0 val x, near v0 val -> In x ["obj"; "builddir"; "srcdir"] -> val x = lookup_in v0 x.
Proof. intros v0 val x (v & -> & S) H. apply S. destruct H as [<-|[<-|[<-|[]]]]; reflexivity. Qed.

(** Expanding the flags of an object: variables of the configuration one after the other *)
Fixpoint typed (ps : list (string * string)) : string :=
  match ps with [] => "" | (sep, p) :: ps' => sep ++ "$(" ++ p ++ "$(" ++ "BUILDTYPE" ++ "))" ++ typed ps' end.
Fixpoint joined (xs : list (string * string)) : string := match xs with [] => "" | (sep, x) :: xs' => sep ++ x ++ joined xs' end.
Lemma refs_typed_list : forall val b ps xs, val "BUILDTYPE" = Some b ->
  Forall2 (fun p x => fst p = fst x /\ has_char "$" (fst p) = false /\ all_chars name_char (snd p) = true /\ val (snd p ++ b) = Some (snd x)) ps xs ->
  forall cur, refs val [] cur (typed ps) = Some (cur ++ joined xs).
Proof.
  intros val b ps xs Hb F. induction F as [|[sep p] [sep' x] ps xs (E & N & A & V) F IH]; intros cur; [cbn [typed joined refs]; rewrite append_nil_r; reflexivity|].
  cbn [fst snd typed joined] in *. subst sep'. rewrite refs_plain by exact N. rewrite (refs_typed _ _ p "BUILDTYPE" b x) by (assumption || reflexivity). rewrite IH. rewrite !append_assoc. reflexivity.
Qed.
Lemma joined_words : forall xs wss, Forall2 (fun x ws => (fst x = " " \/ fst x = "  ") /\ sh_arguments (snd x) = Some ws) xs wss -> forall a la, sh_arguments a = Some la -> sh_arguments (a ++ joined xs) = Some (la ++ concat wss)%list.
Proof.
  intros xs wss F. induction F as [|[sep x] ws xs wss (S & W) F IH]; intros a la Ha; cbn [joined concat fst snd] in *; [rewrite append_nil_r, app_nil_r; exact Ha|].
  assert (G : sh_arguments (a ++ sep ++ x) = Some (la ++ ws)%list).
  { destruct S as [->| ->]; [apply (arguments_app a x); assumption|]. change ("  " ++ x) with (String " " (String " " x)). apply arguments_app; [exact Ha|]. rewrite arguments_space. exact W. }
  specialize (IH (a ++ sep ++ x) _ G). rewrite !append_assoc in IH. rewrite <- app_assoc in IH. exact IH.
Qed.

Section Target.
  Variables (v0 : variables) (t : built) (b : string) (c : config) (incs wf wc wcc wo woo : list string).
  Hypothesis Hb : lookup_in v0 "BUILDTYPE" = Some b.
  Hypothesis Hc : assoc b (configs t) = Some c.
  Hypothesis Ha : set_apart b (map fst (configs t)).
  Hypothesis Ht : In (toolset (target_of t)) ["target"; "host"].
  Hypothesis Hdef : Forall plain_define (defines c).
  Hypothesis Hinc : Forall2 (include_at (lookup_in v0) (target_of t)) (include_dirs c) incs.
  Hypothesis Hf : all_give (lookup_in v0) (cflags c) wf.
  Hypothesis Hcc : all_give (lookup_in v0) (cflags_c c) wc.
  Hypothesis Hcxx : all_give (lookup_in v0) (cflags_cc c) wcc.
  Hypothesis Ho : all_give (lookup_in v0) (cflags_objc c) wo.
  Hypothesis Hoo : all_give (lookup_in v0) (cflags_objcc c) woo.

  Let objs_line : assignment := Assign "OBJS" (write_list quote_if_necessary "" (map (fun c => objectify (target_of t) (absolutify (target_of t) (object_name c))) (compiled (target_of t)))).
  Let first_part : list assignment := (opening {| Model_Flags.target_of := target_of t; Model_Flags.configs := []; Model_Flags.libraries := []; Model_Flags.deps_of := [] |} ++ flat_map (lines_for (compile_texts t)) (sorted_configs t) ++ [objs_line])%list.
  Lemma lines_split : forall f, In f (objects (target_of t)) -> target_lines t = (first_part ++ object_lines t ++ link_lines t)%list.
  Proof.
    intros f Hi. unfold target_lines, first_part, compile_lines, objs_line, opening. cbn [Model_Flags.target_of].
    assert (N : compiled (target_of t) <> []) by (intros E; unfold objects in Hi; rewrite E in Hi; destruct Hi).
    assert (M : all_sources (target_of t) <> []) by (intros E; unfold compiled in N; rewrite E in N; apply N; reflexivity).
    destruct (all_sources (target_of t)); [contradiction|]. destruct (compiled (target_of t)); [contradiction|].
    cbn [app]. rewrite <- !app_assoc. reflexivity.
  Qed.
  Lemma first_owned : forall l y, In l first_part -> sets l y -> owned y = true.
  Proof.
    intros l y H [text ->]. unfold first_part in H. apply in_app_iff in H. destruct H as [H|H].
    - cbn [opening In] in H. decompose [or] H; try contradiction; match goal with E : Assign _ _ = Assign _ _ |- _ => injection E as <- _ end; reflexivity.
    - apply in_app_iff in H. destruct H as [H|[H|[]]]; [|injection H as <- _; reflexivity]. apply table_line in H. destruct H as (n & d & p & tx & _ & _ & I & E). injection E as -> _. apply prefixes_owned. exact (compile_prefix _ _ _ _ I).
  Qed.
  Lemma first_config : forall s p text x, stable v0 (fst s) -> In (p, text) (compile_texts t c) -> (forall val, near v0 val -> read_value val text = Some x) -> lookup_in (fst (read_lines s first_part)) (p ++ b) = Some x.
  Proof.
    intros s p text x Hs Hp Hx. apply (table_value v0 t b c (compile_texts t) _ _ s p text x); [exact first_owned|exact Hs|exact Hc|exact Hp| | |exact Hx].
    - intros n d q text' H1 H2 H3 H4. exact (compile_unique t b c n d p q text text' Hc Ha H1 H2 Hp H3 H4).
    - intros l Hl [tx ->]. pose proof (compile_prefix _ _ _ _ Hp) as I.
      assert (E : In (p ++ b) ["TOOLSET"; "TARGET"; "OBJS"]).
      { cbn [opening app In] in Hl. unfold objs_line in Hl. destruct Hl as [H|[H|[H|[]]]]; apply assign_inj in H; destruct H as [<- _]; cbn [In]; auto. }
      unfold prefixes in I. cbn [In] in I, E. destruct E as [E|[E|[E|[]]]]; decompose [or] I; try contradiction; subst p; discriminate E.
  Qed.
  Lemma first_toolset : forall s, stable v0 (fst s) -> lookup_in (fst (read_lines s first_part)) "TOOLSET" = Some (toolset (target_of t)).
  Proof.
    intros s Hs. apply (read_sets v0); [exact first_owned|exact Hs| |right; exists (toolset (target_of t)); left; reflexivity].
    intros text H w _. assert (E : text = toolset (target_of t)); [|subst text; destruct Ht as [<-|[<-|[]]]; reflexivity].
    unfold first_part in H. cbn [opening app In] in H. destruct H as [H|[H|H]]; [injection H as H; symmetry; exact H|discriminate|]. apply in_app_iff in H. destruct H as [H|[H|[]]]; [|discriminate].
    exfalso. apply table_line in H. destruct H as (n & d & p & tx & _ & _ & I & E). injection E as E _. exact (prefix_not_toolset p n (compile_prefix _ _ _ _ I) (eq_sym E)).
  Qed.

  (** Which lists go to a compiler *)
  Definition langs : list (string * (list string * list string)) :=
    [("GYP_CFLAGS", (["CFLAGS_C_"], wc)); ("GYP_CXXFLAGS", (["CFLAGS_CC_"], wcc)); ("GYP_OBJCFLAGS", (["CFLAGS_C_"; "CFLAGS_OBJC_"], wc ++ wo)); ("GYP_OBJCXXFLAGS", (["CFLAGS_CC_"; "CFLAGS_OBJCC_"], wcc ++ woo))]%list.
  Lemma list_words : forall p text ws, In (p, text, ws) [("CFLAGS_", write_list quote_if_necessary "" (cflags c), wf); ("CFLAGS_C_", write_list quote_if_necessary "" (cflags_c c), wc); ("CFLAGS_CC_", write_list quote_if_necessary "" (cflags_cc c), wcc);
      ("CFLAGS_OBJC_", write_list quote_if_necessary "" (cflags_objc c), wo); ("CFLAGS_OBJCC_", write_list quote_if_necessary "" (cflags_objcc c), woo)] ->
    forall s, stable v0 (fst s) -> exists x, lookup_in (fst (read_lines s first_part)) (p ++ b) = Some x /\ sh_arguments x = Some (map literal ws).
  Proof.
    intros p text ws H s Hs.
    assert (G : forall l ws', all_give (lookup_in v0) l ws' -> exists x, (forall val, near v0 val -> read_value val (write_list quote_if_necessary "" l) = Some x) /\ sh_arguments x = Some (map literal ws')).
    { intros l ws' G. apply (all_words (lookup_in v0) (near v0)); [exact (near_dirs v0)|exact G]. }
    assert (I : In (p, text) (compile_texts t c) /\ exists x, (forall val, near v0 val -> read_value val text = Some x) /\ sh_arguments x = Some (map literal ws)).
    { cbn [In] in H. unfold compile_texts. cbn [In]. decompose [or] H; try contradiction; match goal with E : (_, _, _) = _ |- _ => injection E as <- <- <- end; (split; [auto 10|]); apply G; assumption. }
    destruct I as (I & x & V & W). exists x. split; [exact (first_config s p text x Hs I V)|exact W].
  Qed.
  Lemma object_value : forall s g ps ws, stable v0 (fst s) -> In (g, (ps, ws)) langs ->
    exists x, read_value (lookup_in (fst (read_lines s first_part))) (typed (("", "DEFS_") :: (" ", "INCS_") :: ("  ", "CFLAGS_") :: map (fun p => (" ", p)) ps)) = Some x /\
      sh_arguments x = Some (map literal (map (append "-D") (defines c) ++ map (append "-I") incs ++ wf ++ ws))%list.
  Proof.
    intros s g ps ws Hs Hg. set (v := fst (read_lines s first_part)).
    assert (LB : lookup_in v "BUILDTYPE" = Some b) by (unfold v; rewrite (read_stable first_part s first_owned) by reflexivity; rewrite Hs by reflexivity; exact Hb).
    assert (D : exists x, lookup_in v ("DEFS_" ++ b) = Some x /\ sh_arguments x = Some (map literal (map (append "-D") (defines c)))).
    { destruct (read_list_value (near v0) escape_cpp_define "-D" (defines c) (map (fun d => literal ("-D" ++ d)) (defines c))) as (x & V & W).
      - induction (defines c) as [|d l IH]; cbn [map]; [apply Forall2_nil|]. inversion Hdef; subst. apply Forall2_cons; [apply define_piece; assumption|auto].
      - exists x. split; [refine (first_config s "DEFS_" _ x Hs _ V); unfold compile_texts; cbn [In]; auto|]. rewrite map_map. exact W. }
    assert (I : exists x, lookup_in v ("INCS_" ++ b) = Some x /\ sh_arguments x = Some (map literal (map (append "-I") incs))).
    { destruct (read_list_value (near v0) quote_if_necessary "-I" (map (fun i => sourceify (absolutify (target_of t) i)) (include_dirs c)) (map (fun i => literal ("-I" ++ i)) incs)) as (x & V & W).
      - revert Hinc. generalize (include_dirs c). intros l Hl. induction Hl; cbn [map]; [apply Forall2_nil|apply Forall2_cons; [|assumption]]. apply (include_piece (lookup_in v0)); [exact (near_dirs v0)|assumption].
      - exists x. split; [refine (first_config s "INCS_" _ x Hs _ V); unfold compile_texts; cbn [In]; auto 8|]. rewrite map_map. exact W. }
    destruct D as (x1 & V1 & W1). destruct I as (x2 & V2 & W2).
    destruct (list_words "CFLAGS_" _ wf ltac:(cbn [In]; auto) s Hs) as (x3 & V3 & W3). fold v in V3.
    assert (R : exists xs wss, Forall2 (fun p x => fst p = fst x /\ has_char "$" (fst p) = false /\ all_chars name_char (snd p) = true /\ lookup_in v (snd p ++ b) = Some (snd x)) (map (fun p => (" ", p)) ps) xs /\
      Forall2 (fun x ws => (fst x = " " \/ fst x = "  ") /\ sh_arguments (snd x) = Some ws) xs wss /\ concat wss = map literal ws).
    { destruct (list_words "CFLAGS_C_" _ wc ltac:(cbn [In]; auto) s Hs) as (y1 & A1 & B1). destruct (list_words "CFLAGS_CC_" _ wcc ltac:(cbn [In]; auto) s Hs) as (y2 & A2 & B2).
      destruct (list_words "CFLAGS_OBJC_" _ wo ltac:(cbn [In]; auto 6) s Hs) as (y3 & A3 & B3). destruct (list_words "CFLAGS_OBJCC_" _ woo ltac:(cbn [In]; auto 6) s Hs) as (y4 & A4 & B4). fold v in A1, A2, A3, A4.
      unfold langs in Hg. cbn [In] in Hg. destruct Hg as [Hg|[Hg|[Hg|[Hg|[]]]]]; injection Hg as _ <- <-; cbn [map].
      - exists [(" ", y1)], [map literal wc]. cbn [concat]. rewrite app_nil_r. split; [apply Forall2_cons; [cbn [fst snd]; auto|apply Forall2_nil]|]. split; [apply Forall2_cons; [cbn [fst snd]; auto|apply Forall2_nil]|reflexivity].
      - exists [(" ", y2)], [map literal wcc]. cbn [concat]. rewrite app_nil_r. split; [apply Forall2_cons; [cbn [fst snd]; auto|apply Forall2_nil]|]. split; [apply Forall2_cons; [cbn [fst snd]; auto|apply Forall2_nil]|reflexivity].
      - exists [(" ", y1); (" ", y3)], [map literal wc; map literal wo]. cbn [concat]. rewrite app_nil_r, map_app.
        split; [apply Forall2_cons; [cbn [fst snd]; auto|apply Forall2_cons; [cbn [fst snd]; auto|apply Forall2_nil]]|]. split; [apply Forall2_cons; [cbn [fst snd]; auto|apply Forall2_cons; [cbn [fst snd]; auto|apply Forall2_nil]]|reflexivity].
      - exists [(" ", y2); (" ", y4)], [map literal wcc; map literal woo]. cbn [concat]. rewrite app_nil_r, map_app.
        split; [apply Forall2_cons; [cbn [fst snd]; auto|apply Forall2_cons; [cbn [fst snd]; auto|apply Forall2_nil]]|]. split; [apply Forall2_cons; [cbn [fst snd]; auto|apply Forall2_cons; [cbn [fst snd]; auto|apply Forall2_nil]]|reflexivity]. }
    destruct R as (xs & wss & R1 & R2 & R3).
    exists (joined (("", x1) :: (" ", x2) :: ("  ", x3) :: xs)). split.
    - assert (J : read_value (lookup_in v) (typed (("", "DEFS_") :: (" ", "INCS_") :: ("  ", "CFLAGS_") :: map (fun p => (" ", p)) ps)) = refs (lookup_in v) [] "" (typed (("", "DEFS_") :: (" ", "INCS_") :: ("  ", "CFLAGS_") :: map (fun p => (" ", p)) ps))).
      { unfold langs in Hg. cbn [In] in Hg. destruct Hg as [Hg|[Hg|[Hg|[Hg|[]]]]]; injection Hg as _ <- _; reflexivity. }
      rewrite J. rewrite (refs_typed_list (lookup_in v) b _ (("", x1) :: (" ", x2) :: ("  ", x3) :: xs) LB); [reflexivity|].
      apply Forall2_cons; [cbn [fst snd]; auto|]. apply Forall2_cons; [cbn [fst snd]; auto|]. apply Forall2_cons; [cbn [fst snd]; auto|]. exact R1.
    - change (joined (("", x1) :: ?r)) with (x1 ++ joined r). rewrite !map_app, <- R3. change (map literal (map (append "-I") incs) ++ map literal wf ++ concat wss)%list with (concat (map literal (map (append "-I") incs) :: map literal wf :: wss)).
      apply joined_words; [|exact W1]. apply Forall2_cons; [cbn [fst snd]; auto|]. apply Forall2_cons; [cbn [fst snd]; auto|]. exact R2.
  Qed.

  Variables (before after : list built) (f : string).
  Hypothesis Hfile : In f (objects (target_of t)).
  Hypothesis Hafter : forall u, In u after -> ~ In f (objects (target_of u)) /\ (type (target_of u) = None_ \/ f <> binary_of u).
  Let s0 := read_lines (v0, []) (lines_of before).
  Let final := read_lines (v0, []) (lines_of (before ++ t :: after)).
  Lemma final_is : final = read_lines (read_lines s0 (target_lines t)) (lines_of after).
  Proof. unfold final, lines_of. rewrite flat_map_app, read_lines_app. cbn [flat_map]. rewrite read_lines_app. reflexivity. Qed.
  Lemma recipe_toolset : in_recipe final f "TOOLSET" = Some (toolset (target_of t)).
  Proof.
    unfold in_recipe. rewrite final_is, after_keeps by exact Hafter. rewrite (lines_split f Hfile), read_lines_app. set (s1 := read_lines s0 first_part).
    assert (S0 : stable v0 (fst s0)) by apply before_stable.
    rewrite (toolset_for t f v0 s1 first_part (object_lines t ++ link_lines t)%list); [reflexivity| |exact Ht|exact (lines_split f Hfile)|exact (first_toolset s0 S0)|right; exists (objects (target_of t)), "$(TOOLSET)"; split; [left; reflexivity|exact Hfile]].
    apply (stable_trans _ (fst s0)); [exact S0|]. apply read_stable. exact first_owned.
  Qed.
  Lemma recipe_flags : forall g ps ws, In (g, (ps, ws)) langs -> exists x, in_recipe final f g = Some x /\ sh_arguments x = Some (map literal (map (append "-D") (defines c) ++ map (append "-I") incs ++ wf ++ ws))%list.
  Proof.
    intros g ps ws Hg. destruct (object_value s0 g ps ws (before_stable v0 before) Hg) as (x & V & W). exists x. split; [|exact W].
    unfold in_recipe. rewrite final_is, after_keeps by exact Hafter. rewrite (lines_split f Hfile), !read_lines_app.
    assert (K : forall s', specific (snd (read_lines s' (link_lines t))) f g = specific (snd s') f g).
    { intros s'. apply specific_keeps. intros fs text H Hi. unfold link_lines in H.
      assert (G : In (Assign_for fs g text) (flat_map (lines_for link_texts) (sorted_configs t) ++ Assign "LIBS" (write_list quote_if_necessary "" (libraries t)) :: binary_lines t)%list) by (destruct (type (target_of t)); [exact H|exact H|exact H|exact H|destruct H]).
      apply in_app_iff in G. destruct G as [G|[G|G]]; [destruct (table_not_for _ _ _ _ _ G)|discriminate|]. unfold binary_lines in G. cbn [In] in G. unfold langs in Hg. cbn [In] in Hg.
      destruct Hg as [Hg|[Hg|[Hg|[Hg|[]]]]]; injection Hg as <- _ _; decompose [or] G; try contradiction; discriminate. }
    rewrite K. set (s1 := read_lines s0 first_part) in *. destruct s1 as [v1 sp1]. unfold object_lines, read_lines. cbn [fold_left read_line snd fst] in *. rewrite !specific_app.
    unfold langs in Hg. cbn [In] in Hg. destruct Hg as [Hg|[Hg|[Hg|[Hg|[]]]]]; injection Hg as <- <- <-;
      repeat (rewrite specific_not by (intros [_ X]; discriminate X)); rewrite specific_in by exact Hfile; exact V.
  Qed.
  Lemma recipe_other : forall x, owned x = false -> ~ In x special_names -> in_recipe final f x = lookup_in v0 x.
  Proof.
    intros x Hx Hs. unfold in_recipe, final. rewrite specific_none by (reflexivity || exact Hs). apply (read_stable (lines_of (before ++ t :: after)) (v0, [])); [intros l y; apply lines_owned|exact Hx].
  Qed.
End Target.
