(** Proofs about flags on macOS: the commands. *)
From Verif Require Import Lib Str StrFacts LibFacts Model_Path Model_Memo Spec_Quote Model_Quote Proof_Quote Model_Writer Proof_Suffix Proof_Parts Model_Flags Spec_Flags Proof_Flags Proof_Flags2 Proof_Flags3 Proof_Flags4 Proof_Flags5 Proof_Flags6 Proof_Flags7.
From Verif Require Import Model_FlagsMac Spec_FlagsMac Proof_FlagsMac Proof_FlagsMac2.
From Verif Require Model_Xcode Spec_Xcode Proof_Xcode Proof_Xcode2 Proof_Xcode4 Props_Xcode.
Local Open Scope string_scope.

(** ** Commands as words with spaces between them *)
Definition token (val : string -> option string) (x : string * list (list atom)) : Prop :=
  exists v, (forall cur t, refs val [] cur (fst x ++ t) = refs val [] (cur ++ v) t) /\ sh_arguments v = Some (snd x).
Lemma tokens : forall val l x, token val x -> Forall (token val) l -> forall cur, exists v, refs val [] cur (String.concat " " (map fst (x :: l))) = Some (cur ++ v) /\ sh_arguments v = Some (concat (map snd (x :: l))).
Proof.
  intros val. induction l as [|y l IH]; intros x (v & R & W) F cur.
  - exists v. cbn [map String.concat concat]. rewrite app_nil_r. split; [|exact W]. rewrite <- (append_nil_r (fst x)), R. reflexivity.
  - inversion F as [|? ? Ty Fl]; subst. destruct (IH y Ty Fl ((cur ++ v) ++ " ")) as (w & Rw & Ww). exists (v ++ " " ++ w). split.
    + change (String.concat " " (map fst (x :: y :: l))) with (fst x ++ " " ++ String.concat " " (map fst (y :: l))). rewrite R, refs_plain by reflexivity. rewrite Rw. rewrite !append_assoc. reflexivity.
    + cbn [map concat]. exact (words_app v w _ _ _ W Ww eq_refl).
Qed.
Lemma token_lit : forall val s, safe s -> token val (s, [literal s]).
Proof. intros val s S. exists s. split; [intros cur t; apply refs_plain; apply safe_not; [apply S|reflexivity]|exact (safe_words s S)]. Qed.
Lemma token_auto : forall val d o, d = "@"%char \/ d = "<"%char -> val (String d "") = Some o -> safe o -> token val (String "$" (String d ""), [literal o]).
Proof. intros val d o Hd V S. exists o. split; [|exact (safe_words o S)]. intros cur t. cbn [fst]. change (String "$" (String d "") ++ t) with ("$" ++ String d t). apply refs_auto; assumption. Qed.
Lemma quoted_words : forall o, safe o -> sh_arguments (String dquote (o ++ String dquote "")) = Some [literal o].
Proof.
  intros o [N S]. unfold sh_arguments. change (sh_read false Between [] (String dquote ?r)) with (sh_read false Double [] r).
  assert (G : forall s w, all_chars safe_char s = true -> sh_read false Double w (s ++ String dquote "") = Some [(w ++ literal s)%list]).
  { induction s as [|a s IH]; intros w C; [cbn; rewrite app_nil_r; reflexivity|]. cbn [all_chars] in C. apply andb_true_iff in C. destruct C as [C1 C2]. cbn [append sh_read].
    assert (N1 : Ascii.eqb a "034" = false) by (destruct (Ascii.eqb_spec a "034") as [->|]; [discriminate C1|reflexivity]). assert (N2 : Ascii.eqb a "\" = false) by (destruct (Ascii.eqb_spec a "\") as [->|]; [discriminate C1|reflexivity]).
    assert (N3 : Ascii.eqb a "$" = false) by (destruct (Ascii.eqb_spec a "$") as [->|]; [discriminate C1|reflexivity]). assert (N4 : Ascii.eqb a "`" = false) by (destruct (Ascii.eqb_spec a "`") as [->|]; [discriminate C1|reflexivity]).
    rewrite N1, N2, N3, N4. cbn [orb]. rewrite IH by exact C2. rewrite literal_cons. rewrite <- app_assoc. reflexivity. }
  rewrite G by exact S. reflexivity.
Qed.
Lemma token_quoted : forall val o, val "@" = Some o -> safe o -> token val ("""$@""", [literal o]).
Proof.
  intros val o V S. exists (String dquote (o ++ String dquote "")). split; [|exact (quoted_words o S)]. intros cur t. cbn [fst].
  change ("""$@""" ++ t) with (str1 dquote ++ "$" ++ String "@" (str1 dquote ++ t)). rewrite refs_plain by reflexivity. rewrite (refs_auto _ _ "@" o) by auto. rewrite refs_plain by reflexivity. f_equal. rewrite !append_assoc. reflexivity.
Qed.
Lemma token_ref : forall val x v ws, all_chars name_char x = true -> val x = Some v -> sh_arguments v = Some ws -> token val ("$(" ++ x ++ ")", ws).
Proof. intros val x v ws N V W. exists v. split; [|exact W]. intros cur t. cbn [fst]. rewrite !append_assoc. apply refs_ref; assumption. Qed.
Lemma token_tool : forall val n ts v ws, all_chars name_char n = true -> val "TOOLSET" = Some ts -> val (n ++ ts) = Some v -> sh_arguments v = Some ws -> token val ("$(" ++ n ++ "$(TOOLSET))", ws).
Proof.
  intros val n ts v ws N T V W. exists v. split; [|exact W]. intros cur t. cbn [fst]. rewrite !append_assoc. change ("$(TOOLSET))" ++ t) with ("$(" ++ "TOOLSET" ++ "))" ++ t). apply (refs_typed _ _ n "TOOLSET" ts v); (assumption || reflexivity).
Qed.
Lemma command_by : forall s f auto text l x words, text = String.concat " " (map fst (x :: l)) -> words = concat (map snd (x :: l)) ->
  (let val := fun y => match assoc y auto with Some v => Some v | None => in_recipe s f y end in token val x /\ Forall (token val) l) -> command_words s f auto text = Some words.
Proof. intros s f auto text l x words -> -> [T F]. unfold command_words. destruct (tokens _ l x T F "") as (v & R & W). cbn [append] in R. rewrite R. exact W. Qed.

Section Compile.
  Variables (v0 : variables) (t : built) (b : string) (c : config) (incs wf wc wcc wo woo : list string) (before after : list built) (f out src dep : string) (depw : list (list atom)).
  Hypothesis Hb : lookup_in v0 "BUILDTYPE" = Some b.
  Hypothesis Hc : assoc b (configs t) = Some c.
  Hypothesis Ha : set_apart b (map fst (configs t)).
  Hypothesis Ht : In (toolset (target_of t)) ["target"; "host"].
  Hypothesis Hdef : Forall plain_define (defines c).
  Hypothesis Hinc : Forall2 (include_at (lookup_in v0) (target_of t)) (include_dirs c) incs.
  Hypothesis Hf : all_give (lookup_in v0) (cflags c) wf.
  Hypothesis Hcc : all_give (lookup_in v0) (cflags_c c) wc.
  Hypothesis Hcxx : all_give (lookup_in v0) (cflags_cc c) wcc.
  Hypothesis Ho : all_give (lookup_in v0) (cflags_objc c) wo.
  Hypothesis Hoo : all_give (lookup_in v0) (cflags_objcc c) woo.
  Hypothesis Hfile : In f (objects (target_of t)).
  Hypothesis Hafter : forall u, In u after -> ~ In f (objects (target_of u)) /\ (type (target_of u) = None_ \/ f <> binary_of u).
  Hypothesis So : safe out.
  Hypothesis Ss : safe src.
  Hypothesis Wd : sh_arguments dep = Some depw.
  Let final := read_lines (v0, []) (lines_of (before ++ t :: after)).
  Let auto := [("@", out); ("<", src); ("DEPFLAGS", dep)].
  Let common := (map (append "-D") (defines c) ++ map (append "-I") incs ++ wf)%list.
  Let val := fun y => match assoc y auto with Some v => Some v | None => in_recipe final f y end.

  Lemma val_flags : forall g ps ws, In (g, (ps, ws)) (langs wc wcc wo woo) -> token val ("$(" ++ g ++ ")", map literal (common ++ ws)).
  Proof.
    intros g ps ws I. destruct (recipe_flags v0 t b c incs wf wc wcc wo woo Hb Hc Ha Hdef Hinc Hf Hcc Hcxx Ho Hoo before after f Hfile Hafter g ps ws I) as (x & V & W).
    apply (token_ref val g x).
    - unfold langs in I. cbn [In] in I. destruct I as [I|[I|[I|[I|[]]]]]; injection I as <- _ _; reflexivity.
    - unfold val. replace (assoc g auto) with (@None string); [exact V|]. unfold langs in I. cbn [In] in I. destruct I as [I|[I|[I|[I|[]]]]]; injection I as <- _ _; reflexivity.
    - unfold common. rewrite <- !app_assoc. exact W.
  Qed.
  Lemma val_toolset : val "TOOLSET" = Some (toolset (target_of t)).
  Proof. exact (recipe_toolset v0 t Ht before after f Hfile Hafter). Qed.
  Lemma val_tool : forall n x ws, In n ["CC."; "CXX."; "CFLAGS."; "CXXFLAGS."] -> lookup_in v0 (n ++ toolset (target_of t)) = Some x -> sh_arguments x = Some ws -> token val ("$(" ++ n ++ "$(TOOLSET))", ws).
  Proof.
    intros n x ws I V W. apply (token_tool val n (toolset (target_of t)) x); [destruct I as [<-|[<-|[<-|[<-|[]]]]]; reflexivity|exact val_toolset| |exact W].
    assert (E : val (n ++ toolset (target_of t)) = in_recipe final f (n ++ toolset (target_of t))) by (destruct I as [<-|[<-|[<-|[<-|[]]]]]; destruct Ht as [<-|[<-|[]]]; reflexivity).
    rewrite E. unfold final. rewrite recipe_other; [exact V| |].
    - destruct I as [<-|[<-|[<-|[<-|[]]]]]; destruct Ht as [<-|[<-|[]]]; reflexivity.
    - unfold special_names. cbn [In]. destruct I as [<-|[<-|[<-|[<-|[]]]]]; destruct Ht as [<-|[<-|[]]]; intros X; decompose [or] X; try contradiction; discriminate.
  Qed.
  Lemma token_common : Forall (token val) [("-o", [literal "-o"]); ("$@", [literal out]); ("$<", [literal src]); ("$(DEPFLAGS)", depw); ("-c", [literal "-c"])].
  Proof.
    repeat (apply Forall_cons; [|]); [apply token_lit; split; [discriminate|reflexivity]|apply (token_auto val "@" out); [auto|reflexivity|exact So]|apply (token_auto val "<" src); [auto|reflexivity|exact Ss]|apply (token_ref val "DEPFLAGS" dep); [reflexivity|reflexivity|exact Wd]|apply token_lit; split; [discriminate|reflexivity]|apply Forall_nil].
  Qed.
  Lemma tk : forall x, In x [("-o", [literal "-o"]); ("$@", [literal out]); ("$<", [literal src]); ("$(DEPFLAGS)", depw); ("-c", [literal "-c"])] -> token val x.
  Proof. exact (proj1 (Forall_forall _ _) token_common). Qed.

  Ltac each := repeat (apply Forall_cons; [first [apply tk; cbn [In]; auto 6; fail|idtac]|]); try apply Forall_nil.
  Lemma compiled_c : forall g ps ws n k cc ccw ex exw, In (g, (ps, ws)) (langs wc wcc wo woo) -> In n ["CC."; "CXX."] -> In k ["CFLAGS."; "CXXFLAGS."] ->
    lookup_in v0 (n ++ toolset (target_of t)) = Some cc -> sh_arguments cc = Some ccw -> lookup_in v0 (k ++ toolset (target_of t)) = Some ex -> sh_arguments ex = Some exw ->
    command_words final f auto (String.concat " " ["$(" ++ n ++ "$(TOOLSET))"; "-o"; "$@"; "$<"; "$(" ++ g ++ ")"; "$(DEPFLAGS)"; "$(" ++ k ++ "$(TOOLSET))"; "-c"]) =
    Some (ccw ++ map literal (["-o"; out; src] ++ common ++ ws) ++ depw ++ exw ++ [literal "-c"])%list.
  Proof.
    intros g ps ws n k cc ccw ex exw I Hn Hk V1 W1 V2 W2.
    apply (command_by final f auto _ [("-o", [literal "-o"]); ("$@", [literal out]); ("$<", [literal src]); ("$(" ++ g ++ ")", map literal (common ++ ws)%list); ("$(DEPFLAGS)", depw); ("$(" ++ k ++ "$(TOOLSET))", exw); ("-c", [literal "-c"])] ("$(" ++ n ++ "$(TOOLSET))", ccw)).
    - reflexivity.
    - cbn [map concat snd app]. reflexivity.
    - cbv zeta. fold val. split; [apply (val_tool n cc); [cbn [In] in *; tauto|exact V1|exact W1]|]. each; [exact (val_flags g ps ws I)|]. apply (val_tool k ex); [cbn [In] in *; tauto|exact V2|exact W2].
  Qed.
  Lemma compiled_objc : forall g ps ws n cc ccw, In (g, (ps, ws)) (langs wc wcc wo woo) -> In n ["CC."; "CXX."] ->
    lookup_in v0 (n ++ toolset (target_of t)) = Some cc -> sh_arguments cc = Some ccw ->
    command_words final f auto (String.concat " " ["$(" ++ n ++ "$(TOOLSET))"; "$(" ++ g ++ ")"; "$(DEPFLAGS)"; "-c"; "-o"; "$@"; "$<"]) =
    Some (ccw ++ map literal (common ++ ws) ++ depw ++ map literal ["-c"; "-o"; out; src])%list.
  Proof.
    intros g ps ws n cc ccw I Hn V1 W1.
    apply (command_by final f auto _ [("$(" ++ g ++ ")", map literal (common ++ ws)%list); ("$(DEPFLAGS)", depw); ("-c", [literal "-c"]); ("-o", [literal "-o"]); ("$@", [literal out]); ("$<", [literal src])] ("$(" ++ n ++ "$(TOOLSET))", ccw)).
    - reflexivity.
    - cbn [map concat snd app]. reflexivity.
    - cbv zeta. fold val. split; [apply (val_tool n cc); [cbn [In] in *; tauto|exact V1|exact W1]|]. each. exact (val_flags g ps ws I).
  Qed.
End Compile.

(** ** Linking *)
Section Link.
  Variables (v0 : variables) (t : built) (b : string) (c : config) (wl wt libs : list string) (before after : list built).
  Hypothesis Hb : lookup_in v0 "BUILDTYPE" = Some b.
  Hypothesis Hc : assoc b (configs t) = Some c.
  Hypothesis Ht : In (toolset (target_of t)) ["target"; "host"].
  Hypothesis Hty : type (target_of t) <> None_.
  Hypothesis Hl : all_give (lookup_in v0) (ldflags c ++ map (append "-L") (library_dirs c)) wl.
  Hypothesis Hlt : all_give (lookup_in v0) (libtoolflags c) wt.
  Hypothesis Hlibs : all_give (lookup_in v0) (libraries t) libs.
  Let f := binary_of t.
  Hypothesis Hafter : forall u, In u after -> ~ In f (objects (target_of u)) /\ (type (target_of u) = None_ \/ f <> binary_of u).
  Let s0 := read_lines (v0, []) (lines_of before).
  Let final := read_lines (v0, []) (lines_of (before ++ t :: after)).
  Let libs_line := Assign "LIBS" (write_list quote_if_necessary "" (libraries t)).
  Let part := (flat_map (lines_for link_texts) (sorted_configs t) ++ [libs_line])%list.
  Lemma link_split : exists a, target_lines t = (a ++ part ++ binary_lines t)%list.
  Proof.
    unfold target_lines, link_lines, part, libs_line. exists (Assign "TOOLSET" (toolset (target_of t)) :: Assign "TARGET" (target_name (target_of t)) :: match all_sources (target_of t) with [] => [] | _ => compile_lines t end).
    destruct (type (target_of t)); try contradiction; rewrite <- !app_assoc; reflexivity.
  Qed.
  Lemma recipe_binary : forall x, In x ["GYP_LDFLAGS"; "LIBS"; "GYP_LIBTOOLFLAGS"] ->
    exists v, in_recipe final f x = Some v /\ sh_arguments v = Some (map literal (if String.eqb x "LIBS" then libs else if String.eqb x "GYP_LDFLAGS" then wl else wt)).
  Proof.
    intros x Hx. destruct link_split as (a & E).
    assert (S0 : stable v0 (fst s0)) by apply before_stable.
    set (s1 := read_lines s0 a). set (s2 := read_lines s1 part).
    assert (Oa : forall l y, In l a -> sets l y -> owned y = true) by (intros l y H [tx ->]; apply (line_owned t y tx); rewrite E; apply in_app_iff; left; exact H).
    assert (Op : forall l y, In l part -> sets l y -> owned y = true) by (intros l y H [tx ->]; apply (line_owned t y tx); rewrite E; apply in_app_iff; right; apply in_app_iff; left; exact H).
    assert (S1 : stable v0 (fst s1)) by (apply (stable_trans _ (fst s0)); [exact S0|apply read_stable; exact Oa]).
    assert (S2 : stable v0 (fst s2)) by (apply (stable_trans _ (fst s1)); [exact S1|apply read_stable; exact Op]).
    assert (W : forall l ws, all_give (lookup_in v0) l ws -> exists v, (forall val, near v0 val -> read_value val (write_list quote_if_necessary "" l) = Some v) /\ sh_arguments v = Some (map literal ws)) by (intros l ws; apply all_words; exact (near_dirs v0)).
    assert (TV : forall p text v, In (p, text) (link_texts c) -> (forall val, near v0 val -> read_value val text = Some v) -> lookup_in (fst s2) (p ++ b) = Some v).
    { intros p text v I V. apply (table_value v0 t b c link_texts [] [libs_line] s1 p text v); [exact Op|exact S1|exact Hc|exact I| | |exact V].
      - intros n d q text' H1 _ H3 H4. exact (link_unique t b c n d p q text text' Hc H1 I H3 H4).
      - intros l [<-|[]] [tx X]. injection X as X _. unfold link_texts in I. cbn [In] in I. destruct I as [I|[I|[]]]; injection I as <- _; discriminate X. }
    assert (BT : lookup_in (fst s2) "BUILDTYPE" = Some b) by (rewrite S2 by reflexivity; exact Hb).
    assert (G : specific (snd (read_lines s2 (binary_lines t))) f x = Some (read_value (lookup_in (fst s2)) (if String.eqb x "LIBS" then "$(LIBS)" else if String.eqb x "GYP_LDFLAGS" then "$(LDFLAGS_$(BUILDTYPE))" else "$(LIBTOOLFLAGS_$(BUILDTYPE))"))).
    { unfold binary_lines, read_lines. destruct s2 as [v2 sp2]. cbn [fold_left read_line snd fst map app specific]. fold f. rewrite !String.eqb_refl. cbn [andb]. destruct Hx as [<-|[<-|[<-|[]]]]; reflexivity. }
    assert (K : in_recipe final f x = read_value (lookup_in (fst s2)) (if String.eqb x "LIBS" then "$(LIBS)" else if String.eqb x "GYP_LDFLAGS" then "$(LDFLAGS_$(BUILDTYPE))" else "$(LIBTOOLFLAGS_$(BUILDTYPE))")).
    { unfold in_recipe. unfold final. rewrite (final_is v0 t before after). rewrite after_keeps by exact Hafter. rewrite E, !read_lines_app. change (read_lines (v0, []) (lines_of before)) with s0. fold s1 s2. rewrite G. reflexivity. }
    rewrite K. destruct Hx as [<-|[<-|[<-|[]]]]; cbn [String.eqb Ascii.eqb Bool.eqb].
    - destruct (W _ _ Hl) as (v & V & A). exists v. split; [|exact A].
      change (read_value (lookup_in (fst s2)) "$(LDFLAGS_$(BUILDTYPE))") with (refs (lookup_in (fst s2)) [] "" ("$(" ++ "LDFLAGS_" ++ "$(" ++ "BUILDTYPE" ++ "))" ++ "")). rewrite (refs_typed _ _ "LDFLAGS_" "BUILDTYPE" b v); [reflexivity|reflexivity|reflexivity|exact BT|].
      apply (TV "LDFLAGS_" (write_list quote_if_necessary "" (ldflags c ++ map (append "-L") (library_dirs c))%list) v); [left; reflexivity|exact V].
    - destruct (W _ _ Hlibs) as (v & V & A). exists v. split; [|exact A]. change (read_value (lookup_in (fst s2)) "$(LIBS)") with (refs (lookup_in (fst s2)) [] "" ("$(" ++ "LIBS" ++ ")")). apply ref_value; [reflexivity|].
      apply (read_sets v0); [exact Op|exact S1| |right; eexists; apply in_app_iff; right; left; reflexivity].
      intros tx H w Hw. apply in_app_iff in H. destruct H as [H|[H|[]]]; [exfalso|unfold libs_line in H; injection H as <-; apply V; exists w; auto].
      apply table_line in H. destruct H as (n & d & p & tx' & _ & _ & I & X). injection X as X _. unfold link_texts in I. cbn [In] in I. destruct I as [I|[I|[]]]; injection I as <- _; discriminate X.
    - destruct (W _ _ Hlt) as (v & V & A). exists v. split; [|exact A].
      change (read_value (lookup_in (fst s2)) "$(LIBTOOLFLAGS_$(BUILDTYPE))") with (refs (lookup_in (fst s2)) [] "" ("$(" ++ "LIBTOOLFLAGS_" ++ "$(" ++ "BUILDTYPE" ++ "))" ++ "")). rewrite (refs_typed _ _ "LIBTOOLFLAGS_" "BUILDTYPE" b v); [reflexivity|reflexivity|reflexivity|exact BT|].
      apply (TV "LIBTOOLFLAGS_" (write_list quote_if_necessary "" (libtoolflags c)) v); [right; left; reflexivity|exact V].
  Qed.
  Lemma binary_toolset : in_recipe final f "TOOLSET" = Some (toolset (target_of t)).
  Proof.
    destruct link_split as (a & E). assert (S0 : stable v0 (fst s0)) by apply before_stable. rewrite app_assoc in E.
    set (s2 := read_lines s0 (a ++ part)%list).
    assert (Op : forall l y, In l (a ++ part)%list -> sets l y -> owned y = true) by (intros l y H [tx ->]; apply (line_owned t y tx); rewrite E; apply in_app_iff; left; exact H).
    assert (S2 : stable v0 (fst s2)) by (apply (stable_trans _ (fst s0)); [exact S0|apply read_stable; exact Op]).
    assert (T2 : lookup_in (fst s2) "TOOLSET" = Some (toolset (target_of t))).
    { apply (read_sets v0); [exact Op|exact S0| |].
      - intros tx H w _. rewrite (toolset_text t tx); [|rewrite E; apply in_app_iff; left; exact H]. destruct Ht as [<-|[<-|[]]]; reflexivity.
      - right. exists (toolset (target_of t)). assert (I : In (Assign "TOOLSET" (toolset (target_of t))) (target_lines t)) by (left; reflexivity).
        rewrite E in I. apply in_app_iff in I. destruct I as [I|[I|[I|[I|[I|[]]]]]]; [exact I|discriminate..]. }
    unfold in_recipe, final. rewrite (final_is v0 t before after). rewrite after_keeps by exact Hafter. rewrite E, read_lines_app. change (read_lines (v0, []) (lines_of before)) with s0. fold s2.
    rewrite (toolset_for t f v0 s2 (a ++ part)%list (binary_lines t)); [reflexivity|exact S2|exact Ht|exact E|exact T2|]. right. exists [f], "$(TOOLSET)". split; [cbn [binary_lines In]; auto|left; reflexivity].
  Qed.

  Variables (out inputs ld more text : string) (inw ldw morew words : list (list atom)).
  Hypothesis So : safe out.
  Hypothesis Wi : sh_arguments inputs = Some inw.
  Hypothesis Vld : lookup_in v0 ("LINK." ++ toolset (target_of t)) = Some ld.
  Hypothesis Wld : sh_arguments ld = Some ldw.
  Hypothesis Vm : lookup_in v0 ("LDFLAGS." ++ toolset (target_of t)) = Some more.
  Hypothesis Wm : sh_arguments more = Some morew.
  Let auto := [("@", out); ("LD_INPUTS", inputs); ("INPUTS", inputs)].
  Let val := fun y => match assoc y auto with Some v => Some v | None => in_recipe final f y end.
  Lemma link_token : forall x, In x [("-o", [literal "-o"]); ("$@", [literal out]); ("""$@""", [literal out]); ("$(LD_INPUTS)", inw); ("$(INPUTS)", inw); ("-shared", [literal "-shared"]); ("-bundle", [literal "-bundle"]); ("-static", [literal "-static"]);
      ("gyp-mac-tool", [literal "gyp-mac-tool"]); ("filter-libtool", [literal "filter-libtool"]); ("libtool", [literal "libtool"]);
      ("$(GYP_LDFLAGS)", map literal wl); ("$(LIBS)", map literal libs); ("$(GYP_LIBTOOLFLAGS)", map literal wt); ("$(LINK.$(TOOLSET))", ldw); ("$(LDFLAGS.$(TOOLSET))", morew)] -> token val x.
  Proof.
    apply Forall_forall. pose proof binary_toolset as T.
    assert (N : forall n x ws, In n ["LINK."; "LDFLAGS."] -> lookup_in v0 (n ++ toolset (target_of t)) = Some x -> sh_arguments x = Some ws -> token val ("$(" ++ n ++ "$(TOOLSET))", ws)).
    { intros n x ws I V W. apply (token_tool val n (toolset (target_of t)) x); [destruct I as [<-|[<-|[]]]; reflexivity|exact T| |exact W].
      assert (E : val (n ++ toolset (target_of t)) = in_recipe final f (n ++ toolset (target_of t))) by (destruct I as [<-|[<-|[]]]; destruct Ht as [<-|[<-|[]]]; reflexivity).
      rewrite E. unfold final. rewrite recipe_other; [exact V| |].
      - destruct I as [<-|[<-|[]]]; destruct Ht as [<-|[<-|[]]]; reflexivity.
      - unfold special_names. cbn [In]. destruct I as [<-|[<-|[]]]; destruct Ht as [<-|[<-|[]]]; intros X; decompose [or] X; try contradiction; discriminate. }
    assert (R : forall x ws, In x ["GYP_LDFLAGS"; "LIBS"; "GYP_LIBTOOLFLAGS"] -> ws = (if String.eqb x "LIBS" then libs else if String.eqb x "GYP_LDFLAGS" then wl else wt) -> token val ("$(" ++ x ++ ")", map literal ws)).
    { intros x ws I ->. destruct (recipe_binary x I) as (v & V & W). apply (token_ref val x v); [destruct I as [<-|[<-|[<-|[]]]]; reflexivity| |exact W].
      assert (E : val x = in_recipe final f x) by (destruct I as [<-|[<-|[<-|[]]]]; reflexivity). rewrite E. exact V. }
    apply Forall_cons; [apply token_lit; split; [discriminate|reflexivity]|]. apply Forall_cons; [apply (token_auto val "@" out); [auto|reflexivity|exact So]|]. apply Forall_cons; [apply token_quoted; [reflexivity|exact So]|].
    apply Forall_cons; [apply (token_ref val "LD_INPUTS" inputs); [reflexivity|reflexivity|exact Wi]|]. apply Forall_cons; [apply (token_ref val "INPUTS" inputs); [reflexivity|reflexivity|exact Wi]|].
    do 6 (apply Forall_cons; [apply token_lit; split; [discriminate|reflexivity]|]).
    apply Forall_cons; [apply (R "GYP_LDFLAGS"); [left; reflexivity|reflexivity]|]. apply Forall_cons; [apply (R "LIBS"); [right; left; reflexivity|reflexivity]|]. apply Forall_cons; [apply (R "GYP_LIBTOOLFLAGS"); [right; right; left; reflexivity|reflexivity]|].
    apply Forall_cons; [apply (N "LINK." ld); [left; reflexivity|exact Vld|exact Wld]|]. apply Forall_cons; [apply (N "LDFLAGS." more); [right; left; reflexivity|exact Vm|exact Wm]|]. apply Forall_nil.
  Qed.
  Lemma linked_mac : link_command (type (target_of t)) = Some text -> mac_link_words (type (target_of t)) ldw morew inw out wl wt libs = Some words -> command_words final f auto text = Some words.
  Proof.
    intros Et Ew. pose proof link_token as L. unfold link_command, mac_link_words in *. destruct (type (target_of t)); try discriminate; injection Et as <-; injection Ew as <-.
    - apply (command_by final f auto cmd_link [("$(GYP_LDFLAGS)", map literal wl); ("$(LDFLAGS.$(TOOLSET))", morew); ("-o", [literal "-o"]); ("""$@""", [literal out]); ("$(LD_INPUTS)", inw); ("$(LIBS)", map literal libs)] ("$(LINK.$(TOOLSET))", ldw));
        [reflexivity|cbn [map concat snd app]; rewrite app_nil_r; reflexivity|]. cbv zeta. fold val. split; [apply L; cbn [In]; auto 20|]. repeat (apply Forall_cons; [apply L; cbn [In]; auto 20|]). apply Forall_nil.
    - apply (command_by final f auto cmd_alink [("filter-libtool", [literal "filter-libtool"]); ("libtool", [literal "libtool"]); ("$(GYP_LIBTOOLFLAGS)", map literal wt); ("-static", [literal "-static"]); ("-o", [literal "-o"]); ("$@", [literal out]); ("$(INPUTS)", inw)] ("gyp-mac-tool", [literal "gyp-mac-tool"]));
        [reflexivity|cbn [map concat snd app]; rewrite app_nil_r, map_app; cbn [map]; rewrite <- app_assoc; reflexivity|]. cbv zeta. fold val. split; [apply L; cbn [In]; auto 20|]. repeat (apply Forall_cons; [apply L; cbn [In]; auto 20|]). apply Forall_nil.
    - apply (command_by final f auto cmd_solink [("-shared", [literal "-shared"]); ("$(GYP_LDFLAGS)", map literal wl); ("$(LDFLAGS.$(TOOLSET))", morew); ("-o", [literal "-o"]); ("""$@""", [literal out]); ("$(LD_INPUTS)", inw); ("$(LIBS)", map literal libs)] ("$(LINK.$(TOOLSET))", ldw));
        [reflexivity|cbn [map concat snd app]; rewrite app_nil_r; reflexivity|]. cbv zeta. fold val. split; [apply L; cbn [In]; auto 20|]. repeat (apply Forall_cons; [apply L; cbn [In]; auto 20|]). apply Forall_nil.
    - apply (command_by final f auto cmd_solink_module [("-bundle", [literal "-bundle"]); ("$(GYP_LDFLAGS)", map literal wl); ("$(LDFLAGS.$(TOOLSET))", morew); ("-o", [literal "-o"]); ("$@", [literal out]); ("$(INPUTS)", inw); ("$(LIBS)", map literal libs)] ("$(LINK.$(TOOLSET))", ldw));
        [reflexivity|cbn [map concat snd app]; rewrite app_nil_r; reflexivity|]. cbv zeta. fold val. split; [apply L; cbn [In]; auto 20|]. repeat (apply Forall_cons; [apply L; cbn [In]; auto 20|]). apply Forall_nil.
  Qed.
End Link.
