(** Libraries, and the settings as a whole. *)
From Verif Require Import Lib LibFacts Str StrFacts Model_Path Proof_Path Proof_Path2 Spec_Path Model_Value Model_Vcxproj Spec_Vcxproj Model_Cmdline Model_Tools Spec_Tools Proof_Vcxproj Proof_Vcxproj2 Proof_Vcxproj4 Proof_Custom Proof_Custom2 Proof_Custom3 Proof_Tools Proof_Tools2.
From Verif Require Proof_Merge2 Model_Writer Proof_Vs.
Local Open Scope string_scope.

(** ** the name of a library *)
Lemma rsplit_sep_shape : forall p h t, rsplit_sep p = Some (h, t) -> p = h ++ t /\ (exists h', h = h' ++ "/" \/ h = h' ++ "\") /\ has_char "/" t = false /\ has_char "\" t = false.
Proof.
  induction p as [|a p IH]; intros h t E; [discriminate|]. cbn [rsplit_sep] in E. destruct (rsplit_sep p) as [[h0 t0]|] eqn:R.
  - injection E as <- <-. destruct (IH _ _ eq_refl) as (-> & (h' & H) & N). split; [reflexivity|]. split; [|exact N]. exists (String a h'). destruct H as [-> | ->]; auto.
  - destruct (is_sep a) eqn:S; [|discriminate]. injection E as <- <-. split; [reflexivity|]. split; [exists ""; apply is_sep_iff in S; destruct S as [-> | ->]; auto|]. clear - R. induction p as [|b p IH]; [split; reflexivity|]. cbn [rsplit_sep] in R. destruct (rsplit_sep p) as [[? ?]|]; [discriminate|]. destruct (is_sep b) eqn:B; [discriminate|]. destruct (IH eq_refl) as (H1 & H2). cbn [has_char]. unfold is_sep in B. apply orb_false_iff in B. destruct B as [-> ->]. auto.
Qed.
Lemma rsplit_sep_none : forall p, rsplit_sep p = None -> has_char "/" p = false /\ has_char "\" p = false.
Proof.
  induction p as [|b p IH]; intros R; [split; reflexivity|]. cbn [rsplit_sep] in R. destruct (rsplit_sep p) as [[? ?]|]; [discriminate|]. destruct (is_sep b) eqn:B; [discriminate|]. destruct (IH eq_refl) as (H1 & H2). cbn [has_char]. unfold is_sep in B. apply orb_false_iff in B. destruct B as [-> ->]. auto.
Qed.
Lemma only_dots_no : forall n, Model_Writer.only_dots n = false -> exists a, a <> "."%char /\ has_char a n = true.
Proof.
  induction n as [|a n IH]; intros D; [discriminate|]. cbn [Model_Writer.only_dots] in D. destruct (Ascii.eqb_spec a ".") as [->|N]; [destruct (IH D) as (b & U & V); exists b; split; [exact U|cbn [has_char]; rewrite V; destruct (Ascii.eqb _ b); reflexivity]|exists a; split; [exact N|cbn [has_char]; rewrite Ascii.eqb_refl; reflexivity]].
Qed.
Lemma splitext_has : forall s e, has_extension s e -> snd (nt_splitext s) = e.
Proof.
  intros s e (d & n & x & -> & Hd & Hs & Hx & (a & Na & Ha) & ->). pose proof (not_only_dots n a Na Ha) as D. assert (E : rsplit1 "." (n ++ "." ++ x) = Some (n, x)) by (apply rsplit1_Some; split; [reflexivity|exact Hx]).
  assert (S : forall c, In c ["/"; "\"]%char -> has_char c (n ++ "." ++ x) = false) by (intros c I; destruct (Hs c I) as [U V]; rewrite !has_char_app, U, V; cbn [has_char]; rewrite orb_false_r; destruct I as [<-|[<-|[]]]; reflexivity).
  pose proof (S "/"%char (or_introl eq_refl)) as S1. pose proof (S "\"%char (or_intror (or_introl eq_refl))) as S2. unfold nt_splitext. destruct Hd as [->|(d' & [-> | ->])].
  - change ("" ++ n ++ "." ++ x) with (n ++ "." ++ x). rewrite rsplit_none by assumption. rewrite E, D. reflexivity.
  - rewrite append_assoc. change ("/" ++ n ++ "." ++ x) with (String "/" (n ++ "." ++ x)). rewrite rsplit_app by (reflexivity || assumption). rewrite E, D. reflexivity.
  - rewrite append_assoc. change ("\" ++ n ++ "." ++ x) with (String "\" (n ++ "." ++ x)). rewrite rsplit_app by (reflexivity || assumption). rewrite E, D. reflexivity.
Qed.
Lemma splitext_some : forall s, snd (nt_splitext s) <> "" -> exists e, has_extension s e.
Proof.
  intros s N. unfold nt_splitext in N. assert (X : exists d b, s = d ++ b /\ (d = "" \/ exists d', d = d' ++ "/" \/ d = d' ++ "\") /\ has_char "/" b = false /\ has_char "\" b = false /\ (match rsplit_sep s with Some (d, b) => (d, b) | None => ("", s) end) = (d, b)).
  { destruct (rsplit_sep s) as [[d b]|] eqn:R.
    - destruct (rsplit_sep_shape _ _ _ R) as (A & B & C1 & C2). exists d, b. auto.
    - destruct (rsplit_sep_none _ R). exists "", s. auto 6. }
  destruct X as (d & b & A & B & C1 & C2 & E). rewrite E in N. destruct (rsplit1 "." b) as [[r e]|] eqn:R; [|contradiction]. destruct (Model_Writer.only_dots r) eqn:O; [contradiction|]. apply rsplit1_Some in R. destruct R as (-> & R). exists ("." ++ e), d, r, e. split; [exact A|]. split; [exact B|]. split; [|split; [exact R|split; [exact (only_dots_no r O)|reflexivity]]].
  assert (Q : forall c, has_char c (r ++ String "." e) = false -> has_char c r = false /\ has_char c e = false).
  { intros c H. rewrite has_char_app in H. apply orb_false_iff in H. destruct H as [H1 H2]. split; [exact H1|]. cbn [has_char] in H2. destruct (Ascii.eqb "." c); [discriminate|exact H2]. }
  intros c [<-|[<-|[]]]; apply Q; assumption.
Qed.
Lemma library_is : forall e x, library_file e x -> library e = x.
Proof.
  intros e x (n & Hn & Hx). unfold library. assert (L : (if String.prefix "-l" e then substring 2 (String.length e - 2) e else e) = n).
  { destruct Hn as [->|(H & ->)].
    - change ("-l" ++ n) with (String "-" (String "l" n)). assert (P : String.prefix "-l" (String "-" (String "l" n)) = true) by (apply Proof_Vs.prefix_iff; exists n; reflexivity). rewrite P. cbn [String.length substring]. change (substring 2 (S (S (String.length n)) - 2) (String "-" (String "l" n))) with (substring 0 (S (S (String.length n)) - 2) n). replace (S (S (String.length n)) - 2) with (String.length n) by lia. clear. induction n as [|a n IH]; [reflexivity|]. cbn [String.length substring]. rewrite IH. reflexivity.
    - destruct (String.prefix "-l" n) eqn:P; [|reflexivity]. apply Proof_Vs.prefix_iff in P. destruct P as (r & P). destruct (H r P). }
  rewrite L. destruct Hx as [((ext & H) & ->)|(H & ->)].
  - rewrite (splitext_has _ _ H). destruct H as (d & m & y & _ & _ & _ & _ & _ & ->). reflexivity.
  - destruct (String.eqb_spec (snd (nt_splitext n)) "") as [_|X]; [reflexivity|]. destruct (splitext_some n X) as (ext & Y). destruct (H ext Y).
Qed.
Lemma libraries_last : forall t, get_libraries t = last_ones (map library (libraries t)).
Proof.
  intros t. unfold get_libraries. generalize (libraries t) as l. intros l. rewrite <- fold_left_rev_right, rev_involutive.
  set (f := fun (y : string) (x : list string) => let l0 := library y in if mem l0 x then x else (x ++ [l0])%list). assert (M : forall l x, mem x (fold_right f [] l) = mem x (map library l)).
  { clear. induction l as [|e l IH]; intros x; [reflexivity|]. apply Bool.eq_true_iff_eq. rewrite !mem_In. cbn [fold_right map In]. assert (IH' : forall y, In y (fold_right f [] l) <-> In y (map library l)) by (intros y; rewrite <- !mem_In, IH; reflexivity). unfold f at 1. cbn zeta. destruct (mem (library e) (fold_right f [] l)) eqn:E.
    - apply mem_In in E. rewrite <- IH'. split; [auto|]. intros [<-|I]; [exact E|exact I].
    - rewrite in_app_iff, <- IH'. cbn [In]. split; [intros [I|[I|[]]]; auto|intros [I|I]; auto]. }
  induction l as [|e l IH]; [reflexivity|]. cbn [fold_right map last_ones]. unfold f at 1. cbn zeta. rewrite M. destruct (mem (library e) (map library l)); [exact IH|]. rewrite rev_unit, IH. reflexivity.
Qed.
Lemma last_ones_In : forall l x, In x (last_ones l) -> In x l.
Proof. induction l as [|y l IH]; intros x I; [destruct I|]. cbn [last_ones] in I. destruct (mem y l); [right; exact (IH x I)|]. destruct I as [->|I]; [left; reflexivity|right; exact (IH x I)]. Qed.

(** ** what each setting is *)
Lemma lookup_given : forall user tool name, (match lookup user tool name with Some (Items o) => o | _ => [] end) = given user tool name.
Proof. intros user tool name. unfold lookup, given, tool_settings. destruct (assoc tool user) as [s|]; [reflexivity|reflexivity]. Qed.
Ltac nth_step n := match goal with H : run_steps ?l _ = _ |- _ => change l with (firstn n l ++ skipn n l)%list in H end.
Lemma finalize_steps : forall pre b user t c tools, finalize pre b user t c = inl tools -> exists def_file,
  run_steps (steps pre t c (map (map_chars code) (if b then filter (fun d => negb (String.eqb d "_HAS_TR1=0")) (get_defines c) else get_defines c)) def_file) user = inl tools.
Proof.
  intros pre b user t c tools E. unfold finalize in E. destruct (escape_defines _) as [defs|] eqn:D; [|discriminate]. destruct (module_definition pre t) as [f|]; [|discriminate]. exists f. rewrite <- (escape_all _ _ D). exact E.
Qed.
Lemma steps_parts : forall pre t c defs f, exists tail,
  steps pre t c defs f = ([append_step "ClCompile" "AdditionalIncludeDirectories" (Items (map (fix_path pre) (include_dirs c ++ system_include_dirs c)));
    append_step "Midl" "AdditionalIncludeDirectories" (Items (map (fix_path pre) (midl_include_dirs c ++ system_include_dirs c)));
    append_step "ResourceCompile" "AdditionalIncludeDirectories" (Items (map (fix_path pre) (match resource_include_dirs c with Some l => l | None => include_dirs c ++ system_include_dirs c end)));
    {| step_tool := "Link"; step_setting := "AdditionalDependencies"; step_value := Items (get_libraries t); only_if_unset := false; even_if_empty := true |};
    append_step "Link" "AdditionalLibraryDirectories" (Items (map (fix_path pre) (library_dirs c)));
    {| step_tool := snd (output_file t); step_setting := "OutputFile"; step_value := Text (fst (output_file t)); only_if_unset := true; even_if_empty := false |};
    {| step_tool := snd (output_file t); step_setting := "TargetExt"; step_value := Text (target_ext t); only_if_unset := true; even_if_empty := false |};
    append_step "ClCompile" "PreprocessorDefinitions" (Items defs);
    append_step "ResourceCompile" "PreprocessorDefinitions" (Items defs)] ++ tail)%list /\
  Forall (fun s => ~ In (step_setting s) ["AdditionalIncludeDirectories"; "AdditionalDependencies"; "AdditionalLibraryDirectories"; "PreprocessorDefinitions"; "OutputFile"; "TargetExt"]) tail.
Proof.
  intros pre t c defs f. unfold steps, get_include_dirs. destruct (output_file t) as [o ot]. cbn [fst snd]. eexists. split; [cbn [app]; reflexivity|].
  assert (N : forall tool name v, (In name ["AdditionalIncludeDirectories"; "AdditionalDependencies"; "AdditionalLibraryDirectories"; "PreprocessorDefinitions"; "OutputFile"; "TargetExt"] -> False) -> ~ In (step_setting (append_step tool name v)) ["AdditionalIncludeDirectories"; "AdditionalDependencies"; "AdditionalLibraryDirectories"; "PreprocessorDefinitions"; "OutputFile"; "TargetExt"]) by (intros tool name v H; exact H).
  assert (Q : forall name, mem name ["AdditionalIncludeDirectories"; "AdditionalDependencies"; "AdditionalLibraryDirectories"; "PreprocessorDefinitions"; "OutputFile"; "TargetExt"] = false -> In name ["AdditionalIncludeDirectories"; "AdditionalDependencies"; "AdditionalLibraryDirectories"; "PreprocessorDefinitions"; "OutputFile"; "TargetExt"] -> False) by (intros name H; exact (proj1 (mem_false _ _) H)).
  repeat first [apply Forall_cons; [apply N; apply Q; reflexivity|] | apply Forall_app; split | apply Forall_nil
    | match goal with |- Forall _ (match precompiled_header c with _ => _ end) => destruct (precompiled_header c) as [[|? ?]|] | |- Forall _ (if ?x then _ else _) => destruct x end].
Qed.
Lemma tail_elsewhere : forall tool name tail, In name ["AdditionalIncludeDirectories"; "AdditionalDependencies"; "AdditionalLibraryDirectories"; "PreprocessorDefinitions"; "OutputFile"; "TargetExt"] ->
  Forall (fun s => ~ In (step_setting s) ["AdditionalIncludeDirectories"; "AdditionalDependencies"; "AdditionalLibraryDirectories"; "PreprocessorDefinitions"; "OutputFile"; "TargetExt"]) tail -> Forall (elsewhere tool name) tail.
Proof. intros tool name tail I F. eapply Forall_impl; [|exact F]. intros s N. right. intros ->. exact (N I). Qed.

Lemma read_behind : forall user tool name text l m, tool <> "" -> name <> "AdditionalOptions" -> text = formatted tool name (Items (given user tool name ++ m)) ->
  flat_map (fun i => reads (convert_macros i)) (m ++ (if mem name inherited then [("%(" ++ name ++ ")")%string] else []))%list = l -> reads_behind user tool name text l.
Proof.
  intros user tool name text l m T N -> E. unfold reads_behind. rewrite formatted_reads by exact N. rewrite <- app_assoc, flat_map_app, E. eexists. split; [reflexivity|]. intros F. induction F as [|s g H _ IH]; [reflexivity|]. cbn [flat_map]. rewrite (convert_none _ H), IH. reflexivity.
Qed.
Lemma defines_read : forall pre b user t c out, finalize pre b user t c = inl out -> defines c <> [] -> Forall (fun d => d <> "" /\ strip d = d /\ d <> "_HAS_TR1=0") (map (String.concat "=") (defines c)) ->
  exists text, written (sections out) "ClCompile" "PreprocessorDefinitions" = Some text /\ reads_behind user "ClCompile" "PreprocessorDefinitions" text (map sent (map (String.concat "=") (defines c)) ++ ["%(PreprocessorDefinitions)"]).
Proof.
  intros pre b user t c out E N F. destruct (finalize_steps _ _ _ _ _ _ E) as (f & R). assert (D : (if b then filter (fun d => negb (String.eqb d "_HAS_TR1=0")) (get_defines c) else get_defines c) = get_defines c).
  { destruct b; [|reflexivity]. unfold get_defines. clear - F. induction F as [|d l (_ & _ & H) _ IH]; [reflexivity|]. cbn [filter]. destruct (String.eqb_spec d "_HAS_TR1=0"); [contradiction|]. cbn [negb]. rewrite IH. reflexivity. }
  rewrite D in R. clear D. unfold get_defines in R. set (ds := map (String.concat "=") (defines c)) in *. assert (NE : map (map_chars code) ds <> []) by (unfold ds; destruct (defines c); [contradiction|discriminate]).
  destruct (steps_parts pre t c (map (map_chars code) ds) f) as (tail & S & T). rewrite S in R.
  match type of R with run_steps ([?a1; ?a2; ?a3; ?a4; ?a5; ?a6; ?a7; ?a8; ?a9] ++ _) _ = _ =>
    pose proof (steps_items [a1; a2; a3; a4; a5; a6; a7] a8 (a9 :: tail) user out (map (map_chars code) ds) R) as L end.
  cbn [append_step step_tool step_setting step_value only_if_unset even_if_empty] in L. eexists. split.
  - apply written_lookup; [discriminate|]. apply L; [|reflexivity|reflexivity|discriminate|right; exact NE].
    cbn [app]. repeat (apply Forall_cons; [first [right; discriminate|left; discriminate]|]). apply tail_elsewhere; [cbn; tauto|exact T].
  - rewrite lookup_given. eapply read_behind; [discriminate|discriminate|reflexivity|]. change (match with_backslashes "PreprocessorDefinitions" (Items (map (map_chars code) ds)) with Items m => m | Text _ => [] end) with (map (map_chars code) ds). change (if mem "PreprocessorDefinitions" inherited then [("%(" ++ "PreprocessorDefinitions" ++ ")")%string] else []) with ["%(PreprocessorDefinitions)"]. rewrite flat_map_app. f_equal. clear - F. induction F as [|d l (H1 & H2 & _) _ IH]; [reflexivity|]. cbn [map flat_map]. rewrite convert_none by (apply code_has; cbn; tauto). rewrite (reads_code d H1 H2), IH. reflexivity.
Qed.
Lemma dirs_read : forall pre l, way pre -> Forall directory l -> map (replace_char "/" "\") (map (fix_path pre) l) = map (fix_path pre) l /\ flat_map (fun i => reads (convert_macros i)) (map (fix_path pre) l) = map (fix_path pre) l /\ Forall2 (stands_for pre) l (map (fix_path pre) l).
Proof.
  intros pre l W F. induction F as [|d l H _ (I1 & I2 & I3)]; [repeat split; constructor|]. destruct (directory_fix pre d W H) as (A & B & C & D). cbn [map flat_map]. rewrite I1, I2, (convert_none _ C), D. change (to_bs (fix_path pre d)) with (replace_char "/" "\" (fix_path pre d)) in B. rewrite B. split; [reflexivity|]. split; [reflexivity|]. constructor; [exact A|exact I3].
Qed.
Lemma directories_read : forall pre b user t c out tool name dirs, finalize pre b user t c = inl out -> way pre -> searched c tool name dirs -> dirs <> [] -> Forall directory dirs ->
  exists text found, written (sections out) tool name = Some text /\ Forall2 (stands_for pre) dirs found /\ reads_behind user tool name text (found ++ [("%(" ++ name ++ ")")%string]).
Proof.
  intros pre b user t c out tool name dirs E W S N F. destruct (finalize_steps _ _ _ _ _ _ E) as (f & R). clear E.
  match type of R with run_steps (steps _ _ _ ?d _) _ = _ => destruct (steps_parts pre t c d f) as (tail & Q & T); rewrite Q in R; clear Q; generalize dependent d; intros ds R end.
  destruct (dirs_read pre dirs W F) as (D1 & D2 & D3). assert (NE : map (fix_path pre) dirs <> []) by (destruct dirs; [contradiction|discriminate]).
  assert (K : lookup out tool name = Some (Items (given user tool name ++ match with_backslashes name (Items (map (fix_path pre) dirs)) with Items m => m | Text _ => [] end)%list) -> (with_backslashes name (Items (map (fix_path pre) dirs)) = Items (map (replace_char "/" "\") (map (fix_path pre) dirs))) -> mem name inherited = true -> tool <> "" -> name <> "AdditionalOptions" -> exists text found, written (sections out) tool name = Some text /\ Forall2 (stands_for pre) dirs found /\ reads_behind user tool name text (found ++ [("%(" ++ name ++ ")")%string])).
  { intros L B M NT NN. rewrite B, D1 in L. eexists. exists (map (fix_path pre) dirs). split; [exact (written_lookup _ _ _ _ NT L)|]. split; [exact D3|]. eapply read_behind; [exact NT|exact NN|reflexivity|]. rewrite M, flat_map_app, D2. f_equal. clear - M. unfold inherited in M. apply mem_In in M. cbn in M. repeat (destruct M as [<-|M]; [reflexivity|]). destruct M. }
  destruct S as [| |l RI|RI|]; (apply K; [|reflexivity|reflexivity|discriminate|discriminate]); rewrite <- lookup_given;
  match type of R with run_steps ([?a1; ?a2; ?a3; ?a4; ?a5; ?a6; ?a7; ?a8; ?a9] ++ _) _ = _ =>
    match goal with
    | |- lookup _ "ClCompile" _ = _ => apply (steps_items [] a1 ([a2; a3; a4; a5; a6; a7; a8; a9] ++ tail) user out _ R)
    | |- lookup _ "Midl" _ = _ => apply (steps_items [a1] a2 ([a3; a4; a5; a6; a7; a8; a9] ++ tail) user out _ R)
    | |- lookup _ "ResourceCompile" _ = _ => rewrite RI in R; apply (steps_items [a1; a2] (append_step "ResourceCompile" "AdditionalIncludeDirectories" (Items (map (fix_path pre) _))) ([a4; a5; a6; a7; a8; a9] ++ tail) user out _ R)
    | |- lookup _ "Link" _ = _ => apply (steps_items [a1; a2; a3; a4] a5 ([a6; a7; a8; a9] ++ tail) user out _ R)
    end end; try reflexivity; try discriminate; try (right; exact NE);
  (cbn [app]; repeat (apply Forall_cons; [cbn [append_step step_tool step_setting elsewhere]; first [right; discriminate|left; discriminate]|]); apply tail_elsewhere; [cbn; tauto|exact T]).
Qed.
Lemma to_bs_tidy : forall x, tidy x -> pieces (replace_char "/" "\" x) = pieces x /\ has_char "$" (replace_char "/" "\" x) = false /\ reads (replace_char "/" "\" x) = [replace_char "/" "\" x].
Proof.
  intros x (N & S & H1 & H2 & H3). change (replace_char "/" "\" x) with (to_bs x). split; [apply pieces_to_bs|]. split; [rewrite to_bs_char by discriminate; exact H3|]. unfold reads. rewrite semicolons_none by (rewrite to_bs_char by discriminate; exact H1). cbn [map]. rewrite unescape_none.
  - assert (T : strip (to_bs x) = to_bs x).
    { destruct x as [|a x]; [contradiction|]. pose proof (strip_first _ _ S) as F. destruct (last_char (String a x)) as [X|(t & z & X)]; [discriminate X|]. assert (L : is_space z = false) by (rewrite X in S; exact (strip_last _ _ S)).
      assert (A : forall u v, to_bs (u ++ v) = to_bs u ++ to_bs v) by (clear; induction u as [|w u IH]; intros v; [reflexivity|]; unfold to_bs in *; cbn [append replace_char]; rewrite IH; reflexivity).
      assert (M : forall c, is_space c = false -> is_space (if Ascii.eqb c "/" then "\"%char else c) = false) by (intros c C; destruct (Ascii.eqb c "/"); [reflexivity|exact C]).
      pose proof (f_equal to_bs X) as Y. rewrite A in Y. change (to_bs (String a x)) with (String (if Ascii.eqb a "/" then "\"%char else a) (to_bs x)) in *. change (to_bs (String z "")) with (String (if Ascii.eqb z "/" then "\"%char else z) "") in Y. exact (strip_ends _ _ _ _ Y (M a F) (M z L)). }
    rewrite T. cbn [filter]. destruct x as [|a x]; [contradiction|]. reflexivity.
  - assert (G : forall s, has_char "%" s = false -> has_char "%" (strip s) = false).
    { clear. assert (L : forall s, has_char "%" s = false -> has_char "%" (lstrip_ws s) = false). { induction s as [|a s IH]; intros H; [reflexivity|]. cbn [lstrip_ws]. destruct (is_space a); [apply IH; cbn [has_char] in H; destruct (Ascii.eqb a "%"); [discriminate|exact H]|exact H]. }
      assert (R : forall s, has_char "%" s = false -> has_char "%" (rstrip_ws s) = false). { intros s H. unfold rstrip_ws. revert H. induction s as [|a s IH]; intros H; [reflexivity|]. cbn [has_char] in H. destruct (Ascii.eqb a "%") eqn:A; [discriminate|]. specialize (IH H). cbn. match goal with |- context [match ?r with _ => _ end] => destruct r eqn:Z end; [destruct (is_space a); [reflexivity|cbn [has_char]; rewrite A; reflexivity]|]. cbn [has_char] in *. rewrite A. exact IH. }
      intros s H. unfold strip. auto. }
    apply G. rewrite to_bs_char by discriminate. exact H2.
Qed.
Lemma libraries_read : forall pre b user t c out xs, finalize pre b user t c = inl out -> Forall2 library_file (libraries t) xs -> Forall tidy xs ->
  exists text found, written (sections out) "Link" "AdditionalDependencies" = Some text /\ Forall2 (fun x f => pieces f = pieces x) (last_ones xs) found /\ reads_behind user "Link" "AdditionalDependencies" text found.
Proof.
  intros pre b user t c out xs E X F. destruct (finalize_steps _ _ _ _ _ _ E) as (f & R). clear E.
  match type of R with run_steps (steps _ _ _ ?d _) _ = _ => destruct (steps_parts pre t c d f) as (tail & Q & T); rewrite Q in R; clear Q; generalize dependent d; intros ds R end.
  assert (G : get_libraries t = last_ones xs) by (rewrite libraries_last; f_equal; clear - X; induction X as [|e x l xs H _ IH]; [reflexivity|]; cbn [map]; rewrite (library_is _ _ H), IH; reflexivity).
  assert (F' : Forall tidy (last_ones xs)) by (rewrite Forall_forall in *; intros x I; apply F; exact (last_ones_In _ _ I)).
  match type of R with run_steps ([?a1; ?a2; ?a3; ?a4; ?a5; ?a6; ?a7; ?a8; ?a9] ++ _) _ = _ =>
    pose proof (steps_items [a1; a2; a3] a4 ([a5; a6; a7; a8; a9] ++ tail) user out (get_libraries t) R) as L end.
  cbn [append_step step_tool step_setting step_value only_if_unset even_if_empty] in L. rewrite G, lookup_given in L. eexists. exists (map (replace_char "/" "\") (last_ones xs)). split; [|split].
  - apply written_lookup; [discriminate|]. apply L; [|reflexivity|reflexivity|discriminate|left; reflexivity]. cbn [app]. repeat (apply Forall_cons; [cbn [append_step step_tool step_setting elsewhere]; first [right; discriminate|left; discriminate]|]). apply tail_elsewhere; [cbn; tauto|exact T].
  - clear - F'. induction F' as [|x l H _ IH]; [constructor|]. cbn [map]. constructor; [exact (proj1 (to_bs_tidy x H))|exact IH].
  - eapply read_behind; [discriminate|discriminate|reflexivity|]. change (match with_backslashes "AdditionalDependencies" (Items (last_ones xs)) with Items m => m | Text _ => [] end) with (map (replace_char "/" "\") (last_ones xs)). change (mem "AdditionalDependencies" inherited) with false. cbn iota. rewrite app_nil_r. apply reads_each. clear - F'. induction F' as [|x l H _ IH]; [constructor|]. cbn [map]. constructor; [exact (proj2 (to_bs_tidy x H))|exact IH].
Qed.

(** ** Options the user gives themselves *)
Lemma options_kept : forall pre converted user t c out tool l, finalize pre converted user t c = inl out -> In tool ["ClCompile"; "Link"; "Lib"] ->
  (exists s, assoc tool user = Some s /\ assoc "AdditionalOptions" s = Some (Items l)) -> Forall (fun o => has_char "$" o = false) l ->
  written (sections out) tool "AdditionalOptions" = Some (String.concat " " (l ++ ["%(AdditionalOptions)"])).
Proof.
  intros pre converted user t c out tool l E T (s & A & B) F. destruct (finalize_steps _ _ _ _ _ _ E) as (d & R).
  assert (L : lookup out tool "AdditionalOptions" = Some (Items l)).
  { rewrite (steps_other _ _ _ tool "AdditionalOptions" R); [unfold lookup, tool_settings; rewrite A; exact B|]. apply Forall_forall. intros x X. right. clear - X. unfold steps in X. destruct (get_include_dirs pre c) as [[i m] r]. destruct (output_file t) as [o ot].
    repeat (apply in_app_or in X; destruct X as [X|X]); repeat match goal with H : In _ (if ?b then _ else _) |- _ => destruct b | H : In _ (match ?b with _ => _ end) |- _ => destruct b end; cbn [In] in X; repeat (destruct X as [<-|X]; [discriminate|]); destruct X. }
  assert (NT : tool <> "") by (intros ->; cbn in T; decompose [or] T; try discriminate; contradiction). rewrite (written_lookup _ _ _ _ NT L). unfold formatted. change (mem "AdditionalOptions" inherited) with true. cbv iota.
  assert (M : mem tool ["ClCompile"; "Link"; "Lib"] = true) by (apply mem_In; exact T). rewrite M. change (String.eqb "AdditionalOptions" "AdditionalOptions") with true. cbn [andb]. rewrite map_app, (convert_map _ F). reflexivity.
Qed.
