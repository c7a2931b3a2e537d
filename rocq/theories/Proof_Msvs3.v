(** The conversion of Visual Studio settings: what each setting becomes. *)
From Coq Require Import ZArith.
From Verif Require Import Lib LibFacts Str StrFacts Model_Tools Model_Msvs Spec_Msvs Proof_Tools Proof_Tools2 Proof_Msvs Proof_Msvs2.
From Verif Require Model_Args Spec_Args Proof_Args Model_Text Proof_Merge2.
Local Open Scope string_scope.

Lemma pair_dec : forall x y : string * string, {x = y} + {x <> y}.
Proof. decide equality; apply string_dec. Defined.

(** ** a setting that nothing else changes *)
Lemma run_same : forall l out out' t n, run l out = Some out' -> (forall a b v r, In (a, b, v) l -> rule_of a b = Some r -> forall o o' x, translate r v o = Some (o', x) -> lookup o' t n = lookup o t n) -> lookup out' t n = lookup out t n.
Proof.
  induction l as [|[[a b] v] l IH]; intros out out' t n E H; cbn [run] in E; [injection E as <-; reflexivity|]. destruct (rule_of a b) as [r|] eqn:R.
  - destruct (translate r v out) as [[o x]|] eqn:T; [|discriminate]. rewrite (IH _ _ t n E) by (intros a' b' v' r' I; apply H; right; exact I). exact (H a b v r (or_introl eq_refl) R out o x T).
  - apply (IH _ _ t n E). intros a' b' v' r' I. apply H. right. exact I.
Qed.
Lemma final_if : forall d out ws a b v r t n, dictionary d -> convert d = Some (out, ws) -> given_as d a b v -> rule_of a b = Some r ->
  (forall a' b' v' r', given_as d a' b' v' -> rule_of a' b' = Some r' -> (a', b') <> (a, b) -> forall o o' x, translate r' v' o = Some (o', x) -> lookup o' t n = lookup o t n) ->
  exists o1 o2 x, translate r v o1 = Some (o2, x) /\ lookup out t n = lookup o2 t n /\ lookup o1 t n = None.
Proof.
  intros d out ws a b v r t n D C G R H. pose proof (convert_run d [] []) as E. unfold convert in C. rewrite C in E. cbn [option_map fst] in E. symmetry in E. apply flat_In in G. pose proof (flat_NoDup d D) as N. destruct (in_split _ _ G) as (l1 & l2 & Q).
  assert (K : forall a' b' v' r', In (a', b', v') l1 \/ In (a', b', v') l2 -> rule_of a' b' = Some r' -> forall o o' x, translate r' v' o = Some (o', x) -> lookup o' t n = lookup o t n).
  { intros a' b' v' r' J R'. apply (H a' b' v' r'); [|exact R'|].
    - apply flat_In. rewrite Q. apply in_or_app. destruct J; [left|right; right]; assumption.
    - intros P. rewrite Q, map_app in N. cbn [map fst] in N. apply NoDup_remove in N. destruct N as (_ & N). apply N. rewrite <- P. apply in_or_app. destruct J as [J|J]; [left|right]; apply in_map_iff; exists (a', b', v'); auto. }
  rewrite Q in E. rewrite run_app in E. destruct (run l1 []) as [o1|] eqn:E1; [|discriminate]. cbn [run] in E. rewrite R in E. destruct (translate r v o1) as [[o2 x]|] eqn:T; [|discriminate]. exists o1, o2, x. split; [exact T|]. split.
  - apply (run_same _ _ _ t n E). intros a' b' v' r' J. apply (K a' b' v' r'). auto.
  - rewrite (run_same _ _ _ t n E1); [reflexivity|]. intros a' b' v' r' J. apply (K a' b' v' r'). auto.
Qed.
(** The settings that two settings become. *)
Lemma shared_rules : forall a b r, rule_of a b = Some r -> (In ("ClCompile", "AdditionalOptions") (targets r) -> (a, b) = ("VCCLCompilerTool", "AdditionalOptions") \/ (a, b) = ("VCCLCompilerTool", "DefaultCharIsUnsigned") /\ r = Flag "ClCompile" "/J") /\
  (In ("ProjectReference", "LinkLibraryDependencies") (targets r) -> b = "LinkLibraryDependencies" /\ (a = "VCLinkerTool" \/ a = "VCLibrarianTool")).
Proof.
  assert (C : forallb (fun x => (negb (existsb (pair_eqb ("ClCompile", "AdditionalOptions")) (targets (snd x))) || pair_eqb (fst x) ("VCCLCompilerTool", "AdditionalOptions") || (pair_eqb (fst x) ("VCCLCompilerTool", "DefaultCharIsUnsigned") && match snd x with Flag t f => String.eqb t "ClCompile" && String.eqb f "/J" | _ => false end))
    && (negb (existsb (pair_eqb ("ProjectReference", "LinkLibraryDependencies")) (targets (snd x))) || (String.eqb (snd (fst x)) "LinkLibraryDependencies" && (String.eqb (fst (fst x)) "VCLinkerTool" || String.eqb (fst (fst x)) "VCLibrarianTool")))) all_rules = true) by (vm_compute; reflexivity).
  intros a b r R. rewrite forallb_forall in C. specialize (C _ (rule_In _ _ _ R)). cbn [fst snd] in C. apply andb_true_iff in C. destruct C as (C1 & C2).
  assert (X : forall p, In p (targets r) -> existsb (pair_eqb p) (targets r) = true) by (intros p I; apply existsb_exists; exists p; split; [exact I|apply pair_eqb_eq; reflexivity]). split; intros I.
  - rewrite (X _ I) in C1. cbn [negb orb] in C1. apply orb_true_iff in C1. destruct C1 as [C1|C1]; [left; apply pair_eqb_eq; exact C1|]. right. apply andb_true_iff in C1. destruct C1 as (C1 & C3). split; [apply pair_eqb_eq; exact C1|]. destruct r; try discriminate. apply andb_true_iff in C3. rewrite !String.eqb_eq in C3. destruct C3 as (-> & ->). reflexivity.
  - rewrite (X _ I) in C2. cbn [negb orb] in C2. apply andb_true_iff in C2. rewrite orb_true_iff, !String.eqb_eq in C2. exact C2.
Qed.
(** Nothing else changes what the setting becomes. *)
Definition alone (d : tools) (tool name : string) : Prop :=
  ((tool, name) = ("VCCLCompilerTool", "AdditionalOptions") -> ~ given_as d "VCCLCompilerTool" "DefaultCharIsUnsigned" (Text "true")) /\
  ((tool, name) = ("VCLinkerTool", "LinkLibraryDependencies") -> forall v, ~ given_as d "VCLibrarianTool" "LinkLibraryDependencies" v) /\
  ((tool, name) = ("VCLibrarianTool", "LinkLibraryDependencies") -> forall v, ~ given_as d "VCLinkerTool" "LinkLibraryDependencies" v) /\
  ((tool, name) = ("VCCLCompilerTool", "DefaultCharIsUnsigned") -> forall v, ~ given_as d "VCCLCompilerTool" "AdditionalOptions" v).
Lemma final_alone : forall d out ws a b v r t n, dictionary d -> convert d = Some (out, ws) -> given_as d a b v -> rule_of a b = Some r -> In (t, n) (targets r) -> alone d a b ->
  exists o1 o2 x, translate r v o1 = Some (o2, x) /\ lookup out t n = lookup o2 t n /\ lookup o1 t n = None.
Proof.
  intros d out ws a b v r t n D C G R I (A1 & A2 & A3 & A4). apply (final_if d out ws a b v r t n D C G R). intros a' b' v' r' G' R' N o o' x T.
  assert (P : In (t, n) (targets r') \/ ~ In (t, n) (targets r')) by (destruct (in_dec pair_dec (t, n) (targets r')); auto). destruct P as [P|P]; [|exact (translate_other r' v' o o' x t n T P)].
  assert (Q : In (t, n) shared \/ ~ In (t, n) shared) by (destruct (in_dec pair_dec (t, n) shared); auto). destruct Q as [Q|Q]; [|destruct N; symmetry; exact (unique_target a b r a' b' r' (t, n) R R' I P Q)].
  destruct Q as [Q|[Q|[]]]; injection Q as <- <-.
  - apply (shared_rules a b r R) in I. apply (shared_rules a' b' r' R') in P. destruct I as (-> & [->| ->]), P as (-> & [->| ->]); [congruence|destruct (A2 eq_refl _ G')|destruct (A3 eq_refl _ G')|congruence].
  - destruct (proj1 (shared_rules a b r R) I) as [E|(E & _)]; destruct (proj1 (shared_rules a' b' r' R') P) as [E'|(E' & ->)]; injection E as -> ->; injection E' as -> ->; [congruence| |destruct (A4 eq_refl _ G')|congruence].
    destruct (flag_text "ClCompile" "/J" v' o) as [->|F]; [destruct (A1 eq_refl G')|]. rewrite F in T. injection T as <- _. reflexivity.
Qed.

(** ** the kinds of settings *)
Lemma becomes : forall d out ws tool name v mt mn ty v', dictionary d -> convert d = Some (out, ws) -> given_as d tool name v -> says tool name (Becomes mt mn ty) -> alone d tool name -> convert_value ty v = Converted v' -> found out mt mn = Some v'.
Proof.
  intros d out ws tool name v mt mn ty v' D C G S A V. apply says_rule in S. destruct (final_alone d out ws tool name v _ mt mn D C G S (or_introl eq_refl) A) as (o1 & o2 & x & T & L & _). rewrite found_lookup, L. cbn [translate] in T. rewrite V in T. injection T as <- _. apply put_same.
Qed.
Lemma as_is : forall d out ws tool name v mt mn, dictionary d -> convert d = Some (out, ws) -> given_as d tool name v -> says tool name (As_is mt mn) -> found out mt mn = Some v.
Proof.
  intros d out ws tool name v mt mn D C G S. assert (A : alone d tool name).
  { unfold alone. assert (N : forall t n r, says tool name (As_is mt mn) -> rule_of t n = Some r -> (forall x y, r <> As_is x y) -> (tool, name) <> (t, n)) by (intros t n r S' R NA E; injection E as -> ->; apply says_rule in S'; rewrite R in S'; injection S' as ->; destruct (NA mt mn eq_refl)).
    split; [|split; [|split]]; intros E; exfalso; revert E; (eapply N; [exact S|vm_compute; reflexivity|discriminate]). }
  apply says_rule in S. destruct (final_alone d out ws tool name v _ mt mn D C G S (or_introl eq_refl) A) as (o1 & o2 & x & T & L & _). rewrite found_lookup, L. cbn [translate] in T. injection T as <- _. apply put_same.
Qed.
Lemma unsigned : forall d out ws, dictionary d -> convert d = Some (out, ws) -> given_as d "VCCLCompilerTool" "DefaultCharIsUnsigned" (Text "true") -> (forall v, ~ given_as d "VCCLCompilerTool" "AdditionalOptions" v) -> found out "ClCompile" "AdditionalOptions" = Some (Text "/J").
Proof.
  intros d out ws D C G A. destruct (final_alone d out ws "VCCLCompilerTool" "DefaultCharIsUnsigned" (Text "true") (Flag "ClCompile" "/J") "ClCompile" "AdditionalOptions" D C G) as (o1 & o2 & x & T & L & N); [vm_compute; reflexivity|left; reflexivity| |].
  - split; [discriminate|]. split; [discriminate|]. split; [discriminate|]. intros _. exact A.
  - rewrite found_lookup, L. cbn [translate] in T. unfold lookup in N. rewrite N in T. injection T as <- _. apply put_same.
Qed.
Lemma preprocessed : forall d out ws v, dictionary d -> convert d = Some (out, ws) -> given_as d "VCCLCompilerTool" "GeneratePreprocessedFile" v -> forall a b, In (v, a, b) [(Text "0", "false", "false"); (Text "1", "true", "false"); (Text "2", "true", "true")] ->
  found out "ClCompile" "PreprocessToFile" = Some (Text a) /\ found out "ClCompile" "PreprocessSuppressLineNumbers" = Some (Text b).
Proof.
  intros d out ws v D C G a b I. assert (R : rule_of "VCCLCompilerTool" "GeneratePreprocessedFile" = Some (Preprocessed "ClCompile")) by (vm_compute; reflexivity). assert (A : alone d "VCCLCompilerTool" "GeneratePreprocessedFile") by (split; [discriminate|]; split; [discriminate|]; split; discriminate).
  destruct (final_alone d out ws _ _ v _ "ClCompile" "PreprocessToFile" D C G R (or_introl eq_refl) A) as (o1 & o2 & x & T & L & _). destruct (final_alone d out ws _ _ v _ "ClCompile" "PreprocessSuppressLineNumbers" D C G R (or_intror (or_introl eq_refl)) A) as (o3 & o4 & y & T' & L' & _). rewrite !found_lookup, L, L'. clear L L' C G A D R.
  destruct I as [I|[I|[I|[]]]]; injection I as <- <- <-; cbn [translate] in T, T'; injection T as <- _; injection T' as <- _; (split; [rewrite put_other by discriminate|]; apply put_same).
Qed.

(** ** the places *)
Definition place_ok (names : list (string * string * string * string)) (tools : list (string * string)) (t n : string) (r : rule) : bool :=
  match r with
  | Becomes a b ty => String.eqb n "LinkLibraryDependencies" || match ty with Label _ => true | _ => false end ||
    (let l := filter (fun y => String.eqb (fst (fst (fst y))) t && String.eqb (snd (fst (fst y))) n) names in
     match l with [] => forallb (fun p => negb (String.eqb (fst p) t) || String.eqb (snd p) a) tools && String.eqb b n | _ => forallb (fun y => String.eqb (snd (fst y)) a && String.eqb (snd y) b) l end)
  | _ => true
  end.
Lemma places_true : forallb (fun x => place_ok renamed renamed_tools (fst (fst x)) (snd (fst x)) (snd x)) all_rules = true.
Proof. vm_compute. reflexivity. Qed.
Lemma place_each : forall t n r, In (t, n, r) all_rules -> place_ok renamed renamed_tools t n r = true.
Proof. intros t n r. exact (proj1 (forallb_forall (fun x => place_ok renamed renamed_tools (fst (fst x)) (snd (fst x)) (snd x)) all_rules) places_true (t, n, r)). Qed.
Lemma place_gen : forall names tools tool name a b ty mt mn, place_ok names tools tool name (Becomes a b ty) = true -> name <> "LinkLibraryDependencies" -> (forall l, ty <> Label l) ->
  In (tool, name, mt, mn) names \/ (forall a b, ~ In (tool, name, a, b) names) /\ In (tool, mt) tools /\ mn = name -> a = mt /\ b = mn.
Proof.
  intros names tools tool name a b ty mt mn C NL NT P. unfold place_ok in C. apply String.eqb_neq in NL. rewrite NL in C. cbn [orb] in C.
  assert (T : match ty with Label _ => true | _ => false end = false) by (destruct ty as [| | | |l]; [reflexivity..|destruct (NT l eq_refl)]). rewrite T in C. cbn [orb] in C. cbv zeta in C.
  set (l := filter _ names) in C.
  assert (F : forall x y, In (tool, name, x, y) names <-> In (tool, name, x, y) l) by (intros x y; unfold l; rewrite filter_In; cbn [fst snd]; rewrite !String.eqb_refl; cbn [andb]; split; [auto|intros (H & _); exact H]).
  destruct P as [P|(P1 & P2 & ->)].
  - apply F in P. destruct l as [|p l']; [destruct P|]. rewrite forallb_forall in C. specialize (C _ P). cbn [fst snd] in C. apply andb_true_iff in C. rewrite !String.eqb_eq in C. destruct C as (-> & ->). auto.
  - assert (E : l = []). { destruct l as [|[[[x1 x2] x3] x4] l'] eqn:Q; [reflexivity|]. exfalso. assert (J : In (x1, x2, x3, x4) l) by (rewrite Q; left; reflexivity). assert (K := J). unfold l in K. apply filter_In in K. destruct K as (K1 & K2). cbn [fst snd] in K2. apply andb_true_iff in K2. rewrite !String.eqb_eq in K2. destruct K2 as (-> & ->). exact (P1 _ _ K1). }
    rewrite E in C. apply andb_true_iff in C. destruct C as (C1 & C2). apply String.eqb_eq in C2. split; [|exact C2]. rewrite forallb_forall in C1. specialize (C1 _ P2). cbn [fst snd] in C1. rewrite String.eqb_refl in C1. cbn [negb orb] in C1. apply String.eqb_eq in C1. auto.
Qed.
Lemma place_rule : forall tool name a b ty mt mn, says tool name (Becomes a b ty) -> name <> "LinkLibraryDependencies" -> (forall l, ty <> Label l) -> place tool name mt mn -> a = mt /\ b = mn.
Proof.
  intros tool name a b ty mt mn S NL NT P. apply says_rule in S. exact (place_gen renamed renamed_tools tool name a b ty mt mn (place_each _ _ _ (rule_In _ _ _ S)) NL NT P).
Qed.
Lemma switches : forall d out ws tool name v a b mt mn, dictionary d -> convert d = Some (out, ws) -> given_as d tool name v -> says tool name (Becomes a b Boolean) -> name <> "LinkLibraryDependencies" -> place tool name mt mn -> switch v -> found out mt mn = Some v.
Proof.
  intros d out ws tool name v a b mt mn D C G S NL P W. destruct (place_rule tool name a b Boolean mt mn S NL ltac:(discriminate) P) as (-> & ->). apply (becomes d out ws tool name v mt mn Boolean v D C G S).
  - assert (N : forall t n r, rule_of t n = Some r -> (forall x y, r <> Becomes x y Boolean) -> (tool, name) <> (t, n)) by (intros t n r R NA E; injection E as -> ->; apply says_rule in S; rewrite R in S; injection S as ->; destruct (NA mt mn eq_refl)).
    split; [|split; [|split]]; intros E; exfalso; revert E; [eapply N; [vm_compute; reflexivity|discriminate]|congruence|congruence|eapply N; [vm_compute; reflexivity|discriminate]].
  - destruct W as [->| ->]; reflexivity.
Qed.
Lemma texts : forall d out ws tool name v a b ty mt mn, dictionary d -> convert d = Some (out, ws) -> given_as d tool name v -> says tool name (Becomes a b ty) -> ty = One /\ is_text v \/ ty = Several -> place tool name mt mn -> macro_free v ->
  ((tool, name) = ("VCCLCompilerTool", "AdditionalOptions") -> ~ given_as d "VCCLCompilerTool" "DefaultCharIsUnsigned" (Text "true")) -> found out mt mn = Some v.
Proof.
  intros d out ws tool name v a b ty mt mn D C G S K P M O. assert (NL : name <> "LinkLibraryDependencies").
  { intros ->. apply says_rule in S. pose proof (rule_In _ _ _ S) as I. assert (F : forallb (fun x => negb (String.eqb (snd (fst x)) "LinkLibraryDependencies") || match snd x with Becomes _ _ Boolean => true | _ => false end) all_rules = true) by (vm_compute; reflexivity). rewrite forallb_forall in F. specialize (F _ I). cbn [fst snd] in F. rewrite String.eqb_refl in F. cbn [negb orb] in F. destruct ty; try discriminate. destruct K as [(K & _)|K]; discriminate. }
  destruct (place_rule tool name a b ty mt mn S NL) as (-> & ->); [destruct K as [(-> & _)| ->]; discriminate|exact P|]. apply (becomes d out ws tool name v mt mn ty v D C G S).
  - split; [exact O|]. split; [congruence|]. split; [congruence|]. intros E. exfalso. injection E as -> ->. apply says_rule in S. vm_compute in S. discriminate.
  - destruct v as [s|l]; cbn [macro_free] in M.
    + assert (V : Converted (Text (convert_macros s)) = Converted (Text s)) by (rewrite (convert_none s M); reflexivity). destruct K as [(-> & _)| ->]; exact V.
    + destruct K as [(_ & [])| ->]. cbn [convert_value]. rewrite (convert_map l M). reflexivity.
Qed.
Lemma numbers : forall d out ws tool name s z a b mt mn, dictionary d -> convert d = Some (out, ws) -> given_as d tool name (Text s) -> says tool name (Becomes a b (Integer false)) -> Spec_Args.whole_number s z -> place tool name mt mn -> found out mt mn = Some (Text (decimal z)).
Proof.
  intros d out ws tool name s z a b mt mn D C G S W P. assert (N : forall t n r, rule_of t n = Some r -> (forall x y, r <> Becomes x y (Integer false)) -> (tool, name) <> (t, n)) by (intros t n r R NA E; injection E as -> ->; apply says_rule in S; rewrite R in S; injection S as ->; destruct (NA a b eq_refl)).
  assert (NL : name <> "LinkLibraryDependencies").
  { intros ->. apply says_rule in S. pose proof (rule_In _ _ _ S) as I. assert (F : forallb (fun x => negb (String.eqb (snd (fst x)) "LinkLibraryDependencies") || match snd x with Becomes _ _ Boolean => true | _ => false end) all_rules = true) by (vm_compute; reflexivity). rewrite forallb_forall in F. specialize (F _ I). cbn [fst snd] in F. rewrite String.eqb_refl in F. discriminate. }
  destruct (place_rule tool name a b _ mt mn S NL ltac:(discriminate) P) as (-> & ->). apply (becomes d out ws tool name (Text s) mt mn (Integer false) _ D C G S).
  - split; [|split; [|split]]; intros E; exfalso; revert E; [eapply N; [vm_compute; reflexivity|discriminate]|congruence|congruence|eapply N; [vm_compute; reflexivity|discriminate]].
  - cbn [convert_value]. apply Proof_Args.py_int_iff in W. rewrite W. reflexivity.
Qed.
(** ** the words for numbers *)
Definition rows : bool :=
  forallb (fun x => let '(t, n, mt, mn, ls) := x in match rule_of t n with
    | Some (Becomes a b ty) => String.eqb a mt && String.eqb b mn && negb (existsb (pair_eqb (a, b)) shared) && forallb (fun iw => match convert_value ty (Text (fst iw)) with Converted (Text x) => String.eqb x (snd iw) | _ => false end) ls
    | _ => false end) documented.
Lemma rows_true : rows = true.
Proof. vm_compute. reflexivity. Qed.
Lemma labels : forall d out ws tool name mt mn words number word, dictionary d -> convert d = Some (out, ws) -> In (tool, name, mt, mn, words) documented -> In (number, word) words -> given_as d tool name (Text number) -> found out mt mn = Some (Text word).
Proof.
  intros d out ws tool name mt mn words number word D C I J G. pose proof rows_true as T. unfold rows in T. rewrite forallb_forall in T. specialize (T _ I). cbn iota in T. destruct (rule_of tool name) as [r|] eqn:R; [|discriminate]. destruct r as [a b ty| | | |]; try discriminate. rewrite !andb_true_iff in T. destruct T as (((T1 & T2) & T3) & T4). apply String.eqb_eq in T1, T2. subst a b. rewrite forallb_forall in T4. specialize (T4 _ J). cbn [fst snd] in T4. destruct (convert_value ty (Text number)) as [[x|]| |] eqn:V; try discriminate. apply String.eqb_eq in T4. subst x.
  destruct (final_value d out ws tool name (Text number) _ mt mn D C G R (or_introl eq_refl)) as (o1 & o2 & x & T & L & _).
  - intros S. apply negb_true_iff in T3. assert (Q : existsb (pair_eqb (mt, mn)) shared = true) by (apply existsb_exists; exists (mt, mn); split; [exact S|apply pair_eqb_eq; reflexivity]). congruence.
  - rewrite found_lookup, L. cbn [translate] in T. rewrite V in T. injection T as <- _. apply put_same.
Qed.

(** ** nothing else *)
Lemma translate_keeps : forall r v out out' b t n, translate r v out = Some (out', b) -> lookup out t n <> None -> lookup out' t n <> None.
Proof.
  intros r v out out' b t n E H. destruct (in_dec pair_dec (t, n) (targets r)) as [I|I]; [|rewrite (translate_other r v out out' b t n E I); exact H].
  assert (P : forall t' n' v' o, lookup o t n <> None -> lookup (put t' n' v' o) t n <> None). { intros t' n' v' o Q. destruct (string_dec t' t) as [->|N]; [destruct (string_dec n' n) as [->|N]; [rewrite put_same; discriminate|]|]; rewrite put_other by congruence; exact Q. }
  destruct r as [rt rn ty| |rt rn|rt rf|rt].
  - cbn [translate] in E. destruct (convert_value ty v); [|injection E as <- _; rewrite touch_lookup; exact H|discriminate]. injection E as <- _. apply P. exact H.
  - injection E as <- _. exact H.
  - injection E as <- _. apply P. exact H.
  - destruct (flag_text rt rf v out) as [->|F]; [injection E as <- _; apply P; exact H|]. rewrite F in E. injection E as <- _. exact H.
  - destruct (preprocessed_text rt v out) as [[->|[->| ->]]|(_ & _ & _ & F)]; [injection E as <- _; apply P, P; exact H..|]. rewrite F in E. injection E as <- _. rewrite touch_lookup. exact H.
Qed.
Lemma run_keeps : forall l out out' t n, run l out = Some out' -> lookup out t n <> None -> lookup out' t n <> None.
Proof.
  induction l as [|[[a b] v] l IH]; intros out out' t n E H; cbn [run] in E; [injection E as <-; exact H|]. destruct (rule_of a b) as [r|]; [|exact (IH _ _ t n E H)]. destruct (translate r v out) as [[o x]|] eqn:T; [|discriminate]. exact (IH _ _ t n E (translate_keeps r v out o x t n T H)).
Qed.
Lemma translate_puts : forall r v out out' b t n, translate r v out = Some (out', b) -> fits r v -> (forall x y, r = Flag x y -> v = Text "true") -> In (t, n) (targets r) -> lookup out' t n <> None.
Proof.
  intros r v out out' b t n E F FL I. pose proof (translate_bad r v out out' b E) as B. assert (BF : b = false) by (destruct b; [destruct (proj1 B eq_refl F)|reflexivity]). subst b. destruct r as [rt rn ty| |rt rn|rt rf|rt]; cbn [targets] in I.
  - destruct I as [I|[]]. injection I as -> ->. cbn [translate] in E. destruct (convert_value ty v); [|discriminate|discriminate]. injection E as <-. rewrite put_same. discriminate.
  - destruct I.
  - destruct I as [I|[]]. injection I as -> ->. cbn [translate] in E. injection E as <-. rewrite put_same. discriminate.
  - destruct I as [I|[]]. rewrite (FL rt rf eq_refl) in E. injection I as -> <-. cbn [translate] in E. injection E as <-. rewrite put_same. discriminate.
  - destruct (preprocessed_text rt v out) as [Q|(_ & _ & _ & Q)]; [|rewrite Q in E; discriminate].
    assert (X : exists x y, out' = put rt "PreprocessSuppressLineNumbers" y (put rt "PreprocessToFile" x out)) by (destruct Q as [->|[->| ->]]; injection E as <-; eexists; eexists; reflexivity). destruct X as (x & y & ->). destruct I as [I|[I|[]]]; injection I as -> <-; [rewrite put_other by discriminate|]; rewrite put_same; discriminate.
Qed.
Lemma kept : forall d out ws tool name v r t n, convert d = Some (out, ws) -> given_as d tool name v -> says tool name r -> fits r v -> (forall x y, r = Flag x y -> v = Text "true") -> In (t, n) (targets r) -> found out t n <> None.
Proof.
  intros d out ws tool name v r t n C G S F FL I. pose proof (convert_run d [] []) as E. unfold convert in C. rewrite C in E. cbn [option_map fst] in E. symmetry in E. apply flat_In in G. apply says_rule in S. destruct (in_split _ _ G) as (l1 & l2 & Q). rewrite Q, run_app in E. destruct (run l1 []) as [o1|]; [|discriminate]. cbn [run] in E. rewrite S in E. destruct (translate r v o1) as [[o2 x]|] eqn:T; [|discriminate]. rewrite found_lookup. apply (run_keeps _ _ _ t n E). exact (translate_puts r v o1 o2 x t n T F FL I).
Qed.
Lemma only : forall d out ws t n v, convert d = Some (out, ws) -> found out t n = Some v -> exists tool name v' r, given_as d tool name v' /\ says tool name r /\ fits r v' /\ In (t, n) (targets r).
Proof.
  intros d out ws t n v C F. pose proof (convert_run d [] []) as E. unfold convert in C. rewrite C in E. cbn [option_map fst] in E. symmetry in E. rewrite found_lookup in F.
  assert (G : forall l o o', run l o = Some o' -> lookup o' t n <> None -> lookup o t n <> None \/ exists a b v' r, In (a, b, v') l /\ rule_of a b = Some r /\ fits r v' /\ In (t, n) (targets r)).
  { induction l as [|[[a b] w] l IH]; intros o o' R H; cbn [run] in R; [injection R as <-; auto|]. assert (K : forall o'', run l o'' = Some o' -> (lookup o'' t n <> None -> lookup o t n <> None \/ exists a0 b0 v' r, In (a0, b0, v') ((a, b, w) :: l) /\ rule_of a0 b0 = Some r /\ fits r v' /\ In (t, n) (targets r)) -> lookup o t n <> None \/ exists a0 b0 v' r, In (a0, b0, v') ((a, b, w) :: l) /\ rule_of a0 b0 = Some r /\ fits r v' /\ In (t, n) (targets r)).
    { intros o'' R' K. destruct (IH o'' o' R' H) as [L|(a0 & b0 & v' & r & J & L)]; [exact (K L)|]. right. exists a0, b0, v', r. split; [right; exact J|exact L]. }
    destruct (rule_of a b) as [r|] eqn:RU; [|apply (K o R); auto]. destruct (translate r w o) as [[o2 x]|] eqn:T; [|discriminate]. apply (K o2 R). intros L. destruct (in_dec pair_dec (t, n) (targets r)) as [I|I]; [|left; rewrite <- (translate_other r w o o2 x t n T I); exact L].
    destruct x.
    - left. assert (L2 : lookup o2 t n = lookup o t n); [|rewrite <- L2; exact L]. destruct r as [rt rn ty| |rt rn|rt rf|rt]; cbn [translate] in T; [|discriminate|discriminate| |].
      + destruct (convert_value ty w); [discriminate| |discriminate]. injection T as <-. apply touch_lookup.
      + change (translate (Flag rt rf) w o = Some (o2, true)) in T. destruct (flag_text rt rf w o) as [->|Q]; [discriminate|congruence].
      + change (translate (Preprocessed rt) w o = Some (o2, true)) in T. destruct (preprocessed_text rt w o) as [[->|[->| ->]]|(_ & _ & _ & Q)]; [discriminate..|]. rewrite Q in T. injection T as <-. apply touch_lookup.
    - right. exists a, b, w, r. split; [left; reflexivity|]. split; [exact RU|]. split; [|exact I]. pose proof (translate_bad r w o o2 false T) as B.
      clear - B T. destruct r as [rt rn ty| |rt rn|rt rf|rt]; [|exact I|exact I|exact I|].
      + cbn [translate] in T. pose proof (value_fits ty w rt rn) as V. destruct ty as [| | |hex|l], w as [s|items]; cbn [convert_value fits] in *; try exact I; try discriminate.
        * apply in_switch. destruct (mem s _); [reflexivity|discriminate].
        * destruct (Model_Args.py_int s) as [z|] eqn:P; [|discriminate]. exists s, z. split; [reflexivity|]. apply Proof_Args.py_int_iff. exact P.
        * destruct (Model_Args.py_int s) as [z|] eqn:P; [|discriminate]. destruct (Z.ltb_spec z 0); [discriminate|]. destruct (Z.leb_spec (Z.of_nat (length l)) z); [discriminate|]. cbn [orb] in T. destruct (nth_error l (Z.to_nat z)) as [[y|]|] eqn:N; [|discriminate..]. exists s, (Z.to_nat z), y. rewrite Z2Nat.id by assumption. split; [reflexivity|]. split; [apply Proof_Args.py_int_iff; exact P|exact N].
      + destruct (preprocessed_text rt w o) as [Q|(_ & _ & _ & Q)]; [exact Q|]. rewrite Q in T. discriminate. }
  destruct (G _ _ _ E) as [H|(a & b & v' & r & J & R & H)]; [congruence|destruct H; reflexivity|]. exists a, b, v', r. split; [apply flat_In; exact J|]. split; [apply says_rule; exact R|exact H].
Qed.
