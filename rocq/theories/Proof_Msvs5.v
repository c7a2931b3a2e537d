(** The conversion of Visual Studio settings: all the words for numbers, and options with
    unsigned characters. *)
From Coq Require Import ZArith.
From Verif Require Import Lib LibFacts Str StrFacts Model_Tools Model_Msvs Spec_Msvs Proof_Tools Proof_Tools2 Proof_Msvs Proof_Msvs2 Proof_Msvs3.
From Verif Require Model_Args Spec_Args Proof_Args Model_Text Proof_Merge2.
Local Open Scope string_scope.

Fixpoint numbered (k : nat) (l : list (option string)) : list (string * string) :=
  match l with [] => [] | Some w :: l' => (decimal (Z.of_nat k), w) :: numbered (S k) l' | None :: l' => numbered (S k) l' end.
Lemma numbered_in : forall l k j w, nth_error l j = Some (Some w) -> In (decimal (Z.of_nat (k + j)), w) (numbered k l).
Proof.
  induction l as [|x l IH]; intros k [|j] w E; cbn [nth_error] in E; try discriminate.
  - injection E as ->. cbn [numbered]. rewrite Nat.add_0_r. left. reflexivity.
  - cbn [numbered]. rewrite <- Nat.add_succ_comm. specialize (IH (S k) j w E). destruct x; [right|]; exact IH.
Qed.
Lemma all_documented : forall tool name a b l k w, says tool name (Becomes a b (Label l)) -> nth_error l k = Some (Some w) ->
  exists words, In (tool, name, a, b, words) documented /\ In (decimal (Z.of_nat k), w) words.
Proof.
  assert (C : forallb (fun x => match snd x with
     | Becomes a b (Label l) => existsb (fun y => pair_eqb (fst (fst (fst y))) (fst x) && pair_eqb (snd (fst (fst y)), snd (fst y)) (a, b) && forallb (fun n => existsb (pair_eqb n) (snd y)) (numbered 0 l)) documented
     | _ => true end) all_rules = true) by (vm_compute; reflexivity).
  intros tool name a b l k w S E. apply says_rule in S. apply rule_In in S. rewrite forallb_forall in C. specialize (C _ S). cbn [snd fst] in C.
  apply existsb_exists in C. destruct C as ([[[[t n] a'] b'] words] & I & C). cbn [fst snd] in C. apply andb_true_iff in C. destruct C as (C & C3). apply andb_true_iff in C. destruct C as (C1 & C2).
  apply pair_eqb_eq in C1. apply pair_eqb_eq in C2. injection C1 as -> ->. injection C2 as -> ->. exists words. split; [exact I|].
  rewrite forallb_forall in C3. specialize (C3 _ (numbered_in l 0 k w E)). apply existsb_exists in C3. destruct C3 as (y & Y & C3). apply pair_eqb_eq in C3. subst y. exact Y.
Qed.

Lemma appended : forall d out ws d1 d2 l1 l2 l3 options, dictionary d -> convert d = Some (out, ws) ->
  d = (d1 ++ ("VCCLCompilerTool", l1 ++ ("AdditionalOptions", Text options) :: l2 ++ ("DefaultCharIsUnsigned", Text "true") :: l3) :: d2)%list ->
  has_char "$" options = false -> found out "ClCompile" "AdditionalOptions" = Some (Text (options ++ " /J")).
Proof.
  intros d out ws d1 d2 l1 l2 l3 options D C E M. pose proof (convert_run d [] []) as R. unfold convert in C. rewrite C in R. cbn [option_map fst] in R. symmetry in R. pose proof (flat_NoDup d D) as N.
  set (c := fun nv : string * setting_value => ("VCCLCompilerTool", fst nv, snd nv) : item) in *.
  set (before := (flat d1 ++ map c l1)%list). set (after := (map c l3 ++ flat d2)%list).
  assert (F : flat d = (before ++ ("VCCLCompilerTool", "AdditionalOptions", Text options) :: map c l2 ++ ("VCCLCompilerTool", "DefaultCharIsUnsigned", Text "true") :: after)%list).
  { subst d. unfold before, after, flat. rewrite flat_map_app. cbn [flat_map fst snd]. change (fun nv : string * setting_value => ("VCCLCompilerTool", fst nv, snd nv)) with c. rewrite map_app. cbn [map]. rewrite map_app. cbn [map]. change (c ("AdditionalOptions", Text options)) with ("VCCLCompilerTool", "AdditionalOptions", Text options). change (c ("DefaultCharIsUnsigned", Text "true")) with ("VCCLCompilerTool", "DefaultCharIsUnsigned", Text "true").
    rewrite <- !app_assoc. cbn [app]. rewrite <- !app_assoc. reflexivity. }
  rewrite F in R, N.
  assert (K : forall l, (forall x, In x l -> fst x <> ("VCCLCompilerTool", "AdditionalOptions") /\ fst x <> ("VCCLCompilerTool", "DefaultCharIsUnsigned")) -> forall o o', run l o = Some o' -> lookup o' "ClCompile" "AdditionalOptions" = lookup o "ClCompile" "AdditionalOptions").
  { intros l H o o' X. apply (run_other _ _ _ _ _ X). intros a b v r I S T. destruct (H _ I) as (H1 & H2). cbn [fst] in *. destruct (proj1 (shared_rules a b r S) T) as [P|(P & _)]; [exact (H1 P)|exact (H2 P)]. }
  assert (N2 : forall x, In x (map c l2) \/ In x after -> fst x <> ("VCCLCompilerTool", "AdditionalOptions") /\ fst x <> ("VCCLCompilerTool", "DefaultCharIsUnsigned")).
  { intros x X. rewrite map_app in N. cbn [map fst] in N. pose proof (NoDup_remove_2 _ _ _ N) as Na. rewrite map_app in Na. cbn [map fst] in Na.
    split; intros Q.
    - apply Na. apply in_or_app. right. rewrite <- Q. apply in_or_app. destruct X as [X|X]; [left; apply in_map; exact X|right; right; apply in_map; exact X].
    - pose proof (NoDup_remove_1 _ _ _ N) as Nb. rewrite map_app in Nb. cbn [map fst] in Nb. rewrite app_assoc in Nb. apply NoDup_remove_2 in Nb. apply Nb. rewrite <- Q. rewrite <- app_assoc. apply in_or_app. right. apply in_or_app. destruct X as [X|X]; [left|right]; apply in_map; exact X. }
  rewrite run_app in R. destruct (run before []) as [o1|]; [|discriminate]. cbn [run] in R.
  change (rule_of "VCCLCompilerTool" "AdditionalOptions") with (Some (Becomes "ClCompile" "AdditionalOptions" Several)) in R. cbn [translate convert_value] in R.
  rewrite (convert_none options M) in R. rewrite run_app in R. destruct (run (map c l2) (put "ClCompile" "AdditionalOptions" (Text options) o1)) as [o2|] eqn:R2; [|discriminate]. cbn [run] in R.
  assert (L2 : lookup o2 "ClCompile" "AdditionalOptions" = Some (Text options)). { rewrite (K _ (fun x X => N2 x (or_introl X)) _ _ R2). apply put_same. }
  change (rule_of "VCCLCompilerTool" "DefaultCharIsUnsigned") with (Some (Flag "ClCompile" "/J")) in R. cbn [translate] in R. unfold lookup in L2. rewrite L2 in R.
  rewrite found_lookup, (K _ (fun x X => N2 x (or_intror X)) _ _ R), put_same. reflexivity.
Qed.

(** ** all settings *)
Definition sort_eqb (a b : sort) : bool :=
  match a, b with
  | A_switch, A_switch | A_text, A_text | A_list, A_list | A_number, A_number | A_word, A_word | Dropped, Dropped | New, New | Into_options, Into_options | Into_two, Into_two => true
  | _, _ => false
  end.
Lemma sort_eqb_eq : forall a b, sort_eqb a b = true <-> a = b.
Proof. intros a b. split; [destruct a, b; cbn; congruence|intros ->; destruct b; reflexivity]. Qed.
Lemma known_says : forall tool name s, (exists r, says tool name r /\ sort_of r = s) <-> exists names, In (tool, s, names) known_settings /\ In name names.
Proof.
  intros tool name s. split.
  - assert (C : forallb (fun x => existsb (fun y => String.eqb (fst (fst y)) (fst (fst x)) && sort_eqb (snd (fst y)) (sort_of (snd x)) && mem (snd (fst x)) (snd y)) known_settings) all_rules = true) by (vm_compute; reflexivity).
    intros (r & S & <-). apply says_rule in S. apply rule_In in S. rewrite forallb_forall in C. specialize (C _ S). cbn [fst snd] in C. apply existsb_exists in C. destruct C as ([[t k] ns] & I & C). cbn [fst snd] in C.
    apply andb_true_iff in C. destruct C as (C & C3). apply andb_true_iff in C. destruct C as (C1 & C2). apply String.eqb_eq in C1. apply sort_eqb_eq in C2. subst t k. exists ns. split; [exact I|apply mem_In; exact C3].
  - assert (C : forallb (fun y => forallb (fun n => match rule_of (fst (fst y)) n with Some r => sort_eqb (sort_of r) (snd (fst y)) | None => false end) (snd y)) known_settings = true) by (vm_compute; reflexivity).
    intros (ns & I & J). rewrite forallb_forall in C. specialize (C _ I). cbn [fst snd] in C. rewrite forallb_forall in C. specialize (C _ J). destruct (rule_of tool name) as [r|] eqn:R; [|discriminate]. apply sort_eqb_eq in C. exists r. split; [apply says_rule; exact R|exact C].
Qed.
