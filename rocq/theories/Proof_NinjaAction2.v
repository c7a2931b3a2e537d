(** Proofs about the commands of actions and rules in the files for ninja: all of it. *)
From Coq Require Import ZArith.
From Verif Require Import Lib Str LibFacts StrFacts Model_Names Model_Path Model_Quote Spec_Quote Proof_Quote Model_Ninja Spec_Ninja Proof_Ninja Model_Writer Model_NinjaBuild Model_NinjaAction Spec_NinjaAction Proof_Suffix Proof_Flags5 Proof_NinjaAction.
Local Open Scope string_scope.

Lemma command_spec : forall s t to_build inputs env pss,
  clear_here s t to_build -> simple (build_to_base s t) ->
  (forall ps, In ps pss -> ready (here s t to_build inputs) env ps /\ spaced (here s t to_build inputs) ps) ->
  exists out value cmd, command_line s t to_build (map argument pss) = Some out /\ reads_as out "command" value /\ value = command_text s t to_build (map argument pss) /\ evaluate env Plain value = Some cmd /\
    runs_in cmd (build_to_base s t) (map (fun ps => literal (means (here s t to_build inputs) ps)) pss).
Proof.
  intros s t to_build inputs env pss (N & C1 & C2 & C3) SD H. set (m := here s t to_build inputs) in *. destruct (simple_plain _ SD) as (D1 & (D2 & D3) & D4). set (d := build_to_base s t) in *.
  assert (EX : expanded s t to_build (map argument pss) = map (flat_text m) pss).
  { unfold expanded. rewrite map_map. apply map_ext_in. intros ps I. apply (special_flat s t to_build m N eq_refl eq_refl eq_refl (proj1 C1) (proj1 C2)). exact (proj1 (proj1 (H ps I))). }
  assert (ET : command_text s t to_build (map argument pss) = "cd " ++ d ++ "; " ++ encode_posix_shell_list (map (flat_text m) pss)) by (unfold command_text; rewrite EX; reflexivity).
  destruct (list_ok m C1 C2 C3 pss ltac:(intros ps I; exact (proj1 (proj1 (H ps I))))) as (L1 & L2).
  set (L := encode_posix_shell_list (map (flat_text m) pss)) in *.
  assert (DB : dbl true L = false). { apply dbl_list. intros x X. apply in_map_iff in X. destruct X as (ps & <- & I). exact (proj2 (H ps I)). }
  destruct (variable_read "command" ("cd " ++ d ++ "; " ++ L)) as (out & O1 & O2).
  - left. reflexivity.
  - rewrite !has_char_app, L2. change newline with "010"%char. rewrite D3. reflexivity.
  - apply dbl_blank. rewrite !dbl_app. destruct (no_space d D4 (proj1 SD) true) as (X1 & X2). cbn [dbl fin Ascii.eqb Bool.eqb andb orb]. cbn. rewrite X1, X2. cbn. exact DB.
  - rewrite !dangling_app. cbn [dangling negb andb Ascii.eqb Bool.eqb]. cbn. rewrite (dangling_none d D2). cbn. exact L1.
  - intros a A. discriminate A.
  - destruct (list_read m env (proj1 C1) (proj1 C2) (proj1 C3) pss ltac:(intros ps I; exact (proj1 (H ps I)))) as (e & E1 & E2).
    exists out, ("cd " ++ d ++ "; " ++ L), ("cd " ++ d ++ "; " ++ e). split; [unfold command_line; rewrite ET; exact O1|]. split; [exact O2|]. split; [symmetry; exact ET|]. split.
    + rewrite (evaluate_plain env "cd ") by reflexivity. rewrite (evaluate_plain env d) by exact D2. rewrite (evaluate_plain env "; ") by reflexivity.
      assert (EL : evaluate env Plain L = Some e) by (unfold L, encode_posix_shell_list; rewrite map_map; exact E1). rewrite EL. reflexivity.
    + exists ("cd " ++ d), e. split; [rewrite append_assoc; reflexivity|]. split; [|exact E2].
      unfold sh_words. change (sh_read true Between [] ("cd " ++ d)) with (cons_word (literal "cd") (sh_read true Between [] d)). rewrite <- D1 at 1. rewrite <- (append_nil_r (encode_posix_shell_argument d)), read_argument, plain_no_dollars by exact D2. reflexivity.
Qed.
Lemma action_spec : forall s t to_build env pss,
  clear_here s t to_build -> simple (build_to_base s t) ->
  (forall ps, In ps pss -> clear_argument ps /\ no_input ps /\ one_blank (means (here s t to_build (fun _ => "")) ps)) ->
  exists out value cmd, command_line s t to_build (map argument pss) = Some out /\ reads_as out "command" value /\ value = command_text s t to_build (map argument pss) /\ evaluate env Plain value = Some cmd /\
    runs_in cmd (build_to_base s t) (map (fun ps => literal (means (here s t to_build (fun _ => "")) ps)) pss).
Proof.
  intros s t to_build env pss C SD H. destruct (command_spec s t to_build (fun _ => "") env pss C SD) as (out & value & cmd & A1 & A2 & A3).
  - intros ps I. destruct (H ps I) as (H1 & H2 & H3). split; [split; [exact H1|intros i J; destruct (H2 i J)]|]. unfold spaced. fold (flat (here s t to_build (fun _ => ""))). change (one_blank (flat_text (here s t to_build (fun _ => "")) ps)). rewrite (no_inputs _ ps H2). exact H3.
  - exists out, value, cmd. split; [exact A1|]. split; [exact A2|exact A3].
Qed.

(** ** rules *)
Lemma special_none : forall s t b x, has_char "$" x = false -> b <> "" -> special_in s t b x = x.
Proof.
  intros s t b x H N. unfold special_in. destruct b; [contradiction|]. rewrite (replace_none "!PRODUCT_DIR") by exact H. rewrite (replace_none "!INTERMEDIATE_DIR") by exact H. apply (replace_none "|CONFIGURATION_NAME"). exact H.
Qed.
Lemma value_is : forall s t b f i, b <> "" -> (i = Source \/ i = Dirname -> has_char "$" (input_of f i) = false) -> variable_value s t b f (input_name i) = input_of f i.
Proof.
  intros s t b f i N H. unfold variable_value, input_of in *. cbv zeta in *. destruct (path_split (normpath f)) as [d base]. cbn [fst snd] in *. destruct (splitext base) as [r e]. cbn [fst snd] in *. destruct i; cbn [input_name String.eqb Ascii.eqb Bool.eqb]; try reflexivity; apply special_none; try exact N; apply H; [left|right]; reflexivity.
Qed.
Lemma needed_name : forall args v, In v (needed_variables args) -> exists i, v = input_name i /\ (i = Source \/ existsb (contains ("${" ++ input_name i ++ "}")) args = true).
Proof.
  intros args v I. unfold needed_variables in I. apply filter_In in I. destruct I as (I & E). apply orb_true_iff in E.
  destruct I as [<-|[<-|[<-|[<-|[<-|[]]]]]]; [exists Dirname|exists Ext|exists Name|exists Root|exists Source]; (split; [reflexivity|]); (destruct E as [E|E]; [try discriminate E; left; reflexivity|right; exact E]).
Qed.
Lemma needed_in : forall args i, i = Source \/ existsb (contains ("${" ++ input_name i ++ "}")) args = true -> In (input_name i) (needed_variables args).
Proof.
  intros args i H. unfold needed_variables. apply filter_In. split; [destruct i; cbn; tauto|]. apply orb_true_iff. destruct H as [->|H]; [left; reflexivity|right; exact H].
Qed.
Lemma assoc_map : forall (f : string -> string) l k, In k l -> assoc k (map (fun v => (v, f v)) l) = Some (f k).
Proof. intros f. induction l as [|x l IH]; intros k I; [contradiction|]. cbn [map assoc]. destruct (String.eqb_spec k x) as [->|N]; [reflexivity|]. destruct I as [->|I]; [contradiction|exact (IH k I)]. Qed.
(** a dollar sign, a brace and a name in a text made of pieces *)
Lemma flat_contains : forall m ps i, In (Rule_input i) ps -> contains ("${" ++ input_name i ++ "}") (flat_text m ps) = true.
Proof.
  intros m ps i I. apply contains_iff. apply in_split in I. destruct I as (l1 & l2 & ->). exists (flat_text m l1), (flat_text m l2). unfold flat_text. induction l1 as [|p l1 IH].
  - cbn [app map]. rewrite concat_cons. reflexivity.
  - cbn [app map]. rewrite !concat_cons, IH, (append_assoc (flat m p)). reflexivity.
Qed.
Lemma rule_spec : forall s t to_build r f file pss,
  rule_command r = map argument pss -> clear_here s t to_build -> simple (build_to_base s t) -> (forall i, harmless (input_of f i)) ->
  (forall ps, In ps pss -> clear_argument ps /\ spaced (here s t to_build (input_of f)) ps) ->
  (forall k v, In (k, v) (bindings s t to_build r f) -> exists out, variable_line k v = Some out /\ reads_as out k v /\ evaluate file Plain v = Some v) /\
  exists out value cmd, command_line s t to_build (rule_command r) = Some out /\ reads_as out "command" value /\ value = command_text s t to_build (rule_command r) /\ evaluate (within (bindings s t to_build r f) file) Plain value = Some cmd /\
    runs_in cmd (build_to_base s t) (map (fun ps => literal (means (here s t to_build (input_of f)) ps)) pss).
Proof.
  intros s t to_build r f file pss RC C SD HI H. assert (N := proj1 C).
  assert (VI : forall i, variable_value s t to_build f (input_name i) = input_of f i) by (intros i; apply value_is; [exact N|intros _; exact (proj1 (proj1 (HI i)))]). split.
  - intros k v I. unfold bindings in I. apply in_map_iff in I. destruct I as (k' & E & I). injection E as -> <-. destruct (needed_name _ _ I) as (i & -> & _). rewrite VI. destruct (HI i) as ((D & NL) & OB & _ & _ & _ & NS).
    destruct (variable_read (input_name i) (input_of f i)) as (out & O1 & O2); [destruct i; cbn; tauto|exact NL| |apply dangling_none; exact D|exact NS|].
    + apply dbl_blank. apply blank_dbl in OB. destruct (input_of f i) as [|c x] eqn:EF; [destruct i; reflexivity|]. assert (NC : c <> " "%char) by (intros ->; apply (NS x); reflexivity).
      rewrite dbl_app. change (" = " ++ String c x) with (String " " (String "=" (String " " (String c x)))).
      assert (K : dbl false (input_name i) = false /\ fin false (input_name i) = false) by (destruct i; split; reflexivity). destruct K as (-> & ->). cbn [orb dbl andb]. change (Ascii.eqb " " " ") with true. change (Ascii.eqb "=" " ") with false. cbn [dbl andb orb].
      rewrite (proj2 (Ascii.eqb_neq c " ") NC). cbn [orb andb]. cbn [dbl] in OB. rewrite (proj2 (Ascii.eqb_neq c " ") NC) in OB. exact OB.
    + exists out. split; [exact O1|]. split; [exact O2|]. rewrite <- (append_nil_r (input_of f i)) at 1. rewrite evaluate_plain by exact D. cbn. rewrite append_nil_r. reflexivity.
  - destruct (command_spec s t to_build (input_of f) (within (bindings s t to_build r f) file) pss C SD) as (out & value & cmd & A1 & A2 & A3).
    + intros ps I. destruct (H ps I) as (H1 & H2). split; [|exact H2]. split; [exact H1|]. intros i J. split; [|exact (HI i)].
      unfold within, bindings. rewrite (assoc_map (variable_value s t to_build f)); [exact (VI i)|]. apply needed_in. right. apply existsb_exists. exists (flat_text (here s t to_build (input_of f)) ps). split; [|exact (flat_contains _ ps i J)].
      rewrite RC. unfold expanded. apply in_map_iff. exists (argument ps). split; [|apply in_map; exact I]. destruct C as (_ & C1 & C2 & C3).
      exact (special_flat s t to_build (here s t to_build (input_of f)) N eq_refl eq_refl eq_refl (proj1 C1) (proj1 C2) ps H1).
    + rewrite RC. exists out, value, cmd. split; [exact A1|]. split; [exact A2|exact A3].
Qed.

(** ** names *)
Lemma variable_app : forall a b, variable_name (a ++ b) = variable_name a ++ variable_name b.
Proof. induction a as [|c a IH]; intros b; [reflexivity|]. cbn [append variable_name]. rewrite IH. reflexivity. Qed.
Lemma variable_length : forall a, String.length (variable_name a) = String.length a.
Proof. induction a as [|c a IH]; [reflexivity|]. cbn [variable_name String.length]. rewrite IH. reflexivity. Qed.
Lemma append_inj_r : forall a b c, a ++ c = b ++ c -> a = b.
Proof.
  intros a b c E. assert (L : String.length a = String.length b) by (apply (f_equal String.length) in E; rewrite !len_app in E; lia). revert b L E. induction a as [|x a IH]; intros [|y b] L E; try discriminate L; [reflexivity|].
  cbn [append] in E. injection E as -> E. f_equal. apply IH; [injection L as L; exact L|exact E].
Qed.
Lemma split_same : forall a b c d, String.length c = String.length d -> a ++ c = b ++ d -> a = b /\ c = d.
Proof.
  induction a as [|x a IH]; intros [|y b] c d L E; cbn [append] in E.
  - split; [reflexivity|exact E].
  - apply (f_equal String.length) in E. cbn [String.length] in E. rewrite len_app in E. lia.
  - apply (f_equal String.length) in E. cbn [String.length] in E. rewrite len_app in E. lia.
  - injection E as -> E. destruct (IH b c d L E) as (-> & ->). split; reflexivity.
Qed.
Lemma id_names : forall s t a b, rule_id s t a = rule_id s t b <-> variable_name a = variable_name b.
Proof.
  intros s t a b. unfold rule_id. rewrite !variable_app. split; [|intros ->; reflexivity]. intros E. apply append_inj_l in E. apply append_inj_l in E. apply append_inj_l in E. exact (append_inj_r _ _ _ E).
Qed.
Lemma id_targets : forall s t t' a b, (forall x, String.length (md5 s x) = 32) -> (forall x, variable_name (md5 s x) = md5 s x) -> rule_id s t a = rule_id s t' b -> md5 s (qualified t) = md5 s (qualified t').
Proof.
  intros s t t' a b L WC E. unfold rule_id in E. rewrite !variable_app, !WC in E. rewrite <- !append_assoc in E. exact (proj2 (split_same _ _ _ _ ltac:(rewrite !L; reflexivity) E)).
Qed.
Lemma nodup_map {A B C} (f : A -> B) (g : A -> C) : (forall x y, f x = f y <-> g x = g y) -> forall l, NoDup (map f l) <-> NoDup (map g l).
Proof.
  intros H. induction l as [|x l IH]; [split; intros _; constructor|]. cbn [map]. rewrite !NoDup_cons_iff, IH. split; intros (X & Y); (split; [|exact Y]); intros I; apply X; apply in_map_iff in I; destruct I as (y & E & I); apply in_map_iff; exists y; (split; [apply H; exact E|exact I]).
Qed.
Lemma rules_names : forall s t b, map fst (ninja_rules s t b) = map (rule_id s t) (map action_name (actions t) ++ map rule_name (rules t))%list.
Proof. intros s t b. unfold ninja_rules. rewrite !map_app, !map_map. reflexivity. Qed.
Lemma rules_distinct : forall s t b, NoDup (map fst (ninja_rules s t b)) <-> NoDup (map variable_name (map action_name (actions t) ++ map rule_name (rules t))%list).
Proof. intros s t b. rewrite rules_names. apply nodup_map. apply id_names. Qed.
Lemma own_action : forall s t b pb a e, In a (actions t) -> NoDup (map fst (ninja_rules s t b)) -> write_action s t pb a = Some e -> assoc (command e) (ninja_rules s t b) = Some (command_text s t b (action_command a)).
Proof.
  intros s t b pb a e I N W. unfold write_action in W. destruct (traverse (to_ninja s t) (action_inputs a)); cbn [bind] in W; [|discriminate]. destruct (traverse (to_ninja s t) (action_outputs a)); cbn [bind] in W; [|discriminate]. injection W as <-. cbn [statement command].
  apply In_assoc; [exact N|]. unfold ninja_rules. apply in_or_app. left. apply in_map_iff. exists a. split; [reflexivity|exact I].
Qed.
Lemma own_rule : forall s t b inputs pb r f e, In r (rules t) -> NoDup (map fst (ninja_rules s t b)) -> write_rule_source s t r inputs pb f = Some e -> assoc (command e) (ninja_rules s t b) = Some (command_text s t b (rule_command r)).
Proof.
  intros s t b inputs pb r f e I N W. unfold write_rule_source in W. destruct (traverse (to_ninja s t) (outputs_for r f)); cbn [bind] in W; [|discriminate]. destruct (to_ninja s t (normpath f)); cbn [bind] in W; [|discriminate]. injection W as <-. cbn [statement command].
  apply In_assoc; [exact N|]. unfold ninja_rules. apply in_or_app. right. apply in_map_iff. exists r. split; [reflexivity|exact I].
Qed.

(** ** all of it *)
Lemma action_runs : forall s t to_build prebuild env a e pss,
  In a (actions t) -> write_action s t prebuild a = Some e -> action_command a = map argument pss ->
  NoDup (map variable_name (map action_name (actions t) ++ map rule_name (rules t))%list) ->
  clear_here s t to_build -> simple (build_to_base s t) ->
  (forall ps, In ps pss -> clear_argument ps /\ no_input ps /\ one_blank (means (here s t to_build (fun _ => "")) ps)) ->
  exists value out cmd, assoc (command e) (ninja_rules s t to_build) = Some value /\ variable_line "command" value = Some out /\ reads_as out "command" value /\ evaluate env Plain value = Some cmd /\
    runs_in cmd (build_to_base s t) (map (fun ps => literal (means (here s t to_build (fun _ => "")) ps)) pss).
Proof.
  intros s t to_build prebuild env a e pss I W E N C SD H. destruct (action_spec s t to_build env pss C SD H) as (out & value & cmd & A1 & A2 & -> & A3).
  exists (command_text s t to_build (map argument pss)), out, cmd. split; [rewrite <- E; exact (own_action s t to_build prebuild a e I (proj2 (rules_distinct s t to_build) N) W)|]. split; [exact A1|]. split; [exact A2|exact A3].
Qed.
Lemma rule_runs : forall s t to_build inputs prebuild r f file e pss,
  In r (rules t) -> write_rule_source s t r inputs prebuild f = Some e -> rule_command r = map argument pss ->
  NoDup (map variable_name (map action_name (actions t) ++ map rule_name (rules t))%list) ->
  clear_here s t to_build -> simple (build_to_base s t) -> (forall i, harmless (input_of f i)) ->
  (forall ps, In ps pss -> clear_argument ps /\ spaced (here s t to_build (input_of f)) ps) ->
  (forall k v, In (k, v) (bindings s t to_build r f) -> exists out, variable_line k v = Some out /\ reads_as out k v /\ evaluate file Plain v = Some v) /\
  exists value out cmd, assoc (command e) (ninja_rules s t to_build) = Some value /\ variable_line "command" value = Some out /\ reads_as out "command" value /\
    evaluate (within (bindings s t to_build r f) file) Plain value = Some cmd /\
    runs_in cmd (build_to_base s t) (map (fun ps => literal (means (here s t to_build (input_of f)) ps)) pss).
Proof.
  intros s t to_build inputs prebuild r f file e pss I W E N C SD HI H. destruct (rule_spec s t to_build r f file pss E C SD HI H) as (B & out & value & cmd & A1 & A2 & -> & A3). split; [exact B|].
  exists (command_text s t to_build (rule_command r)), out, cmd. split; [exact (own_rule s t to_build inputs prebuild r f e I (proj2 (rules_distinct s t to_build) N) W)|]. split; [exact A1|]. split; [exact A2|exact A3].
Qed.
(** [write_rules] writes such a statement for every source. *)
Lemma traverse_each {A B} (f : A -> option B) : forall l r x, traverse f l = Some r -> In x l -> exists y, f x = Some y /\ In y r.
Proof.
  induction l as [|a l IH]; intros r x T I; [contradiction|]. cbn [traverse] in T. destruct (f a) as [y|] eqn:F; cbn [bind] in T; [|discriminate]. destruct (traverse f l) as [r'|] eqn:G; cbn [bind] in T; [|discriminate]. injection T as <-.
  destruct I as [<-|I]; [exists y; split; [exact F|left; reflexivity]|]. destruct (IH r' x eq_refl I) as (z & Z1 & Z2). exists z. split; [exact Z1|right; exact Z2].
Qed.

(** ** examples *)
Definition gen_header : action := {| action_name := "gen-header"; action_inputs := ["names.txt"]; action_outputs := ["$!PRODUCT_DIR/names.h"];
  action_command := ["python"; "tools/gen.py"; "--out=$!PRODUCT_DIR/names.h"; "My 'first' addon"]; outputs_are_sources := false |}.
Definition compile_idl : rule := {| rule_name := "compile-idl"; rule_sources := ["idl/main page.idl"]; rule_inputs := []; rule_outputs := ["$!INTERMEDIATE_DIR/${root}.cc"];
  rule_command := ["python"; "tools/idl.py"; "${source}"; "-o"; "$!INTERMEDIATE_DIR/${root}.cc"]; rule_outputs_are_sources := true |}.
Definition maker : target := {| qualified := "binding.gyp:maker#target"; target_name := "maker"; type := None_; toolset := "target"; path := "deps/maker";
  dependencies := []; sources := []; actions := [gen_header]; rules := [compile_idl]; copies := [];
  product_prefix := None; product_name := None; product_extension := None; product_dir := None; standalone := false |}.
Definition maker_setup : setup := {| to_top := "../.."; config_name := "Release"; md5 := fun s => "d41d8cd98f00b204e9800998ecf8427e" |}.
Definition header_pieces : list (list piece) := [[Text "python"]; [Text "tools/gen.py"]; [Text "--out="; Product_dir; Text "/names.h"]; [Text "My 'first' addon"]].
Definition idl_pieces : list (list piece) := [[Text "python"]; [Text "tools/idl.py"]; [Rule_input Source]; [Text "-o"]; [Intermediate_dir; Text "/"; Rule_input Root; Text ".cc"]].
Lemma has_in : forall c s, has_char c s = true -> In c (list_ascii_of_string s).
Proof. induction s as [|d s IH]; intros H; [discriminate|]. cbn [has_char] in H. cbn [list_ascii_of_string]. destruct (Ascii.eqb_spec d c) as [->|n]; [left; reflexivity|right; exact (IH H)]. Qed.
Definition simple_b (d : string) : bool := negb (String.eqb d "") && forallb (fun c => negb (has_char c (String "009" (String "010" (String "034" " #$%&'()*;<=>?[{|}~\`"))))) (list_ascii_of_string d).
Lemma simple_sound : forall d, simple_b d = true -> simple d.
Proof.
  intros d H. apply andb_true_iff in H. destruct H as (H1 & H2). split; [intros ->; discriminate H1|]. intros c C. rewrite forallb_forall in H2. specialize (H2 c (has_in c d C)). apply negb_true_iff in H2. exact H2.
Qed.
Lemma maker_simple : simple (build_to_base maker_setup maker).
Proof. apply simple_sound. vm_compute. reflexivity. Qed.
Lemma maker_clear : clear_here maker_setup maker "../../build/Release".
Proof. split; [discriminate|]. repeat split; vm_compute; reflexivity. Qed.
Lemma maker_names : NoDup (map variable_name (map action_name (actions maker) ++ map rule_name (rules maker))%list).
Proof. vm_compute. constructor; [intros [H|[]]; discriminate H|]. constructor; [intros []|constructor]. Qed.
Definition pieces_b (m : meanings) (with_inputs : bool) (ps : list piece) : bool :=
  forallb (fun p => match p with Text s => negb (has_char "$" s) && negb (has_char "010" s) | Rule_input _ => with_inputs | _ => true end) ps && negb (dbl false (flat_text m ps)).
Lemma pieces_sound : forall m w ps, pieces_b m w ps = true -> clear_argument ps /\ (w = false -> no_input ps) /\ spaced m ps.
Proof.
  intros m w ps H. apply andb_true_iff in H. destruct H as (H1 & H2). rewrite forallb_forall in H1. split; [|split].
  - intros x I. specialize (H1 _ I). cbn in H1. apply andb_true_iff in H1. destruct H1 as (A & B). apply negb_true_iff in A. apply negb_true_iff in B. exact (conj A B).
  - intros -> i I. specialize (H1 _ I). discriminate H1.
  - apply dbl_blank. apply negb_true_iff in H2. exact H2.
Qed.
Lemma pieces_all : forall m w pss, forallb (pieces_b m w) pss = true -> forall ps, In ps pss -> clear_argument ps /\ (w = false -> no_input ps) /\ spaced m ps.
Proof. intros m w pss H ps I. rewrite forallb_forall in H. exact (pieces_sound m w ps (H ps I)). Qed.
Lemma header_ok : forall ps, In ps header_pieces -> clear_argument ps /\ no_input ps /\ one_blank (means (here maker_setup maker "../../build/Release" (fun _ => "")) ps).
Proof.
  intros ps I. destruct (pieces_all (here maker_setup maker "../../build/Release" (fun _ => "")) false header_pieces ltac:(vm_compute; reflexivity) ps I) as (A & B & C). specialize (B eq_refl). split; [exact A|]. split; [exact B|]. rewrite <- (no_inputs _ ps B). exact C.
Qed.
Lemma idl_ok : forall ps, In ps idl_pieces -> clear_argument ps /\ spaced (here maker_setup maker "../../build/Release" (input_of "idl/main page.idl")) ps.
Proof.
  intros ps I. destruct (pieces_all (here maker_setup maker "../../build/Release" (input_of "idl/main page.idl")) true idl_pieces ltac:(vm_compute; reflexivity) ps I) as (A & _ & C). split; [exact A|exact C].
Qed.
Definition harmless_b (s : string) : bool := negb (has_char "$" s) && negb (has_char "010" s) && negb (dbl true s) && negb (has_char "034" s) && negb (has_char "\" s) && negb (has_char "`" s).
Lemma harmless_sound : forall s, harmless_b s = true -> harmless s.
Proof.
  intros s H. unfold harmless_b in H. rewrite !andb_true_iff, !negb_true_iff in H. destruct H as (((((A & B) & C) & D) & E) & F). split; [exact (conj A B)|]. split; [|split; [exact D|split; [exact E|split; [exact F|]]]].
  - apply dbl_blank. destruct s as [|c s]; [reflexivity|]. cbn [dbl] in *. apply orb_false_iff in C. exact (proj2 C).
  - intros a ->. discriminate C.
Qed.
Lemma idl_harmless : forall i, harmless (input_of "idl/main page.idl" i).
Proof. intros i. apply harmless_sound. destruct i; vm_compute; reflexivity. Qed.
Lemma names_clash : forall s t, rule_id s t "gen-a" = rule_id s t "gen_a" /\
  forall to_build a r, In a (actions t) -> In r (rules t) -> action_name a = rule_name r -> ~ NoDup (map fst (ninja_rules s t to_build)).
Proof.
  intros s t. split; [apply id_names; reflexivity|]. intros b a r A R E N. rewrite rules_names, map_app in N.
  apply (proj2 (proj2 (NoDup_app_inv _ _ _ N)) (rule_id s t (action_name a))); [|rewrite E]; apply in_map; apply in_map; assumption.
Qed.
