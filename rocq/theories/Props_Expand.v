(** Property theorems: variable expansion (C51).

    [fuel] bounds the depth of the recursion; it only has to exceed the number
    of references that are followed. *)
From Coq Require Import ZArith.
From Verif Require Import Lib LibFacts Str Model_Value Model_Text Spec_Text Model_Cond Model_Expand Spec_Expand Proof_Text Proof_Expand Proof_Expand2 Proof_Expand3 Proof_Expand4.
Local Open Scope string_scope.

Section C51.
Variable command : option string -> bool -> string -> result string.
Variable list_file : list string -> result string.
Variable filters : dict -> result dict.
Variable repr : value -> string.
Variable shlex : string -> result (list string).
Variable eval : dict -> value -> result bool.
Variable c : Model_Merge.ctx.
Variable ph : phase.
Variable vars : dict.
Notation expand := (expand_variables command list_file filters repr shlex eval c ph).
Notation render := (render (sign ph)).
Notation evals := (evals (sign ph) vars command).
Notation names := (names (sign ph) vars command).
Notation items := (items (sign ph) vars command).
Notation well_formed := (well_formed (sign ph)).

(** C51: a text without the character of the phase stands for itself. *)
Theorem C51_plain : forall s fuel, has_char (sign ph) s = false -> 0 < fuel -> exists v, value_of s v /\ expand fuel vars (VStr s) = Val v.
Proof. unfold expand_variables. rewrite sign_of. intros s [|f] H HF; [inversion HF|]. exists (as_value s). split; [apply as_value_spec|apply expand_plain, H]. Qed.
(** C51: references and commands, nested to any depth, are replaced at their
    positions by what they stand for. *)
Theorem C51_references : forall t s n fuel, evals false t s n -> n < fuel -> exists v, value_of s v /\ expand fuel vars (VStr (render t)) = Val v.
Proof. unfold expand_variables. rewrite sign_of. intros t s n fuel H HF. exists (as_value s). split; [apply as_value_spec|]. apply (expand_evals _ (sign_ok ph) _ _ _ _ _ _ _ _ _ n false t s H fuel HF). Qed.
(** C51: an undefined variable is an error that names it. *)
Theorem C51_undefined : forall pre nm name key k post s n fuel, well_formed false pre -> names nm name key k -> assoc key vars = None -> key <> "" -> (forall u, key <> u ++ "!" /\ key <> u ++ "/") ->
  evals false post s n -> S (k + n) < fuel -> expand fuel vars (VStr (render (tapp pre (Ref false nm post)))) = Exn (GypError ("Undefined variable " ++ key)).
Proof. unfold expand_variables. rewrite sign_of. exact (expand_undefined _ (sign_ok ph) _ _ _ _ _ _ _ _ _). Qed.
(** C51: and so is a command that fails. *)
Theorem C51_command_fails : forall pre nm name key k post s n b e fuel, well_formed false pre -> names nm name key k -> (b = true <-> list_command (render nm)) -> command None b key = Exn e ->
  evals false post s n -> S (k + n) < fuel -> expand fuel vars (VStr (render (tapp pre (Ref true nm post)))) = Exn e.
Proof. unfold expand_variables. rewrite sign_of. exact (expand_command_fails _ (sign_ok ph) _ _ _ _ _ _ _ _ _). Qed.
(** C51: "<@(name)" alone, of a list variable: its items, expanded. *)
Theorem C51_list : forall nm name key k l ss m fuel, names nm name key k -> key <> "" -> assoc key vars = Some (VList l) -> items false l ss m -> S (k + m) < fuel ->
  exists vs, Forall2 value_of ss vs /\ expand fuel vars (VStr (String (sign ph) (list_mark false ++ render nm ++ ")"))) = Val (VList vs).
Proof. unfold expand_variables. rewrite sign_of. intros nm name key k l ss m fuel H1 H2 H3 H4 H5. exists (map as_value ss). split; [apply values_of|]. exact (expand_list _ (sign_ok ph) _ _ _ _ _ _ _ _ _ _ _ _ _ _ _ _ _ H1 H2 H3 H4 H5). Qed.
(** C51: "<@(name)" alone, of any other variable: the words of its text. *)
Theorem C51_words : forall nm name key k text ws ss m fuel, names nm name key k -> (assoc key vars = Some (VStr text) \/ exists z, assoc key vars = Some (VInt z) /\ text = rendering z) -> shlex text = Val ws -> items false (map VStr ws) ss m -> S (k + m) < fuel ->
  exists vs, Forall2 value_of ss vs /\ expand fuel vars (VStr (String (sign ph) (list_mark false ++ render nm ++ ")"))) = Val (VList vs).
Proof.
  unfold expand_variables. rewrite sign_of. intros nm name key k text ws ss m fuel H1 H2 H3 H4 H5. exists (map as_value ss). split; [apply values_of|].
  destruct H2 as [H2|(z & H2 & ->)]; exact (expand_words _ (sign_ok ph) _ _ _ _ _ _ _ _ _ _ _ _ _ _ _ _ _ _ H1 H2 eq_refl H3 H4 H5).
Qed.
(** C51: "<!@(command)" alone: the words it writes. *)
Theorem C51_command_words : forall nm name key k b out ws ss m fuel, names nm name key k -> (b = true <-> list_command (render nm)) -> command None b key = Val out -> shlex out = Val ws -> items false (map VStr ws) ss m -> S (k + m) < fuel ->
  exists vs, Forall2 value_of ss vs /\ expand fuel vars (VStr (String (sign ph) (list_mark true ++ render nm ++ ")"))) = Val (VList vs).
Proof. unfold expand_variables. rewrite sign_of. intros nm name key k b out ws ss m fuel H1 H2 H3 H4 H5 H6. exists (map as_value ss). split; [apply values_of|]. exact (expand_command_words _ (sign_ok ph) _ _ _ _ _ _ _ _ _ _ _ _ _ _ _ _ _ _ _ H1 H2 H3 H4 H5 H6). Qed.
(** C51: what a text stands for does not depend on how it is read. *)
Theorem C51_unambiguous : forall i t t' s s' n n', evals i t s n -> evals i t' s' n' -> render t = render t' -> s = s'.
Proof. exact (unambiguous ph vars command). Qed.
End C51.
Print Assumptions C51_plain.
Print Assumptions C51_references.
Print Assumptions C51_undefined.
Print Assumptions C51_command_fails.
Print Assumptions C51_list.
Print Assumptions C51_words.
Print Assumptions C51_command_words.
Print Assumptions C51_unambiguous.

Section Witness.
Let vars : dict := [("kind", VStr "out"); ("out_dir", VStr "a/<(depth)"); ("depth", VInt 3); ("libs", VList [VStr "-l<(depth)"; VStr "x y"])].
Let command : option string -> bool -> string -> result string := fun _ b s => if String.eqb s "node -p ""require('q').include""" then Val "inc/<(depth)" else Exn (GypError s).
Let E := expand_variables command (fun _ => Val "") (fun d => Val d) (fun _ => "") (fun s => Val [s]) (fun _ _ => Val true) (Model_Merge.mk_ctx (fun x => x) [] "" "") Early.
Definition outer : template := Ref false (Ref false (lits "kind") (lits "_dir")) (Lit "/" (Ref true (tapp (lits "node -p ""require") (Group "(" ")" (lits "'q'") (lits ".include"""))) (Lit " " (Ref false (lits "libs") Stop)))).
Local Ltac plain_tac := first [apply e_lit; [split; [discriminate|intros _; split; [unfold bracket; cbn; intuition discriminate|discriminate]]|] | apply e_lit; [split; [discriminate|discriminate]|] | apply e_stop].
Example C51_witness : render "<" outer = "<(<(kind)_dir)/<!(node -p ""require('q').include"") <(libs)" /\ E 20 vars (VStr (render "<" outer)) = Val (VStr "a/3/inc/3 -l3 ""x y""") /\
  E 20 vars (VStr "<@(libs)") = Val (VList [VStr "-l3"; VStr "x y"]) /\ E 20 vars (VStr "x<(nope)") = Exn (GypError "Undefined variable nope") /\ E 20 vars (VStr "<(depth)") = Val (VInt 3) /\ E 20 vars (VStr "<!(false)<(kind)") = Exn (GypError "false").
Proof. repeat split; reflexivity. Qed.
Example C51_witness_means : exists n, evals "<" vars command false outer "a/3/inc/3 -l3 ""x y""" n.
Proof.
  eexists. unfold outer.
  assert (D : evals "<" vars command true (lits "depth") "depth" 0) by repeat plain_tac.
  assert (I : forall i, evals "<" vars command i (lits "3") "3" 0) by (intros [|]; repeat plain_tac).
  assert (R : forall r s n, evals "<" vars command false r s n -> evals "<" vars command false (Ref false (lits "depth") r) ("3" ++ s) (1 + n)).
  { intros r s n H. eapply (e_ref "<" vars command false (lits "depth") "depth" "depth" (VInt 3) (lits "3") "3" r s 0 0 n); [|reflexivity|apply (text_int "<" 3)|apply I|exact H]. eapply n_name; [exact D|intros X; apply canonical_iff_shape in X; discriminate|apply trim_id; reflexivity]. }
  eapply (e_ref "<" vars command false _ "out_dir" "out_dir" (VStr "a/<(depth)") (Lit "a" (Lit "/" (Ref false (lits "depth") Stop))) "a/3" _ "/inc/3 -l3 ""x y""").
  - eapply n_name; [|intros X; apply canonical_iff_shape in X; discriminate|apply trim_id; reflexivity].
    eapply (e_ref "<" vars command true (lits "kind") "kind" "kind" (VStr "out") (lits "out") "out" (lits "_dir") "_dir"); [|reflexivity|apply (text_str "<" (lits "out"))|repeat plain_tac|repeat plain_tac].
    eapply n_name; [repeat plain_tac|intros X; apply canonical_iff_shape in X; discriminate|apply trim_id; reflexivity].
  - reflexivity.
  - apply (text_str "<" (Lit "a" (Lit "/" (Ref false (lits "depth") Stop)))).
  - do 2 plain_tac. apply (R Stop "" 0). plain_tac.
  - plain_tac. eapply (e_run "<" vars command false _ "node -p ""require('q').include""" "node -p ""require('q').include""" false (Lit "i" (Lit "n" (Lit "c" (Lit "/" (Ref false (lits "depth") Stop))))) "inc/3" _ " -l3 ""x y""").
    + eapply n_name; [|intros X; apply canonical_iff_shape in X; discriminate|apply trim_id; reflexivity]. cbn [lits tapp]. repeat plain_tac. eapply (e_group "<" vars command true "(" ")" _ _ "'q'" ".include"""); [unfold pair_of_brackets; cbn; auto|repeat plain_tac|repeat plain_tac].
    + split; [discriminate|]. intros (a & r & E0 & [W|W]); injection E0 as <- _; [|discriminate]. apply is_space_iff in W. discriminate.
    + reflexivity.
    + do 4 plain_tac. apply (R Stop "" 0). plain_tac.
    + plain_tac. eapply (e_ref_list "<" vars command false (lits "libs") "libs" "libs" [VStr "-l<(depth)"; VStr "x y"] ["-l3"; "x y"] Stop ""); [|discriminate|reflexivity| |plain_tac].
      * eapply n_name; [repeat plain_tac|intros X; apply canonical_iff_shape in X; discriminate|apply trim_id; reflexivity].
      * eapply i_cons; [apply (text_str "<" (Lit "-" (Lit "l" (Ref false (lits "depth") Stop))))|do 2 plain_tac; apply (R Stop "" 0); plain_tac|]. eapply i_cons; [apply (text_str "<" (lits "x y"))|repeat plain_tac|apply i_nil].
Qed.
End Witness.

(** C51, findings: a variable whose name is a number cannot be referred to. *)
Theorem C51_numeric_name_refuted : forall command list_file filters repr shlex eval c f, expand_variables command list_file filters repr shlex eval c Early (S (S f)) [("1", VStr "one")] (VStr "<(1)") = Exn AttributeError.
Proof. exact numeric_name. Qed.
Print Assumptions C51_numeric_name_refuted.
(** Nor can one with an unmatched bracket in its name; the error names another variable. *)
Theorem C51_bracket_refuted : forall command list_file filters repr shlex eval c f, expand_variables command list_file filters repr shlex eval c Early (S (S f)) [("x[", VStr "v")] (VStr "<(x[)") = Exn (GypError "Undefined variable <(x").
Proof. exact bracket_name. Qed.
Print Assumptions C51_bracket_refuted.
(** A variable that refers to itself is expanded without end, whatever the bound on the recursion. *)
Theorem C51_self_refuted : forall command list_file filters repr shlex eval c f, expand_variables command list_file filters repr shlex eval c Early f [("x", VStr "a<(x)")] (VStr "<(x)") = Exn NoFuel.
Proof. exact self_reference. Qed.
Print Assumptions C51_self_refuted.
(** White space before a command matters. *)
Theorem C51_leading_space_refuted : exists command list_file filters repr shlex eval c f,
  expand_variables command list_file filters repr shlex eval c Early f [] (VStr "<!(pwd)") = Val (VStr "/src") /\
  expand_variables command list_file filters repr shlex eval c Early f [] (VStr "<!( pwd)") = Exn (GypError "NameError").
Proof. exact leading_space. Qed.
Print Assumptions C51_leading_space_refuted.
(** Whether a text gives a list or a string can depend on the value of another variable. *)
Theorem C51_context_refuted : exists command list_file filters repr shlex eval c f,
  expand_variables command list_file filters repr shlex eval c Early f [("a", VList [VStr "p"]); ("b", VStr "")] (VStr "<@(a)<(b)") = Val (VList [VStr "p"]) /\
  expand_variables command list_file filters repr shlex eval c Early f [("a", VList [VStr "p"]); ("b", VStr "q")] (VStr "<@(a)<(b)") = Val (VStr "pq").
Proof. exact context. Qed.
Print Assumptions C51_context_refuted.
