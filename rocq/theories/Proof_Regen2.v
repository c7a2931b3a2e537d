(** The Makefile's command line through make and the shell; and what it loses. *)
From Coq Require Import ZArith Lia.
From Verif Require Import Lib Str LibFacts StrFacts Model_Path Spec_Path Proof_Path Proof_Path2 Model_Args Spec_Args Proof_Args Proof_Args2 Model_Configure Spec_Configure Proof_Configure Proof_Regen Model_Quote Spec_Quote Proof_Quote.
Local Open Scope string_scope.

Lemma join_without : forall s n, has_char "010" s = false -> make_join n false s = bs n ++ s.
Proof.
  induction s as [|c s IH]; intros n H; [symmetry; apply append_nil_r|]. cbn [has_char] in H. destruct (Ascii.eqb_spec c "010") as [->|N]; [discriminate|]. cbn [make_join]. destruct (Ascii.eqb_spec c "\") as [->|NB]; [rewrite (IH (S n) H); symmetry; apply bs_push|]. apply Ascii.eqb_neq in N. rewrite N. cbn [andb]. rewrite (IH 0 H). reflexivity.
Qed.
Lemma uncomment_without : forall s n, has_char "#" s = false -> make_uncomment n s = bs n ++ s.
Proof.
  induction s as [|c s IH]; intros n H; [symmetry; apply append_nil_r|]. cbn [has_char] in H. destruct (Ascii.eqb_spec c "#") as [->|N]; [discriminate|]. cbn [make_uncomment]. destruct (Ascii.eqb_spec c "\") as [->|NB]; [rewrite (IH (S n) H); symmetry; apply bs_push|]. apply Ascii.eqb_neq in N. rewrite N, (IH 0 H). reflexivity.
Qed.
Lemma expand_without : forall s, has_char "$" s = false -> make_expand s = Some s.
Proof.
  induction s as [|c s IH]; intros H; [reflexivity|]. cbn [has_char] in H. destruct (Ascii.eqb_spec c "$") as [->|N]; [discriminate|]. cbn [make_expand]. apply Ascii.eqb_neq in N. rewrite N, (IH H). reflexivity.
Qed.
Lemma value_without : forall s, has_char "010" s = false -> has_char "#" s = false -> has_char "$" s = false -> make_value s = Some s.
Proof. intros s N H D. unfold make_value. rewrite (join_without s 0 N). cbn [bs append]. rewrite (uncomment_without s 0 H). cbn [bs append]. exact (expand_without s D). Qed.
Lemma encoded_has : forall a s, In a ["010"; "#"; "$"]%char -> has_char a s = false -> has_char a (encode_posix_shell_argument s) = false.
Proof.
  intros a s A H. unfold encode_posix_shell_argument. rewrite !has_char_app. assert (Q : has_char a (if needs_quote s then str1 dquote else "") = false) by (destruct (needs_quote s); cbn in A; destruct A as [<-|[<-|[<-|[]]]]; reflexivity). rewrite Q, orb_false_r. cbn [orb].
  induction s as [|c s IH]; [reflexivity|]. cbn [map_chars]. rewrite has_char_app. cbn [has_char] in H. destruct (Ascii.eqb c a) eqn:E; [discriminate|]. assert (has_char a (escape_char c) = false) as ->; [|apply IH; [exact H|destruct (needs_quote s); cbn in A; destruct A as [<-|[<-|[<-|[]]]]; reflexivity]]. unfold escape_char.
  assert (B : Ascii.eqb backslash a = false) by (cbn in A; destruct A as [<-|[<-|[<-|[]]]]; reflexivity). destruct (_ || _); cbn [has_char str1]; rewrite ?B, E; reflexivity.
Qed.
Lemma list_has : forall a l, In a ["010"; "#"; "$"]%char -> (forall w, In w l -> has_char a w = false) -> has_char a (encode_posix_shell_list l) = false.
Proof.
  intros a l A. unfold encode_posix_shell_list, join_with. induction l as [|w l IH]; intros H; [reflexivity|]. cbn [map String.concat]. pose proof (encoded_has a w A (H w (or_introl eq_refl))) as E. destruct l as [|v l]; [exact E|]. cbn [map] in *. rewrite !has_char_app, E, IH by (intros u I; apply H; right; exact I). cbn in A. destruct A as [<-|[<-|[<-|[]]]]; reflexivity.
Qed.
Lemma dollars_literal : forall s, has_char "$" s = false -> with_dollars s = literal s.
Proof.
  unfold with_dollars, literal. induction s as [|c s IH]; intros H; [reflexivity|]. cbn [has_char] in H. cbn [chars map]. destruct (Ascii.eqb c "$"); [discriminate|]. rewrite (IH H). reflexivity.
Qed.
Theorem makefile_keeps : forall l, (forall w a, In w l -> In a ["010"; "#"; "$"]%char -> has_char a w = false) ->
  exists text, make_value (encode_posix_shell_list l) = Some text /\ sh_words text = Some (map literal l).
Proof.
  intros l H. exists (encode_posix_shell_list l). split.
  - apply value_without; apply list_has; cbn; auto; intros w I; apply H; cbn; auto.
  - rewrite posix_list. f_equal. apply map_ext_in. intros w I. apply dollars_literal. apply H; [exact I|cbn; auto].
Qed.

(** What is lost. *)
Lemma lost_parallel : ~ (forall cwd f env args r again r', place_ok cwd -> gyp f env args = Some r -> regeneration (plain_realpath cwd) f env args = Some again -> gyp f env again = Some r' -> run_parallel r' = run_parallel r).
Proof. intros H. assert (X : true = false); [|discriminate]. refine (H [] "make" no_environment ["--depth=."; "--no-parallel"] _ _ _ _ eq_refl eq_refl eq_refl). constructor. Qed.
Lemma lost_circular : ~ (forall cwd f env args r again r', place_ok cwd -> gyp f env args = Some r -> regeneration (plain_realpath cwd) f env args = Some again -> gyp f env again = Some r' -> run_circular_check r' = run_circular_check r).
Proof. intros H. assert (X : true = false); [|discriminate]. refine (H [] "make" no_environment ["--depth=."; "--no-circular-check"] _ _ _ _ eq_refl eq_refl eq_refl). constructor. Qed.
Lemma lost_config_dir : ~ (forall cwd f env args r t again r', place_ok cwd -> gyp f env args = Some r -> run_toplevel r = Some t -> regeneration (plain_realpath cwd) f env args = Some again -> gyp f env again = Some r' ->
  both (same_place cwd (locate cwd t)) (run_config_dir r) (run_config_dir r')).
Proof.
  intros H. assert (X : both (same_place [] ["sub"]) (Some "conf") (Some "conf")).
  { refine (H [] "make" no_environment ["--depth=sub"; "--config-dir=conf"] _ "sub" _ _ _ eq_refl eq_refl eq_refl eq_refl). constructor. }
  inversion X as [|a b S]; subst. vm_compute in S. discriminate.
Qed.
Lemma lost_empty : ~ (forall cwd f env args r again, place_ok cwd -> gyp f env args = Some r -> regeneration (plain_realpath cwd) f env args = Some again -> gyp f env again <> None).
Proof. intros H. refine (H [] "make" no_environment ["--depth=."; "-D"; ""] _ _ _ eq_refl eq_refl _); [constructor|reflexivity]. Qed.
Lemma lost_toplevel : ~ (forall cwd f env args r t again r', place_ok cwd -> gyp f env args = Some r -> run_toplevel r = Some t -> regeneration (plain_realpath cwd) f env args = Some again -> gyp f env again = Some r' ->
  Forall2 (same_place cwd (locate cwd t)) (run_includes r) (run_includes r')).
Proof.
  intros H. assert (X : Forall2 (same_place ["home"] ["home"]) ["x.gypi"] ["../x.gypi"]).
  { refine (H ["home"] "make" no_environment ["--depth=sub"; "--toplevel-dir=."; "-I"; "x.gypi"] _ "." _ _ _ eq_refl eq_refl eq_refl eq_refl). repeat constructor; discriminate. }
  inversion X as [|a b l m S]; subst. vm_compute in S. discriminate.
Qed.
Definition nodedir_place : place :=
  {| platform := "linux"; resolve := fun d f => "/" ++ d ++ "/" ++ f; join := fun l => String.concat "/" l; dirname := fun f => f;
     exists_file := fun f => true; readable := fun _ => true; node_dir := "/src/node"; nodedir := Some "/src/node"; node_engine := None; js_engine := None;
     release_name := "node"; major_16 := true; zoslib_includes := None; node_root := "/node"; cwd := "/mod"; own_dir := "/gyp"; config_gypi := "/mod/build/config.gypi" |}.
Lemma nodedir_dollar : ~ (forall p here argv args again, place_ok here -> configure_arguments p argv = Some args -> regeneration (plain_realpath here) "make" no_environment args = Some again ->
  exists text, make_value (encode_posix_shell_list again) = Some text /\ sh_words text = Some (map literal again)).
Proof.
  intros H. destruct (H nodedir_place ["mod"] [] _ _ ltac:(repeat constructor; discriminate) eq_refl eq_refl) as (text & M & _). vm_compute in M. discriminate.
Qed.
