(** pymod_do_main references, and the directory of a build file. *)
From Coq Require Import ZArith.
From Verif Require Import Lib Str StrFacts Model_Names Model_Path Model_Commands Spec_Commands Proof_Commands.
Local Open Scope string_scope.

Lemma rstrip_slashed : forall y a c, a <> c -> rstrip c ((y ++ String a "") ++ String c "") = y ++ String a "".
Proof.
  intros y a c N. induction y as [|b y IH].
  - cbn. rewrite Ascii.eqb_refl. destruct (Ascii.eqb_spec a c); [contradiction|reflexivity].
  - change (rstrip c (String b ((y ++ String a "") ++ String c "")) = String b (y ++ String a "")). cbn [rstrip]. rewrite IH. destruct (y ++ String a "") as [|x z] eqn:E; [destruct y; discriminate|reflexivity].
Qed.
Lemma all_slashes_not : forall y a r, a <> slash -> all_slashes (y ++ String a r) = false.
Proof. induction y as [|b y IH]; intros a r N; cbn. - destruct (Ascii.eqb_spec a slash); [contradiction|reflexivity]. - rewrite (IH a r N). apply andb_false_r. Qed.
Lemma directory_named : forall y a b, a <> "/"%char -> has_char "/" b = false -> directory ((y ++ String a "") ++ "/" ++ b) = Some (y ++ String a "").
Proof.
  intros y a b N H. unfold directory, dirname, path_split. assert (R : rsplit1 slash ((y ++ String a "") ++ "/" ++ b) = Some (y ++ String a "", b)) by (apply rsplit1_Some; split; [reflexivity|exact H]).
  rewrite R. cbv zeta. replace (all_slashes ((y ++ String a "") ++ String slash "")) with false.
  - cbn [fst]. rewrite (rstrip_slashed y a slash N). destruct (y ++ String a "") eqn:E; [destruct y; discriminate|reflexivity].
  - symmetry. rewrite append_assoc. change (String a "" ++ String slash "") with (String a (String slash "")). apply all_slashes_not. exact N.
Qed.
Lemma directory_bare : forall b, has_char "/" b = false -> directory b = None.
Proof. intros b H. unfold directory, dirname, path_split. apply rsplit1_None in H. change slash with "/"%char. rewrite H. reflexivity. Qed.

Section Module.
Variables W M Source : Type.
Variable win : bool.
Variable literal : string -> list string + err.
Variable repr : list string -> string.
Variable split : string -> list string + err.
Variable decode : string -> option string.
Variable spawn : W -> command -> string -> W * ran.
Variable chdir : W -> string -> string -> option string.
Variable file_in : W -> string -> string -> string -> option Source.
Variable load_module : Source -> process W M -> process W M * (M + err).
Variable main : M -> process W M -> list string -> process W M * (string + err).
Notation execute := (execute W M Source win split decode spawn chdir file_in load_module main).
Notation import := (import W M Source file_in load_module).

Lemma search_first : forall p dirs name src, search W M Source file_in p dirs name = Some src <-> first_of (fun d => file_in (world p) (cwd p) d name) dirs src.
Proof.
  intros p dirs name src. unfold first_of. induction dirs as [|d ds IH]; cbn [search].
  - split; [discriminate|]. intros (a & x & b & E & _). destruct a; discriminate.
  - destruct (file_in (world p) (cwd p) d name) as [s|] eqn:F.
    + split.
      * intros E. injection E as <-. exists [], d, ds. split; [reflexivity|]. split; [exact F|]. intros y [].
      * intros (a & x & b & E & G & A). destruct a as [|a0 a]; injection E as <- E; [congruence|]. rewrite (A d (or_introl eq_refl)) in F. discriminate.
    + rewrite IH. split.
      * intros (a & x & b & E & G & A). exists (d :: a), x, b. split; [cbn [app]; congruence|]. split; [exact G|]. intros y [<-|I]; [exact F|exact (A y I)].
      * intros (a & x & b & E & G & A). destruct a as [|a0 a]; injection E as <- E; [congruence|]. exists a, x, b. split; [exact E|]. split; [exact G|]. intros y I. exact (A y (or_intror I)).
Qed.
Lemma import_got : forall p name q m, import p name = (q, inl m) <-> got file_in load_module p name m q.
Proof.
  intros p name q m. unfold Model_Commands.import. split.
  - destruct (assoc name (modules p)) as [x|] eqn:A.
    + intros E. injection E as <- <-. apply got_loaded. exact A.
    + destruct (search _ _ _ _ _ _ _) as [s|] eqn:S; [|discriminate]. apply search_first in S. destruct (load_module s p) as [p' [x|e]] eqn:L; [|discriminate].
      intros E. injection E as <- <-. exact (got_found file_in load_module p name s p' x A S L).
  - intros [x A|s p' x A S L]; rewrite A; [reflexivity|]. apply search_first in S. rewrite S, L. reflexivity.
Qed.
Lemma pymod_answers : forall p l dir x, snd (execute p (Some "pymod_do_main") (Shell l) dir) = inl x <->
  exists d name args m q y q', (dir = None /\ d = cwd p \/ exists t, dir = Some t /\ chdir (world p) (cwd p) t = Some d) /\ split l = inl (name :: args) /\
  got file_in load_module {| cwd := d; path := (path p ++ [d])%list; modules := modules p; world := world p |} name m q /\
  main m q args = (q', inl y) /\ trimmed y x /\ path q' <> [] /\ chdir (world q') (cwd q') (cwd p) <> None.
Proof.
  intros p l dir x. unfold Model_Commands.execute. change (String.eqb "pymod_do_main" "pymod_do_main") with true. cbn [andb]. unfold pymod, restore. split.
  - destruct (match dir with None => Some (cwd p) | Some d => chdir (world p) (cwd p) d end) as [d|] eqn:D; [|discriminate].
    change (with_path W M (with_cwd W M p d) (path p ++ [d])) with {| cwd := d; path := (path p ++ [d])%list; modules := modules p; world := world p |}. set (p1 := {| cwd := d; path := (path p ++ [d])%list; modules := modules p; world := world p |}).
    cbn [run_main]. destruct (split l) as [[|name args]|e] eqn:S; [intros E|intros E|intros E].
    + exfalso. cbn [run_main] in E. destruct (path p1); [discriminate|]. destruct (chdir _ _ _); discriminate.
    + destruct (import p1 name) as [q [m|e]] eqn:I.
      * destruct (main m q args) as [q' [y|e]] eqn:R.
        -- destruct (path q') as [|a b] eqn:P; [discriminate|]. cbv zeta in E. destruct (chdir _ _ _) as [d'|] eqn:C; [|discriminate]. cbn [snd] in E. injection E as <-.
           exists d, name, args, m, q, y, q'. split; [|split; [reflexivity|split; [apply import_got; exact I|split; [exact R|split; [apply trimmed_rstrip; reflexivity|split; [congruence|]]]]]].
           ++ destruct dir as [t|]; [right; exists t; split; [reflexivity|exact D]|left; split; [reflexivity|congruence]].
           ++ cbn in C. congruence.
        -- exfalso. destruct (path q') as [|a b]; [discriminate|]. destruct (chdir _ _ _); discriminate.
      * exfalso. destruct (path q) as [|a b]; [discriminate|]. destruct (chdir _ _ _); discriminate.
    + exfalso. destruct (path p1) as [|a b]; [discriminate|]. destruct (chdir _ _ _); discriminate.
  - intros (d & name & args & m & q & y & q' & D & S & G & R & T & P & C).
    assert (D' : match dir with None => Some (cwd p) | Some d => chdir (world p) (cwd p) d end = Some d) by (destruct D as [(-> & ->)|(t & -> & D)]; [reflexivity|exact D]). rewrite D'.
    change (with_path W M (with_cwd W M p d) (path p ++ [d])) with {| cwd := d; path := (path p ++ [d])%list; modules := modules p; world := world p |}.
    apply import_got in G. cbn [run_main]. rewrite S, G, R. destruct (path q') as [|a b] eqn:PQ; [contradiction|]. cbv zeta. change (world (with_path W M q' (removelast (a :: b)))) with (world q'). change (cwd (with_path W M q' (removelast (a :: b)))) with (cwd q').
    destruct (chdir (world q') (cwd q') (cwd p)) as [d'|]; [|contradiction]. cbn [snd]. apply trimmed_rstrip in T. congruence.
Qed.
End Module.
