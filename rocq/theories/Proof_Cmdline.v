(** The arguments that the command of an action is given. *)
From Verif Require Import Lib LibFacts Str StrFacts Model_Path Proof_Path Proof_Path2 Spec_Path Model_Vcxproj Spec_Vcxproj Spec_Custom Model_Cmdline Spec_Cmdline Proof_Vcxproj Proof_Vcxproj2 Proof_Vcxproj4 Proof_Custom Proof_Custom2 Proof_Custom3.
From Verif Require Proof_Suffix Model_Writer.
Local Open Scope string_scope.

(** ** paths with slashes *)
Notation to_fs := (replace_char "\" "/").
Lemma to_fs_char : forall c s, c <> "/"%char -> c <> "\"%char -> has_char c (to_fs s) = has_char c s.
Proof.
  intros c s N M. induction s as [|a s IH]; [reflexivity|]. cbn [replace_char has_char]. rewrite IH. destruct (Ascii.eqb_spec a "\") as [->|]; [|reflexivity].
  destruct (Ascii.eqb_spec "/" c) as [<-|]; [contradiction|]. destruct (Ascii.eqb_spec "\" c) as [<-|]; [contradiction|]. reflexivity.
Qed.
Lemma to_fs_none : forall s, has_char "\" (to_fs s) = false.
Proof. induction s as [|a s IH]; [reflexivity|]. cbn [replace_char has_char]. rewrite IH. destruct (Ascii.eqb_spec a "\") as [->|N]; [reflexivity|]. destruct (Ascii.eqb_spec a "\"); [contradiction|reflexivity]. Qed.
Lemma to_bs_fs : forall s, to_bs (to_fs s) = to_bs s.
Proof. induction s as [|a s IH]; [reflexivity|]. cbn [replace_char]. rewrite IH. destruct (Ascii.eqb_spec a "\") as [->|N]; reflexivity. Qed.
Lemma pieces_to_fs : forall s, pieces (to_fs s) = pieces s.
Proof. intros s. rewrite !pieces_split, to_bs_fs. reflexivity. Qed.
Lemma chop_fs : forall s, has_char "/" s = false -> chop_slash (to_fs s) = to_fs (chop s).
Proof.
  induction s as [|a s IH]; intros H; [reflexivity|]. cbn [has_char] in H. destruct (Ascii.eqb_spec a "/") as [->|N]; [discriminate|]. specialize (IH H). destruct s as [|b s].
  - cbn [replace_char chop_slash chop]. destruct (Ascii.eqb_spec a "\") as [->|M]; [reflexivity|]. destruct (Ascii.eqb_spec a "/"); [contradiction|]. cbn [replace_char]. destruct (Ascii.eqb_spec a "\"); [contradiction|reflexivity].
  - change (chop (String a (String b s))) with (String a (chop (String b s))). cbn [replace_char] in *. rewrite <- IH. reflexivity.
Qed.
Lemma fix_slash_path : forall p s, way p -> movable s -> fix_slash p s = to_fs (fix_path p s).
Proof.
  intros p s C M. rewrite (fix_movable p s C M). pose proof (movable_tests s M) as (T1 & T2 & T3 & T4 & T5). destruct M as (N & D & B). unfold fix_slash. rewrite T1, T2, T3. cbn [negb]. rewrite !andb_true_r.
  assert (Ns : String.eqb s "" = false) by (apply String.eqb_neq; exact N). rewrite Ns. cbn [negb]. rewrite andb_true_r.
  assert (Z : forall l, (forall x, In x l -> has_char "/" x = false /\ has_char "\" x = false) -> chop_slash (to_fs (show (canon l))) = to_fs (show (canon l))).
  { intros l O. rewrite chop_fs by (apply has_show; [discriminate|discriminate|]; intros x I; apply O; exact I). rewrite chop_show; [reflexivity|]. intros x I. destruct (canon_ok l O x I) as (_ & H & K & _). auto. }
  destruct (String.eqb_spec p "") as [->|Np]; cbn [negb].
  - cbn [pieces app]. rewrite canon_empty. rewrite normalized_bare by assumption. apply Z. apply pieces_no_sep.
  - destruct (way_chars p C Np) as (D1 & _ & R1 & E1 & _). assert (Np' : String.eqb p "" = false) by (apply String.eqb_neq; exact Np).
    unfold nt_join. rewrite T5, T4. cbn [fst]. change (String.eqb "" "") with true. cbn [negb orb]. rewrite Np', E1. cbn [orb].
    rewrite normalized_bare; [|apply bare_prefix; assumption|rewrite has_char_app, D1; exact D]. rewrite pieces_sep by reflexivity. apply Z. apply all_pieces_ok.
Qed.

(** ** reading *)
Lemma slashes_snoc : forall n, slashes (Datatypes.S n) = slashes n ++ "\".
Proof. induction n as [|n IH]; [reflexivity|]. cbn [slashes append] in *. f_equal. exact IH. Qed.
Definition ends_bs (s : string) : Prop := exists r, s = r ++ "\".
Lemma read_inside : forall x n w rest, has_char """" x = false -> ~ ends_bs x -> (x = "" -> n = 0) -> (forall r, rest <> String """" r) ->
  arguments true n (Some w) (x ++ String """" rest) = arguments false 0 (Some (w ++ slashes n ++ x)) rest.
Proof.
  induction x as [|a x IH]; intros n w rest Q E Z R.
  - rewrite (Z eq_refl). cbn [append]. assert (H : forall s, (forall r, s <> String """" r) -> arguments true 0 (Some w) (String """" s) = arguments false 0 (add (Some w) "") s).
    { intros s Hs. destruct s as [|b s]; [reflexivity|]. destruct (Ascii.eqb_spec b """") as [->|NB]; [destruct (Hs s eq_refl)|]. cbn [arguments]. change (Ascii.eqb """" "\") with false. change (Ascii.eqb """" """") with true. cbn [Nat.odd Nat.even negb Nat.div2 andb slashes]. destruct (Ascii.eqb_spec b """"); [contradiction|]. reflexivity. }
    rewrite H by exact R. unfold add. rewrite !append_nil_r. reflexivity.
  - cbn [has_char] in Q. destruct (Ascii.eqb_spec a """") as [->|Na]; [discriminate|]. assert (E' : ~ ends_bs x) by (intros (r & ->); apply E; exists (String a r); reflexivity).
    destruct (Ascii.eqb_spec a "\") as [->|Nb].
    + change (arguments true n (Some w) (String "\" x ++ String """" rest)) with (arguments true (Datatypes.S n) (Some w) (x ++ String """" rest)). rewrite IH; [|exact Q|exact E'|intros ->; destruct E; exists ""; reflexivity|exact R].
      f_equal. f_equal. f_equal. rewrite slashes_snoc, append_assoc. reflexivity.
    + assert (Step : arguments true n (Some w) (String a x ++ String """" rest) = arguments true 0 (Some (w ++ slashes n ++ String a "")) (x ++ String """" rest)).
      { cbn [append arguments]. destruct (Ascii.eqb_spec a "\"); [contradiction|]. destruct (Ascii.eqb_spec a """"); [contradiction|]. rewrite andb_false_r. reflexivity. }
      rewrite Step, IH; [|exact Q|exact E'|reflexivity|exact R]. f_equal. f_equal. cbn [slashes append]. rewrite !append_assoc. reflexivity.
Qed.
Lemma quoted_text : forall x t, quoted x ++ t = String """" (x ++ String """" t).
Proof. intros x t. unfold quoted. rewrite !append_assoc. reflexivity. Qed.
Fixpoint trail (l : list string) : string := match l with [] => "" | x :: l => " " ++ quoted x ++ trail l end.
Lemma trail_start : forall l r, trail l <> String """" r.
Proof. destruct l; discriminate. Qed.
Lemma read_trail : forall l w, Forall (fun x => has_char """" x = false /\ ~ ends_bs x) l -> arguments false 0 (Some w) (trail l) = w :: l.
Proof.
  induction l as [|x l IH]; intros w F; [cbn; rewrite append_nil_r; reflexivity|]. inversion F as [|? ? (Q & E) F2]; subst. cbn [trail].
  change (arguments false 0 (Some w) (" " ++ quoted x ++ trail l)) with ((w ++ "") :: arguments false 0 None (quoted x ++ trail l)). rewrite append_nil_r. f_equal. rewrite quoted_text.
  assert (S : forall s, arguments false 0 None (String """" s) = arguments true 0 (Some "") s) by (intros [|b s]; reflexivity). rewrite S, read_inside; [|exact Q|exact E|reflexivity|apply trail_start]. cbn [append slashes]. apply IH. exact F2.
Qed.
Lemma read_program : forall x r, has_char """" x = false -> (r = "" \/ exists r', r = " " ++ r') -> program_name false (quoted x ++ r) = (x, r).
Proof.
  intros x r Q R. rewrite quoted_text. change (program_name false (String """" (x ++ String """" r))) with (program_name true (x ++ String """" r)). revert Q. induction x as [|a x IH]; intros Q.
  - cbn [append]. change (program_name true (String """" r)) with (program_name false r). destruct R as [->|(r' & ->)]; reflexivity.
  - cbn [has_char] in Q. destruct (Ascii.eqb a """") eqn:E; [discriminate|]. cbn [append program_name]. rewrite E, andb_false_r, (IH Q). reflexivity.
Qed.
Lemma read_line : forall x l, has_char """" x = false -> Forall (fun x => has_char """" x = false /\ ~ ends_bs x) l -> argv (quoted x ++ trail l) = x :: l.
Proof.
  intros x l Q F. unfold argv. rewrite read_program; [|exact Q|destruct l; [left; reflexivity|right; eexists; reflexivity]]. f_equal. destruct l as [|y l]; [reflexivity|]. inversion F as [|? ? (Q2 & E) F2]; subst. cbn [trail].
  change (arguments false 0 None (" " ++ quoted y ++ trail l)) with (arguments false 0 None (quoted y ++ trail l)). rewrite quoted_text.
  assert (S : forall s, arguments false 0 None (String """" s) = arguments true 0 (Some "") s) by (intros [|b s]; reflexivity). rewrite S, read_inside; [|exact Q2|exact E|reflexivity|apply trail_start]. cbn [append slashes]. apply read_trail. exact F2.
Qed.

(** ** the line *)
Lemma parts_trail : forall l, Forall (fun x => has_char """" x = false) l -> parts false (trail l) = [trail l].
Proof.
  induction l as [|x l IH]; intros F; [reflexivity|]. inversion F as [|? ? Q F2]; subst. cbn [trail]. rewrite parts_plain by reflexivity. rewrite parts_quoted by exact Q. rewrite (IH F2). reflexivity.
Qed.
Lemma concat_trail : forall x l, String.concat " " ("call" :: quoted x :: map quoted l) = "call " ++ quoted x ++ trail l.
Proof.
  intros x l. rewrite concat_cons. assert (H : forall x, String.concat " " (quoted x :: map quoted l) = quoted x ++ trail l).
  { induction l as [|y l IH]; intros z; [cbn [trail map]; rewrite append_nil_r; reflexivity|]. cbn [map trail]. rewrite concat_cons. rewrite IH. reflexivity. }
  rewrite H. reflexivity.
Qed.
Lemma end_trail : forall l x, exists t, quoted x ++ trail l = t ++ String """" "".
Proof.
  induction l as [|y l IH]; intros x; [exists (String """" x); cbn [trail]; rewrite append_nil_r; reflexivity|]. destruct (IH y) as (t & T). cbn [trail]. exists (quoted x ++ " " ++ t). rewrite T, !append_assoc. reflexivity.
Qed.
Lemma line_command : forall x l, has_char """" x = false -> Forall (fun x => has_char """" x = false) l -> map simple (parts false ("call " ++ quoted x ++ trail l)) = [quoted x ++ trail l].
Proof.
  intros x l Q F. rewrite parts_plain by reflexivity. rewrite parts_quoted by exact Q. rewrite parts_trail by exact F. cbn [map]. f_equal. destruct (end_trail l x) as (t & T).
  assert (S1 : strip ("call " ++ quoted x ++ trail l) = "call " ++ quoted x ++ trail l).
  { apply (strip_ends "c" ("all " ++ quoted x ++ trail l) ("call " ++ t) """"); [|reflexivity|reflexivity]. change (String "c" ("all " ++ quoted x ++ trail l)) with ("call " ++ quoted x ++ trail l). rewrite T, append_assoc. reflexivity. }
  assert (S2 : strip (quoted x ++ trail l) = quoted x ++ trail l).
  { rewrite quoted_text in *. apply (strip_ends """" (x ++ String """" (trail l)) t """"); [|reflexivity|reflexivity]. exact T. }
  unfold simple. rewrite S1. assert (L : exists n, String.length ("call " ++ quoted x ++ trail l) = Datatypes.S n) by (eexists; reflexivity). destruct L as (n & ->).
  change (uncall (Datatypes.S n) ("call " ++ quoted x ++ trail l)) with (uncall n (strip (quoted x ++ trail l))). rewrite S2. rewrite quoted_text. destruct n; reflexivity.
Qed.

(** ** each argument *)
Lemma switch_iff : forall a, is_switch a = true <-> option_like a.
Proof.
  intros a. unfold is_switch, option_like. split.
  - intros H. apply orb_true_iff in H. destruct H as [H|H]; [|right; right; exact H]. destruct a as [|b a]; [left; reflexivity|]. apply orb_true_iff in H. right. left. exists a. destruct H as [H|H]; apply Ascii.eqb_eq in H; subst; auto.
  - intros [->|[(r & [-> | ->])|H]]; [reflexivity|reflexivity|reflexivity|rewrite H; apply orb_true_r].
Qed.
Lemma argument_plain : forall p a, has_char "$" a = false -> (is_switch a = false -> has_char "$" (fix_slash p a) = false) -> argument p a = if is_switch a then a else fix_slash p a.
Proof.
  intros p a D F. unfold argument. assert (X : has_char "$" (if is_switch a then a else fix_slash p a) = false) by (destruct (is_switch a); auto). unfold input_dir. rewrite (Proof_Suffix.replace_none "(InputDir)") by exact X. unfold fix_macro_slashes. rewrite X. reflexivity.
Qed.
Lemma has_fix_slash : forall c p s, other c -> way p -> relative s -> has_char c p = false -> has_char c s = false -> has_char c (fix_slash p s) = false.
Proof.
  intros c p s O W R P S. rewrite fix_slash_path by (try exact W; apply relative_movable; exact R). pose proof O as (N1 & N2 & _). rewrite to_fs_char by assumption. apply has_fix; assumption.
Qed.
Lemma passes_argument : forall p a, way p -> ordinary p -> ordinary a -> option_like a \/ relative a -> (option_like a -> ~ ends_bs a) ->
  passes p a (argument p a) /\ has_char """" (argument p a) = false /\ ~ ends_bs (argument p a).
Proof.
  intros p a W OP OA K E. destruct other_dec as (_ & _ & _ & OD & OQ).
  assert (QP : has_char """" p = false /\ has_char "$" p = false) by (split; apply OP; cbn; auto 6). assert (QA : has_char """" a = false /\ has_char "$" a = false) by (split; apply OA; cbn; auto 6).
  rewrite argument_plain; [|apply QA|].
  - destruct (is_switch a) eqn:S.
    + apply switch_iff in S. split; [split; [reflexivity|intros N; contradiction]|]. split; [apply QA|apply E; exact S].
    + assert (NS : ~ option_like a) by (intros H; apply switch_iff in H; congruence). destruct K as [K|K]; [contradiction|]. split; [split; [intros; contradiction|]|].
      * intros _. rewrite fix_slash_path by (try exact W; apply relative_movable; exact K). split; [apply to_fs_none|]. intros here. unfold leads at 1. rewrite pieces_to_fs. apply leads_fix; [exact W|apply relative_movable; exact K].
      * split; [apply has_fix_slash; tauto|]. rewrite fix_slash_path by (try exact W; apply relative_movable; exact K). intros (r & H). pose proof (to_fs_none (fix_path p a)) as N. rewrite H, has_char_app in N. cbn in N. rewrite orb_true_r in N. discriminate.
  - intros S. assert (NS : ~ option_like a) by (intros H; apply switch_iff in H; congruence). destruct K as [K|K]; [contradiction|]. apply has_fix_slash; tauto.
Qed.
Lemma preamble_none : forall l, Forall ordinary l -> preamble l = "".
Proof.
  intros l F. unfold preamble. assert (E : existsb (fun x => Model_Writer.contains input_dir x) l = false).
  { induction F as [|x l O F IH]; [reflexivity|]. cbn [existsb]. rewrite IH. rewrite orb_false_r. apply (Proof_Suffix.contains_none "(InputDir)"). apply O. cbn. auto 6. }
  rewrite E. reflexivity.
Qed.
Lemma command_arguments : forall p target dirs s path setup first rest line, command_line p target dirs s path setup (first :: rest) = inl line ->
  (cygwin s = Some false \/ cygwin s = None /\ target = Some false) -> quote s <> Some false -> way p -> ordinary p -> ordinary first ->
  Forall (fun a => ordinary a /\ (option_like a \/ relative a) /\ (option_like a -> ~ ends_bs a)) rest ->
  exists c prog args, map simple (parts false line) = [c] /\ argv c = prog :: args /\ (first = "cat" -> prog = "type") /\ (first <> "cat" -> pieces prog = pieces first /\ has_char "/" prog = false) /\ Forall2 (passes p) rest args.
Proof.
  intros p target dirs s path setup first rest line E CY QU W OP OF F. unfold command_line in E. assert (U : uses_cygwin target s = false) by (unfold uses_cygwin; destruct CY as [->|(-> & ->)]; reflexivity). rewrite U in E.
  rewrite preamble_none in E by (constructor; [exact OF|]; apply Forall_forall; intros x X; rewrite Forall_forall in F; apply F; exact X). assert (Q : (match quote s with Some b => b | None => true end) = true) by (destruct (quote s) as [[]|]; congruence). rewrite Q in E. unfold with_cmd in E. cbn [append] in E. rewrite concat_trail in E. injection E as <-.
  assert (QF : has_char """" (program first) = false) by (unfold program; destruct (String.eqb first "cat"); [reflexivity|]; rewrite to_bs_char by discriminate; apply OF; cbn; auto).
  assert (G : Forall2 (passes p) rest (map (argument p) rest) /\ Forall (fun x => has_char """" x = false /\ ~ ends_bs x) (map (argument p) rest)).
  { induction F as [|a l (O & K & N) F IH]; [split; constructor|]. destruct IH as (I1 & I2). destruct (passes_argument p a W OP O K N) as (A & B & C). split; constructor; auto. }
  destruct G as (G1 & G2). exists (quoted (program first) ++ trail (map (argument p) rest)), (program first), (map (argument p) rest). split; [apply line_command; [exact QF|]; eapply Forall_impl; [|exact G2]; intros x [X _]; exact X|]. split; [apply read_line; assumption|]. split; [|split; [|exact G1]].
  - intros ->. reflexivity.
  - intros N. unfold program. assert (X : String.eqb first "cat" = false) by (apply String.eqb_neq; exact N). rewrite X. split; [apply pieces_to_bs|]. clear. induction first as [|a s IH]; [reflexivity|]. cbn [replace_char has_char]. rewrite IH. destruct (Ascii.eqb_spec a "/") as [->|M]; [reflexivity|]. destruct (Ascii.eqb_spec a "/"); [contradiction|reflexivity].
Qed.
