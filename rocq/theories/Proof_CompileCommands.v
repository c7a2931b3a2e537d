(** Proofs about the compilation database. *)
From Verif Require Import Lib LibFacts Str StrFacts Model_Quote Model_Path Model_Value Model_Json Spec_Quote Spec_Path Spec_Gypi Proof_Quote Proof_Path Proof_Path2 Model_CompileCommands Spec_CompileCommands.
From Verif Require Model_Writer Proof_Flags5 Proof_Vs Proof_Json Proof_Install2.
Local Open Scope string_scope.

(** ** Paths *)
Lemma slashes_one : forall q, isabs q = true -> (forall t, q <> "//" ++ t) -> initial_slashes q = "/".
Proof.
  intros [|a q] A N; [discriminate|]. cbn [isabs] in A. unfold initial_slashes. rewrite A. apply Ascii.eqb_eq in A. destruct q as [|b r]; [reflexivity|].
  destruct (Ascii.eqb_spec b slash) as [->|]; [|reflexivity]. exfalso. subst a. apply (N r). reflexivity.
Qed.
Lemma normpath_abs : forall q, isabs q = true -> normpath q = absolute (locate [] q) \/ (normpath q = "/" ++ absolute (locate [] q) /\ two_slashes q).
Proof.
  intros q A. assert (D : initial_slashes q = "/" \/ (initial_slashes q = "//" /\ two_slashes q)).
  { destruct q as [|a q]; [discriminate|]. cbn [isabs] in A. unfold initial_slashes. rewrite A. apply Ascii.eqb_eq in A. subst a. destruct q as [|b r]; [auto|]. destruct (Ascii.eqb_spec b slash) as [->|]; [|auto]. destruct (isabs r); [auto|]. right. split; [reflexivity|]. exists r. reflexivity. }
  destruct D as [D|[D T]]; [left; apply normpath_absolute; assumption|]. right. split; [|exact T].
  destruct q as [|x q]; [discriminate|]. unfold normpath. rewrite D, A. unfold locate. rewrite A. rewrite norm_comps_abs; [reflexivity|constructor|]. intros c. apply split_char_no_char.
Qed.
Lemma two_join : forall a b, two_slashes (path_join a b) -> two_slashes a \/ two_slashes b.
Proof.
  intros a b [t H]. unfold path_join in H. destruct (isabs b) eqn:B; [right; exists t; exact H|].
  destruct a as [|x a]; [cbn in H; subst b; discriminate|]. destruct a as [|y a].
  - destruct (String.eqb (String x "") "" || ends_slash (String x "")) eqn:E.
    + destruct b as [|z b]; [discriminate|]. cbn in H. injection H as -> -> _. discriminate.
    + cbn in H. injection H as -> H. cbn in E. discriminate.
  - destruct (String.eqb (String x (String y a)) "" || ends_slash (String x (String y a))); cbn in H; injection H as -> -> _; left; exists a; reflexivity.
Qed.
Lemma two_absolute : forall p, place_ok p -> ~ two_slashes (absolute p).
Proof.
  intros p O [t H]. unfold absolute in H. assert (O' : Forall name_ok (rev p)) by (apply Forall_rev; exact O). destruct (rev p) as [|c l]; [discriminate|]. apply Forall_cons_iff in O'. destruct O' as [(S & E & _) _].
  destruct c as [|z c]; [congruence|]. assert (Z : z = slash) by (destruct l; cbn in H; injection H; auto). subst z. cbn in S. discriminate.
Qed.
Lemma resolve_names : forall place build p, place_ok place -> names place build p (resolve (absolute place) (dirname build) p).
Proof.
  intros place build p O. unfold names, resolve, abspath. cbv zeta. set (dir := dirname build). destruct (isabs (path_join dir p)) eqn:A.
  - assert (L : locate [] (path_join dir p) = locate (locate place dir) p) by (rewrite <- locate_join; unfold locate; rewrite A; reflexivity).
    destruct (normpath_abs _ A) as [E|[E T]]; rewrite E, L; [auto|]. right. split; [reflexivity|]. apply two_join in T. tauto.
  - assert (B : isabs (path_join (absolute place) (path_join dir p)) = true) by (unfold path_join at 1; rewrite A; destruct (String.eqb (absolute place) "" || ends_slash (absolute place)); reflexivity).
    assert (L : locate [] (path_join (absolute place) (path_join dir p)) = locate (locate place dir) p) by (rewrite !locate_join, locate_absolute by exact O; reflexivity).
    destruct (normpath_abs _ B) as [E|[E T]]; rewrite E, L; [auto|]. right. split; [reflexivity|]. apply two_join in T. destruct T as [T|T]; [destruct (two_absolute _ O T)|]. apply two_join in T. tauto.
Qed.

(** ** Lists *)
Lemma is_source_iff : forall s, is_source s = true <-> c_source s \/ cc_source s.
Proof.
  intros s. unfold is_source. cbn [existsb]. rewrite !orb_true_iff, !Proof_Flags5.ends_iff. unfold c_source, cc_source. split.
  - intros [H|[(a & H)|[(a & H)|[(a & H)|H]]]]; [auto|right; exists a; auto|right; exists a; auto|right; exists a; auto|discriminate].
  - intros [H|(a & [H|[H|H]])]; eauto 8.
Qed.
Lemma filter_listed : forall l, listed l (filter is_source l).
Proof.
  induction l as [|s l IH]; [constructor|]. cbn [filter]. destruct (is_source s) eqn:E; [apply listed_yes; [apply is_source_iff, E|exact IH]|].
  assert (N : ~ (c_source s \/ cc_source s)) by (rewrite <- is_source_iff; congruence). apply listed_no; tauto.
Qed.
Lemma filter_kept : forall l, kept l (filter (fun s => negb (String.prefix "$(obj)" s)) l).
Proof.
  induction l as [|d l IH]; [constructor|]. cbn [filter]. destruct (String.prefix "$(obj)" d) eqn:E; cbn [negb].
  - apply Proof_Vs.prefix_iff in E. destruct E as [t ->]. apply kept_no, IH.
  - apply kept_yes; [|exact IH]. intros t ->. rewrite (proj2 (Proof_Vs.prefix_iff _ _)) in E by (exists t; reflexivity). discriminate.
Qed.
Lemma c_or_cc : forall s, c_source s \/ cc_source s -> if Model_Writer.ends_with ".c" s then c_source s else cc_source s.
Proof.
  intros s H. destruct (Model_Writer.ends_with ".c" s) eqn:E; [apply Proof_Flags5.ends_iff, E|]. destruct H as [H|H]; [|exact H].
  apply Proof_Flags5.ends_iff in H. congruence.
Qed.

(** ** Commands *)
Definition more (l : list (list atom)) (r : option (list (list atom))) : option (list (list atom)) := match r with Some r => Some (l ++ r)%list | None => None end.
Lemma read_list_space : forall l t, sh_read true Between [] (encode_posix_shell_list l ++ " " ++ t) = more (map with_dollars l) (sh_read true Between [] t).
Proof.
  unfold encode_posix_shell_list, join_with. intros l t. destruct l as [|x l].
  - cbn [map String.concat append]. change (sh_read true Between [] (String " " t)) with (sh_read true Between [] t). destruct (sh_read true Between [] t); reflexivity.
  - revert x. induction l as [|y l IH]; intros x.
    + cbn [map String.concat]. rewrite read_argument. cbn [append]. rewrite read_space. unfold cons_word, more. cbn [app]. reflexivity.
    + change (String.concat " " (map encode_posix_shell_argument (x :: y :: l))) with (encode_posix_shell_argument x ++ " " ++ String.concat " " (map encode_posix_shell_argument (y :: l))).
      rewrite !append_assoc, read_argument. change (" " ++ ?z) with (String " " z) at 1. rewrite read_space, IH. destruct (sh_read true Between [] t); reflexivity.
Qed.
Lemma read_command : forall cc d i f p, cc = "cc" \/ cc = "c++" ->
  sh_words (join_with " " [cc; encode_posix_shell_list d; encode_posix_shell_list i; encode_posix_shell_list f; "-c"; encode_posix_shell_argument p]) =
  Some (map with_dollars (cc :: d ++ i ++ f ++ ["-c"; p])%list).
Proof.
  intros cc d i f p C. unfold join_with. cbn [String.concat]. unfold sh_words.
  assert (W : forall t, sh_read true Between [] (cc ++ " " ++ t) = cons_word (with_dollars cc) (sh_read true Between [] t)) by (intros t; destruct C as [->| ->]; reflexivity).
  rewrite W, !read_list_space. change (sh_read true Between [] ("-c" ++ " " ++ encode_posix_shell_argument p)) with (cons_word (with_dollars "-c") (sh_read true Between [] (encode_posix_shell_argument p))).
  assert (P := posix_argument p). unfold sh_words in P. rewrite P. unfold cons_word, more. cbn [map]. rewrite !map_app. reflexivity.
Qed.

(** ** What is written is read back *)
Definition obj (e : entry) : json := JObj [("command", JStr (command e)); ("directory", JStr (directory e)); ("file", JStr (file e))].
Lemma py_drive : forall lang a acc, Proof_Json.drive lang (InStr quote acc) (py_escape_char a) = Some (InStr quote (acc ++ String a "")).
Proof. intros lang a acc. destruct a as [b0 b1 b2 b3 b4 b5 b6 b7]. destruct lang, b0, b1, b2, b3, b4, b5, b6, b7; reflexivity. Qed.
Lemma py_lex : forall lang s acc rest, lex lang (InStr quote acc) (py_escape s ++ rest) = lex lang (InStr quote (acc ++ s)) rest.
Proof.
  intros lang s. induction s as [|a s IH]; intros acc rest; [rewrite append_nil_r; reflexivity|]. cbn [py_escape]. rewrite append_assoc. rewrite (Proof_Json.drive_lex _ _ _ _ _ (py_drive lang a acc)), IH, append_assoc. reflexivity.
Qed.
Lemma lex_quoted : forall s rest, lex Json Out (py_quoted s ++ rest) = option_map (app [TStr s]) (lex Json Out rest).
Proof.
  intros s rest. unfold py_quoted. cbn [append]. rewrite Proof_Json.lex_cons. replace (Model_Json.step Json Out quote) with (Some (@nil tok, InStr quote "")) by reflexivity. rewrite Proof_Json.option_map_nil, append_assoc.
  rewrite py_lex. cbn [append]. rewrite Proof_Json.lex_cons. cbn [Model_Json.step]. rewrite Ascii.eqb_refl. reflexivity.
Qed.
Lemma lex_punct : forall a rest, In a ["{"; "}"; "["; "]"; ","; ":"]%char -> lex Json Out (String a rest) = option_map (app [TPunct a]) (lex Json Out rest).
Proof. intros a rest H. apply (Proof_Json.punct_cases Json a H rest). discriminate. Qed.
Lemma lex_nl : forall rest, lex Json Out (nl ++ rest) = lex Json Out rest.
Proof. intros rest. apply Proof_Json.skips_nl. Qed.
Lemma lex_colon : forall rest, lex Json Out (": " ++ rest) = option_map (app [TPunct ":"%char]) (lex Json Out rest).
Proof.
  intros rest. change (": " ++ rest) with (String ":" (String " " rest)). rewrite lex_punct by (cbn; auto 8).
  replace (lex Json Out (String " " rest)) with (lex Json Out rest); [reflexivity|]. symmetry. apply (Proof_Json.skips_white Json " " ""); [reflexivity|apply Proof_Json.skips_nil].
Qed.
Lemma lex_comma : forall rest, lex Json Out ("," ++ rest) = option_map (app [TPunct ","%char]) (lex Json Out rest).
Proof. intros rest. apply (lex_punct ","). cbn; auto 8. Qed.
Lemma map_app_toks : forall (a b : list tok) x, option_map (app a) (option_map (app b) x) = option_map (app (a ++ b)%list) x.
Proof. intros a b [x|]; cbn; [rewrite <- app_assoc|]; reflexivity. Qed.
Lemma lex_entry : forall e rest, lex Json Out (dump_entry e ++ rest) = option_map (app (Proof_Json.toks (obj e))) (lex Json Out rest).
Proof.
  intros e rest. unfold dump_entry. rewrite !append_assoc. change ("{" ++ ?z) with (String "{" z). rewrite lex_punct by (cbn; auto 8).
  rewrite lex_nl, lex_quoted, lex_colon, lex_quoted, lex_comma, lex_nl, lex_quoted, lex_colon, lex_quoted, lex_comma, lex_nl, lex_quoted, lex_colon, lex_quoted, lex_nl. change ("}" ++ rest) with (String "}" rest). rewrite lex_punct by (cbn; auto 8).
  rewrite !map_app_toks. reflexivity.
Qed.
Lemma lex_dump : forall es, lex Json Out (dump es) = Some (Proof_Json.toks (JArr (map obj es))).
Proof.
  intros [|e es]; [reflexivity|]. unfold dump. change ("[" ++ ?z) with (String "[" z). rewrite lex_punct by (cbn; auto 8). rewrite lex_nl, lex_entry.
  assert (T : lex Json Out (fold_right (fun e s => "," ++ nl ++ dump_entry e ++ s) (nl ++ "]") es) = Some (flat_map (fun y => TPunct "," :: Proof_Json.toks y) (map obj es) ++ [TPunct "]"])%list).
  { induction es as [|x es IH]; [reflexivity|]. cbn [fold_right map flat_map]. rewrite lex_comma, lex_nl, lex_entry, IH. cbn [option_map app]. rewrite <- app_assoc. reflexivity. }
  rewrite T. cbn [option_map map Proof_Json.toks app]. reflexivity.
Qed.
Lemma parse_dump : forall es, json_parse (dump es) = Some (JArr (map obj es)).
Proof.
  intros es. unfold json_parse, read. rewrite lex_dump. rewrite <- (app_nil_r (Proof_Json.toks _)), Proof_Json.parse_value; [reflexivity| |exact I].
  apply un_arr. apply Forall_forall. intros v V. apply in_map_iff in V. destruct V as (e & <- & _). apply un_obj; [cbn; repeat constructor; cbn; intuition discriminate|]. repeat constructor.
Qed.

(** ** The commands of a configuration *)
Section Run.
  Variable place : list string.
  Hypothesis placed : place_ok place.
  Variable mac : option (target -> string -> flags).
  Notation here := (absolute place).

  Lemma command_describes : forall out t name c, Forall2 (describes place (given_flags mac) out) (map obj (commands_for here mac out t name c))
    (map (fun s => {| job_target := t; job_config := name; job_settings := c; job_source := s |}) (filter is_source (sources t))).
  Proof.
    intros out t name c. unfold commands_for. cbv zeta.
    assert (A : forall l, Forall (fun s => is_source s = true) l -> Forall2 (describes place (given_flags mac) out) (map obj (map (fun source =>
       let path := resolve here (dirname (build_file t)) source in
       let isc := Model_Writer.ends_with ".c" source in
       {| command := join_with " " [(if isc then "cc" else "c++"); encode_posix_shell_list (map (fun s => "-D" ++ s) (defines c));
            encode_posix_shell_list (map (fun s => "-I" ++ resolve here (dirname (build_file t)) s) (filter (fun s => negb (String.prefix "$(obj)" s)) (include_dirs c)));
            encode_posix_shell_list (if isc then any_flags (flags_for mac t name c) ++ c_flags (flags_for mac t name c) else any_flags (flags_for mac t name c) ++ cc_flags (flags_for mac t name c))%list; "-c"; encode_posix_shell_argument path];
          directory := out; file := path |}) l)) (map (fun s => {| job_target := t; job_config := name; job_settings := c; job_source := s |}) l)).
    2:{ apply A. apply Forall_forall. intros s S. apply filter_In in S. apply S. }
    induction l as [|s l IH]; intros F; [constructor|]. apply Forall_cons_iff in F. destruct F as [S F]. cbn [map]. constructor; [|apply IH, F]. clear IH F l.
    assert (K := filter_kept (include_dirs c)). set (dirs := filter _ (include_dirs c)) in *. change (flags_for mac t name c) with (given_flags mac t name c).
    assert (N : Forall2 (fun d w => exists p, w = "-I" ++ p /\ names place (build_file t) d p) dirs (map (fun s => "-I" ++ resolve here (dirname (build_file t)) s) dirs)).
    { clear K. induction dirs as [|d ds IH]; [constructor|]. constructor; [|exact IH]. eexists. split; [reflexivity|]. apply resolve_names, placed. }
    apply is_source_iff in S. apply c_or_cc in S. unfold describes, obj. cbv zeta. cbn [command directory file job_target job_source]. destruct (Model_Writer.ends_with ".c" s).
    - eexists _, _, _. split; [reflexivity|]. split; [apply resolve_names, placed|]. split; [|rewrite read_command by auto; rewrite <- app_assoc; reflexivity].
      apply (words_c place (given_flags mac) {| job_target := t; job_config := name; job_settings := c; job_source := s |} _ dirs); assumption.
    - eexists _, _, _. split; [reflexivity|]. split; [apply resolve_names, placed|]. split; [|rewrite read_command by auto; rewrite <- app_assoc; reflexivity].
      apply (words_cc place (given_flags mac) {| job_target := t; job_config := name; job_settings := c; job_source := s |} _ dirs); assumption.
  Qed.

  (** The entries that a list of targets gives to a configuration. *)
  Definition entries_of (out name : string) (t : target) : list entry := match assoc name (configurations t) with Some c => commands_for here mac out t name c | None => [] end.
  Lemma add_assoc : forall name n es d, assoc name (add n es d) = if String.eqb n name then Some (match assoc n d with Some l => l | None => [] end ++ es)%list else assoc name d.
  Proof. intros. unfold add. apply Proof_Install2.assoc_set. Qed.
  Lemma target_assoc : forall out t name d, NoDup (map fst (configurations t)) ->
    assoc name (add_commands_for_target here mac out d t) =
    match assoc name (configurations t) with Some c => Some (match assoc name d with Some l => l | None => [] end ++ commands_for here mac out t name c)%list | None => assoc name d end.
  Proof.
    intros out t name d. unfold add_commands_for_target. generalize (commands_for here mac out t). intros F. generalize (configurations t). intros cs. revert d.
    induction cs as [|[n c] cs IH]; intros d ND; [reflexivity|]. cbn [fold_left fst snd assoc]. cbn [map fst] in ND. apply NoDup_cons_iff in ND. destruct ND as [N ND]. rewrite IH by exact ND. rewrite add_assoc. rewrite (String.eqb_sym name n).
    destruct (String.eqb_spec n name) as [->|]; [|reflexivity]. rewrite (proj2 (assoc_None _ name cs) N). reflexivity.
  Qed.
  Lemma all_assoc : forall out name ts d, Forall (fun t => NoDup (map fst (configurations t))) ts ->
    assoc name (fold_left (add_commands_for_target here mac out) ts d) =
    if existsb (fun t => match assoc name (configurations t) with Some _ => true | None => false end) ts
    then Some (match assoc name d with Some l => l | None => [] end ++ flat_map (entries_of out name) ts)%list else assoc name d.
  Proof.
    intros out name ts. induction ts as [|t ts IH]; intros d F; [reflexivity|]. apply Forall_cons_iff in F. destruct F as [ND F]. cbn [fold_left existsb flat_map]. rewrite IH, target_assoc by assumption. unfold entries_of at 2.
    destruct (assoc name (configurations t)) as [c|]; cbn [orb app]; [|reflexivity].
    destruct (existsb _ ts) eqn:E; [rewrite app_assoc; reflexivity|]. f_equal.
    assert (Z : flat_map (entries_of out name) ts = []). { clear - E. induction ts as [|u ts IH]; [reflexivity|]. cbn [existsb] in E. apply orb_false_iff in E. destruct E as [E1 E2]. cbn [flat_map]. rewrite IH by exact E2. unfold entries_of. destruct (assoc name (configurations u)); [discriminate|reflexivity]. }
    rewrite Z, app_nil_r. reflexivity.
  Qed.
  Lemma keys_NoDup : forall out ts d, NoDup (map fst d) -> NoDup (map fst (fold_left (add_commands_for_target here mac out) ts d)).
  Proof.
    intros out ts. induction ts as [|t ts IH]; intros d ND; [exact ND|]. cbn [fold_left]. apply IH. unfold add_commands_for_target. generalize (commands_for here mac out t). intros F. generalize (configurations t). intros cs. revert d ND.
    induction cs as [|[n c] cs IHc]; intros d ND; [exact ND|]. cbn [fold_left]. apply IHc. unfold add. apply Proof_Install2.set_key_NoDup, ND.
  Qed.
  Lemma jobs_exist : forall out name ts, Forall (fun t => NoDup (map fst (configurations t))) ts ->
    exists js, jobs name ts js /\ Forall2 (describes place (given_flags mac) out) (map obj (flat_map (entries_of out name) ts)) js.
  Proof.
    intros out name ts F. induction F as [|t ts ND F IH]; [exists []; split; constructor|]. destruct IH as (js & J & D). cbn [flat_map]. destruct (assoc name (configurations t)) as [c|] eqn:E.
    - eexists. split; [apply (jobs_has name t c (filter is_source (sources t)) ts js); [apply assoc_In, E|apply filter_listed|exact J]|]. rewrite map_app. apply Forall2_app; [|exact D]. replace (entries_of out name t) with (commands_for here mac out t name c) by (unfold entries_of; rewrite E; reflexivity). apply command_describes.
    - exists js. split; [|replace (entries_of out name t) with (@nil entry) by (unfold entries_of; rewrite E; reflexivity); exact D]. apply jobs_lacks; [apply assoc_None, E|exact J].
  Qed.
End Run.

(** ** The files *)
Section Files.
  Variable place : list string.
  Hypothesis placed : place_ok place.
  Variable mac : option (target -> string -> flags).
  Variables gen flag : option string.
  Variable ts : list target.
  Hypothesis dicts : Forall (fun t => NoDup (map fst (configurations t))) ts.
  Notation files := (generate_output (absolute place) mac gen flag ts).
  Notation out := (match flag with Some o => o | None => "out" end).
  Notation all := (fold_left (add_commands_for_target (absolute place) mac out) ts []).

  Lemma base_is : (match gen with Some o => if String.eqb o "" then out else o | None => out end) = output_base gen flag.
  Proof. unfold output_base, commands_dir. destruct gen as [[|a o]|]; reflexivity. Qed.
  Lemma has_iff : forall name, existsb (fun t => match assoc name (configurations t) with Some _ => true | None => false end) ts = true <-> has_config name ts.
  Proof.
    intros name. rewrite existsb_exists. split.
    - intros (t & T & E). destruct (assoc name (configurations t)) as [c|] eqn:A; [|discriminate]. exists t, c. split; [exact T|apply assoc_In, A].
    - intros (t & c & T & C). exists t. split; [exact T|]. rewrite Forall_forall in dicts. rewrite (In_assoc _ name c _ (dicts t T) C). reflexivity.
  Qed.
  Lemma in_all : forall name es, In (name, es) all -> has_config name ts /\ es = flat_map (entries_of place mac out name) ts.
  Proof.
    intros name es H. apply In_assoc in H; [|apply keys_NoDup; constructor]. rewrite all_assoc in H by exact dicts. cbn [assoc app] in H.
    destruct (existsb _ ts) eqn:E; [|discriminate]. injection H as <-. split; [apply has_iff, E|reflexivity].
  Qed.
  Lemma all_in : forall name, has_config name ts -> In (name, flat_map (entries_of place mac out name) ts) all.
  Proof.
    intros name H. apply has_iff in H. apply assoc_In. rewrite all_assoc by exact dicts. rewrite H. reflexivity.
  Qed.
  Lemma path_of : forall name, locate place (path_join (path_join (output_base gen flag) name) "compile_commands.json") = ("compile_commands.json" :: locate (locate place (output_base gen flag)) name)%list.
  Proof. intros name. rewrite !locate_join. reflexivity. Qed.
  Lemma file_says : forall path text, In (path, text) files -> exists name, has_config name ts /\ stored_at place gen flag name path /\ database place mac flag ts name text.
  Proof.
    intros path text H. unfold generate_output in H. cbv zeta in H. rewrite base_is in H. apply in_map_iff in H. destruct H as ((name & es) & E & I). cbn [fst snd] in E. injection E as <- <-. apply in_all in I. destruct I as [Hn ->]. exists name. split; [exact Hn|]. split; [apply path_of|].
    destruct (jobs_exist place placed mac out name ts dicts) as (js & J & D). exists (map obj (flat_map (entries_of place mac out name) ts)), js. split; [apply parse_dump|]. split; [exact J|]. exact D.
  Qed.
  Lemma file_there : forall name, has_config name ts -> exists path text, In (path, text) files /\ stored_at place gen flag name path /\ database place mac flag ts name text.
  Proof.
    intros name H. apply all_in in H. eexists _, _. split; [unfold generate_output; cbv zeta; rewrite base_is; apply in_map_iff; eexists; split; [reflexivity|exact H]|]. cbn [fst snd]. split; [apply path_of|].
    destruct (jobs_exist place placed mac out name ts dicts) as (js & J & D). exists (map obj (flat_map (entries_of place mac out name) ts)), js. split; [apply parse_dump|]. split; [exact J|]. exact D.
  Qed.
  Lemma one_each : (forall name, has_config name ts -> name_ok name) -> NoDup (map (fun f => locate place (fst f)) files).
  Proof.
    intros P. unfold generate_output. cbv zeta. rewrite base_is, map_map. cbn [fst].
    assert (ND : NoDup (map fst all)) by (apply keys_NoDup; constructor). assert (H : forall e, In e all -> name_ok (fst e)) by (intros (n & es) I; apply P, (proj1 (in_all n es I))).
    revert ND H. generalize all. intros l. induction l as [|[n es] l IH]; intros ND H; [constructor|]. cbn [map fst]. cbn [map fst] in ND. apply NoDup_cons_iff in ND. destruct ND as [N ND].
    constructor; [|apply IH; [exact ND|intros; apply H; right; assumption]]. rewrite path_of. intros I. apply in_map_iff in I. destruct I as ((n' & es') & E & I). cbn [fst] in E. rewrite path_of in E.
    assert (L : forall x, name_ok x -> locate (locate place (output_base gen flag)) x = (x :: locate place (output_base gen flag))%list).
    { intros x (S & A & B & C). unfold locate at 1. rewrite split_char_none by exact S. assert (X : isabs x = false) by (destruct x as [|z x]; [congruence|]; cbn in S |- *; apply orb_false_iff in S; destruct S as [S _]; rewrite Ascii.eqb_sym; exact S). rewrite X. cbn [walk fold_left]. unfold step. destruct (String.eqb_spec x ""), (String.eqb_spec x "."), (String.eqb_spec x ".."); try contradiction; reflexivity. }
    rewrite (L n' (H (n', es') (or_intror I))), (L n (H (n, es) (or_introl eq_refl))) in E. injection E as ->. apply N. apply in_map_iff. exists (n, es'). auto.
  Qed.
End Files.
Lemma listed_fun : forall l r r', listed l r -> listed l r' -> r = r'.
Proof.
  intros l r r' H. revert r'. induction H as [|s l r S H IH|s l r N M H IH]; intros r' H'; inversion H'; subst; try tauto; [f_equal; auto|auto].
Qed.
Lemma jobs_fun : forall name ts js js', Forall (fun t => NoDup (map fst (configurations t))) ts -> jobs name ts js -> jobs name ts js' -> js = js'.
Proof.
  intros name ts js js' F H. revert js'. induction H as [|t c srcs ts js C L H IH|t ts js N H IH]; intros js' H'; inversion H' as [|t' c' srcs' ts' js2 C' L' H2|t' ts' js2 N' H2]; subst.
  - reflexivity.
  - apply Forall_cons_iff in F. destruct F as [ND F]. rewrite (IH F js2 H2). f_equal. rewrite (listed_fun _ _ _ L L'). assert (c = c') as ->; [|reflexivity].
    apply (In_assoc _ name c _ ND) in C. apply (In_assoc _ name c' _ ND) in C'. congruence.
  - exfalso. apply N'. apply in_map_iff. exists (name, c). auto.
  - exfalso. apply N. apply in_map_iff. exists (name, c'). auto.
  - apply Forall_cons_iff in F. destruct F as [_ F]. auto.
Qed.

(** Some word has an expansion in it. *)
Definition live (r : option (list (list atom))) : bool := match r with Some l => existsb (existsb (fun a => match a with Expansion => true | Ch _ => false end)) l | None => false end.
Lemma literal_dead : forall ws, live (Some (map literal ws)) = false.
Proof.
  induction ws as [|w ws IH]; [reflexivity|]. cbn [live map existsb] in *. rewrite IH, orb_false_r. unfold literal. induction (chars w) as [|c l IHl]; [reflexivity|exact IHl].
Qed.
