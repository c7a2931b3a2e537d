From Verif Require Import Lib Str LibFacts StrFacts Model_Names Model_Path Model_Make Model_Writer Model_Remake Model_Quote Spec_Quote Proof_Quote Spec_Make Spec_Writer Spec_Remake Proof_Make Proof_Writer Proof_Writer2 Proof_Writer3.
Local Open Scope string_scope.

Lemma forced_intro : forall rs r x, In r rs -> In x (heads r) -> forced r = true -> forced_of rs x = true.
Proof. intros rs r x I H F. unfold forced_of. apply existsb_exists. exists r. split; [|exact F]. unfold rules_for. apply filter_In. split; [exact I|apply mem_In; exact H]. Qed.
Lemma write_do_cmd_single : forall sha1 o ins c, write_do_cmd sha1 [o] ins c = [{| heads := [o]; needs := ins; orders := []; forced := true; recipe := [Do c] |}].
Proof. reflexivity. Qed.
Lemma noticed_tracked : forall t x, noticed t x -> In x (tracked t).
Proof.
  intros t x [a o I E|c f I J|s I C|T|T N]; unfold tracked.
  - apply in_or_app. left. apply in_flat_map. exists a. split; [exact I|]. unfold action_files. rewrite E. left. reflexivity.
  - do 2 (apply in_or_app; right). apply in_or_app. left. apply in_flat_map. exists c. split; [exact I|]. unfold copy_files_of. apply in_map. exact J.
  - do 3 (apply in_or_app; right). apply in_or_app. left. apply compiles_iff. exists s. auto.
  - do 4 (apply in_or_app; right). apply in_or_app. left. destruct (type t); try (left; reflexivity). congruence.
  - do 5 (apply in_or_app; right). rewrite T. destruct (String.eqb_spec (install_path t) (binary t)); [contradiction|]. left. reflexivity.
Qed.
Section Remake.
Variable sha1 : string -> string.
Variable needed : string -> bool.
Variables (ts : list target) (rs : list written).
Hypothesis (ND : NoDup (map qualified ts)) (G : makefile sha1 needed ts = Some rs).
Lemma noticed_forced : forall t x, In t ts -> noticed t x -> forced_of rs x = true.
Proof.
  intros t x I N. destruct (part_of sha1 needed ts rs ND G t I) as (de & li & IN & _). destruct N as [a o A E|c f A J|s A C|T|T N].
  - apply (forced_intro rs {| heads := [output t o]; needs := map (input t) (action_inputs a); orders := []; forced := true; recipe := [Do (action_variable t (action_name a))] |}); [|left; reflexivity|reflexivity].
    apply IN. unfold write_all. apply in_or_app. left. apply in_flat_map. exists a. split; [exact A|]. unfold write_action. rewrite E. left. reflexivity.
  - apply (forced_intro rs {| heads := [copy_output t c f]; needs := [input t f]; orders := []; forced := true; recipe := [Do "copy"] |}); [|left; reflexivity|reflexivity].
    apply IN. unfold write_all. do 2 (apply in_or_app; right). apply in_or_app. left. apply in_flat_map. exists c. split; [exact A|]. unfold write_copy. apply in_flat_map. exists f. split; [exact J|]. left. reflexivity.
  - apply (forced_intro rs {| heads := [object_of t s]; needs := [input t s]; orders := []; forced := true; recipe := [Do_tracked (compiler s)] |}); [|left; reflexivity|reflexivity].
    apply IN. apply (in_sources sha1 t de li _ (object_of t s)); [exists s; auto|]. unfold write_sources. do 2 (apply in_or_app; right). apply in_flat_map. exists s. split; [unfold compiled; apply filter_In; split; assumption|left; reflexivity].
  - assert (R : exists ins c, In {| heads := [binary t]; needs := ins; orders := []; forced := true; recipe := [Do c] |} (write_binary sha1 t de (objects t ++ linked t ++ li))).
    { unfold write_binary. destruct (type t); try (eexists _, _; left; reflexivity). congruence. }
    destruct R as (ins & c & R). apply (forced_intro rs _ (binary t) (IN _ (in_binary sha1 t de li _ _ R))); [left; reflexivity|reflexivity].
  - apply (forced_intro rs {| heads := [install_path t]; needs := [binary t]; orders := []; forced := true; recipe := [Do "copy"] |}); [|left; reflexivity|reflexivity].
    apply IN. apply in_final. unfold write_final. rewrite T. do 3 (apply in_or_app; right). apply in_or_app. right. apply in_or_app. left. destruct (String.eqb_spec (install_path t) (binary t)); [contradiction|left; reflexivity].
Qed.
Lemma noticed_runs : forall t x st text, In t ts -> noticed t x -> runs rs (all_deps ts) st x (text x) = must_run st (rule_of rs text x).
Proof.
  intros t x st text I N. unfold runs, out_of_date. rewrite (noticed_forced t x I N). cbn [orb andb]. unfold must_run, rule_of, watched, visible, saved_command, saved_deps. cbn [out inputs command].
  assert (M : mem x (all_deps ts) = true) by (apply mem_In; unfold all_deps; apply in_flat_map; exists t; split; [exact I|exact (noticed_tracked t x N)]). rewrite M.
  destruct (saved st x) as [[c l]|]; reflexivity.
Qed.
Lemma newer_late : forall st x y, newer st x y = true <-> late st x y.
Proof.
  intros st x y. unfold newer, late. destruct (files st x) as [e|]; [destruct (files st y) as [f|]|]; split; try (intros; discriminate); try reflexivity.
  - intros H e' f' E F. injection E as <-. injection F as <-. apply Nat.ltb_lt. exact H.
  - intros H. apply Nat.ltb_lt. apply H; reflexivity.
Qed.
Lemma needs_feeds : forall x y, In y (needs_of rs x) <-> feeds rs x y.
Proof.
  intros x y. unfold needs_of, rules_for, feeds. rewrite in_flat_map. split.
  - intros (r & F & J). apply filter_In in F. exists r. split; [apply F|split; [apply mem_In; apply F|exact J]].
  - intros (r & R & H & J). exists r. split; [apply filter_In; split; [exact R|apply mem_In; exact H]|exact J].
Qed.
Lemma orders_in : forall x y, In y (orders_of rs x) <-> exists r, In r rs /\ In x (heads r) /\ In y (orders r).
Proof.
  intros x y. unfold orders_of, rules_for. rewrite in_flat_map. split.
  - intros (r & F & J). apply filter_In in F. exists r. split; [apply F|split; [apply mem_In; apply F|exact J]].
  - intros (r & R & H & J). exists r. split; [apply filter_In; split; [exact R|apply mem_In; exact H]|exact J].
Qed.
Lemma all_in : forall x y, In y (needs_of rs x ++ orders_of rs x) <-> prerequisite rs x y.
Proof.
  intros x y. rewrite in_app_iff, needs_feeds, orders_in. unfold feeds, prerequisite. split.
  - intros [(r & R & H & J)|(r & R & H & J)]; exists r; (split; [exact R|split; [exact H|apply in_or_app; auto]]).
  - intros (r & R & H & J). apply in_app_or in J. destruct J; [left|right]; exists r; auto.
Qed.
Lemma command_differs : forall st x text, command_changed text (saved_command st x) = true <-> other_command st x text.
Proof.
  intros st x text. unfold other_command, saved_command. destruct (saved st x) as [[c l]|]; (split; [intros H E|intros N]).
  - subst c. rewrite (proj2 (changed_iff text text) eq_refl) in H. discriminate.
  - destruct (command_changed text c) eqn:Q; [reflexivity|]. apply changed_iff in Q. congruence.
  - subst text. discriminate.
  - destruct (command_changed text "") eqn:Q; [reflexivity|]. apply changed_iff in Q. contradiction.
Qed.
Lemma remade_iff : forall t x st text, In t ts -> noticed t x -> (runs rs (all_deps ts) st x text = true <-> reason rs st x text).
Proof.
  intros t x st text I N. rewrite (noticed_runs t x st (fun _ => text) I N). unfold must_run, rule_of, reason. cbn [out inputs command]. rewrite orb_true_iff, command_differs, existsb_exists. split; (intros [H|(y & J & L)]; [left; exact H|right; exists y]).
  - split; [|apply newer_late; exact L]. apply in_app_or in J. destruct J as [J|J]; [left; apply needs_feeds; exact J|right]. unfold saved_deps in J. destruct (saved st x) as [[c l]|] eqn:V; [exists c, l; auto|destruct J].
  - split; [|apply newer_late; exact L]. apply in_or_app. destruct J as [J|(c & l & V & J)]; [left; apply needs_feeds; exact J|right]. unfold saved_deps. rewrite V. exact J.
Qed.
End Remake.

(** Commands. *)
Lemma assoc_rev : forall (l : list (string * string)) k v, NoDup (map fst l) -> In (k, v) l -> assoc k (rev l) = Some v.
Proof.
  induction l as [|[a b] l IH]; intros k v N I; [destruct I|]. cbn [map fst] in N. apply NoDup_cons_iff in N. destruct N as [NI N]. cbn [rev]. rewrite assoc_app. destruct I as [E|I].
  - injection E as -> ->. assert (Q : assoc k (rev l) = None).
    { destruct (assoc k (rev l)) as [w|] eqn:Q; [|reflexivity]. destruct NI. apply assoc_In in Q. apply in_rev in Q. exact (in_map fst _ _ Q). }
    rewrite Q. cbn [assoc]. rewrite String.eqb_refl. reflexivity.
  - rewrite (IH k v N I). reflexivity.
Qed.
Lemma own_command : forall ts t a, NoDup (map fst (definitions ts)) -> In t ts -> In a (actions t) -> value_of (definitions ts) (action_variable t (action_name a)) = Some (action_text t a).
Proof.
  intros ts t a N I A. apply assoc_rev; [exact N|]. unfold definitions. apply in_flat_map. exists t. split; [exact I|]. unfold definitions_of. apply in_or_app. left. apply in_map_iff. exists a. split; [reflexivity|exact A].
Qed.
Lemma variable_word : forall s, Model_Release.all_chars word_char s = true -> variable_name s = s.
Proof. induction s as [|a s IH]; intros H; [reflexivity|]. cbn [Model_Release.all_chars] in H. apply andb_true_iff in H. cbn [variable_name]. rewrite (proj1 H), (IH (proj2 H)). reflexivity. Qed.
Lemma variable_app : forall a b, variable_name (a ++ b) = variable_name a ++ variable_name b.
Proof. induction a as [|x a IH]; intros b; [reflexivity|]. cbn [append variable_name]. rewrite IH. reflexivity. Qed.
Lemma same_variable : forall t a b, Model_Release.all_chars word_char a = true -> Model_Release.all_chars word_char b = true -> action_variable t a = action_variable t b -> a = b.
Proof.
  intros t a b A B E. unfold action_variable in E. rewrite !variable_app, (variable_word a A), (variable_word b B) in E. apply append_inj_l in E. apply append_inj_l in E. exact E.
Qed.

Lemma distinct_variables : forall t, rules t = [] -> NoDup (map action_name (actions t)) -> (forall a, In a (actions t) -> Model_Release.all_chars word_char (action_name a) = true) -> NoDup (map fst (definitions [t])).
Proof.
  intros t R N W. unfold definitions. cbn [flat_map]. unfold definitions_of. rewrite R. cbn [flat_map]. rewrite !app_nil_r, map_map. cbn [fst]. induction (actions t) as [|a l IH]; [constructor|]. cbn [map] in *. apply NoDup_cons_iff in N. destruct N as [N1 N2]. constructor.
  - intros I. apply in_map_iff in I. destruct I as (b & E & J). apply N1. apply in_map_iff. exists b. split; [|exact J]. apply (same_variable t); [apply W; right; exact J|apply W; left; reflexivity|exact E].
  - apply IH; [exact N2|]. intros b J. apply W. right. exact J.
Qed.

Lemma rstrip_app : forall d c, c <> "/"%char -> rstrip "/" (d ++ String c "/") = d ++ String c "".
Proof.
  induction d as [|a d IH]; intros c N; [cbn; destruct (Ascii.eqb_spec c "/"); [contradiction|reflexivity]|]. cbn [append rstrip]. rewrite (IH c N). destruct d; reflexivity.
Qed.
Lemma not_slashes : forall d c, c <> "/"%char -> all_slashes (d ++ String c "/") = false.
Proof. induction d as [|a d IH]; intros c N; cbn; [destruct (Ascii.eqb_spec c slash); [contradiction|reflexivity]|]. rewrite (IH c N). apply andb_false_r. Qed.
Lemma action_directory : forall o mk, directory o mk -> forall c, (match output_dirs [o] with [] => c | ds => "mkdir -p " ++ join_with " " ds ++ "; " ++ c end) = mk ++ c.
Proof.
  intros o mk D c. unfold output_dirs. cbn [map filter]. destruct D as [o H|d b a H N].
  - unfold path_split. rewrite (proj2 (rsplit1_None slash o) H). reflexivity.
  - assert (P : path_split (d ++ String a ("/" ++ b)) = (d ++ String a "", b)).
    { unfold path_split. assert (R : rsplit1 slash (d ++ String a ("/" ++ b)) = Some (d ++ String a "", b)) by (apply rsplit1_Some; split; [rewrite append_assoc; reflexivity|exact H]). rewrite R. assert (Z : ((d ++ String a "") ++ String slash "")%string = d ++ String a "/") by (rewrite append_assoc; reflexivity). rewrite Z, (not_slashes d a N). f_equal. exact (rstrip_app d a N). }
    rewrite P. cbn [fst]. destruct (String.eqb_spec (d ++ String a "") "") as [E|_]; [destruct d; discriminate|]. cbn. rewrite !append_assoc. reflexivity.
Qed.
Lemma place_spec : forall t, cd_action t = "cd " ++ place t ++ "; ".
Proof.
  intros t. unfold cd_action, place, sourceify. destruct (path t) as [|a p]; [reflexivity|]. destruct (Ascii.eqb_spec a "/") as [->|N].
  - cbn [isabs]. destruct (contains "$(" (String "/" p)); reflexivity.
  - cbn [isabs]. assert (Q : Ascii.eqb a "/" = false) by (apply Ascii.eqb_neq; exact N). unfold slash. rewrite Q.
    destruct a as [[] [] [] [] [] [] [] []]; try reflexivity. destruct N. reflexivity.
Qed.
Lemma own_text : forall ts t a o, NoDup (map fst (definitions ts)) -> In t ts -> In a (actions t) -> action_outputs a = [o] -> (exists mk, directory o mk) ->
  exists v, value_of (definitions ts) (action_variable t (action_name a)) = Some v /\ runs_action t a o v.
Proof.
  intros ts t a o N I A E [mk D]. exists (action_text t a). split; [exact (own_command ts t a N I A)|]. exists mk, (encode_posix_shell_list (action_command a)). split; [exact D|]. split; [exact (posix_list (action_command a))|].
  unfold action_text. rewrite E, (action_directory o mk D), place_spec. unfold hard_target, library_path. reflexivity.
Qed.
