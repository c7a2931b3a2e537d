(** What a custom build does, needs and makes. *)
From Verif Require Import Lib LibFacts Str StrFacts Model_Path Proof_Path Proof_Path2 Spec_Path Model_Vcxproj Spec_Vcxproj Spec_Custom Proof_Vcxproj Proof_Vcxproj2 Proof_Vcxproj3 Proof_Vcxproj4 Proof_Custom Proof_Custom2.
Local Open Scope string_scope.

(** ** lists of files *)
Lemma semicolons_nonempty : forall s, semicolons s <> [].
Proof. induction s as [|a s IH]; cbn [semicolons]; [discriminate|]. destruct (Ascii.eqb a ";"); [discriminate|]. destruct (semicolons s); [contradiction|discriminate]. Qed.
Lemma semicolons_app : forall a b, semicolons (a ++ ";" ++ b) = (semicolons a ++ semicolons b)%list.
Proof.
  induction a as [|x a IH]; intros b; [reflexivity|]. change (semicolons (String x a ++ ";" ++ b)) with (if Ascii.eqb x ";" then "" :: semicolons (a ++ ";" ++ b) else match semicolons (a ++ ";" ++ b) with y :: l => String x y :: l | [] => [] end). rewrite IH. cbn [semicolons]. destruct (Ascii.eqb x ";"); [reflexivity|]. pose proof (semicolons_nonempty a) as N. destruct (semicolons a); [contradiction|reflexivity].
Qed.
Lemma reads_concat : forall l, reads (String.concat ";" l) = flat_map reads l.
Proof.
  induction l as [|a l IH]; [reflexivity|]. rewrite concat_cons. destruct l as [|b l]; [cbn [flat_map]; rewrite app_nil_r; reflexivity|]. cbn [flat_map] in *. rewrite <- IH. unfold reads. rewrite semicolons_app, map_app, filter_app. reflexivity.
Qed.
Lemma fold_update_In : forall {A} (g : A -> list string) l s x, In x (fold_left (fun s j => update s (update [] (g j))) l s) <-> In x s \/ exists j, In j l /\ In x (g j).
Proof.
  intros A g. induction l as [|j l IH]; intros s x; cbn [fold_left]; [split; [auto|intros [H|(j & [] & _)]; exact H]|]. rewrite IH, !update_In. split.
  - intros [[H|[[]|H]]|(i & I & H)]; [left; exact H|right; exists j; split; [left; reflexivity|exact H]|right; exists i; split; [right; exact I|exact H]].
  - intros [H|(i & [<-|I] & H)]; [left; left; exact H|left; right; right; exact H|right; exists i; split; [exact I|exact H]].
Qed.

(** ** copies *)
Lemma parts_plain : forall a s, has_char """" a = false -> has_char "&" a = false -> parts false (a ++ s) = match parts false s with x :: l => (a ++ x) :: l | [] => [] end.
Proof.
  induction a as [|x a IH]; intros s Q A; [cbn [append]; destruct (parts false s); reflexivity|]. cbn [has_char] in Q, A. destruct (Ascii.eqb x """") eqn:E1; [discriminate|]. destruct (Ascii.eqb x "&") eqn:E2; [discriminate|]. cbn [append parts]. rewrite E1, E2, (IH s Q A). cbn [andb]. destruct (parts false s); reflexivity.
Qed.
Lemma parts_true : forall x s, has_char """" x = false -> parts true (x ++ String """" s) = match parts false s with y :: l => (x ++ String """" y) :: l | [] => [] end.
Proof.
  induction x as [|a x IH]; intros s Q; [reflexivity|]. cbn [has_char] in Q. destruct (Ascii.eqb a """") eqn:E1; [discriminate|]. cbn [append parts]. rewrite E1, (IH s Q). rewrite andb_false_r. destruct (parts false s); reflexivity.
Qed.
Lemma parts_quoted : forall x s, has_char """" x = false -> parts false (quoted x ++ s) = match parts false s with y :: l => (quoted x ++ y) :: l | [] => [] end.
Proof.
  intros x s Q. assert (E : forall t, quoted x ++ t = String """" (x ++ String """" t)) by (intros t; unfold quoted; rewrite !append_assoc; reflexivity). rewrite E. cbn [parts]. change (Ascii.eqb """" "&") with false. change (Ascii.eqb """" """") with true. cbn [andb negb]. rewrite (parts_true x s Q). destruct (parts false s) as [|y l]; [reflexivity|]. rewrite E. reflexivity.
Qed.
Lemma quoted_end : forall x, exists t, quoted x = t ++ String """" "".
Proof. intros x. exists (String """" x). reflexivity. Qed.
Lemma copy_parts : forall d s t, has_char """" d = false -> has_char """" s = false -> has_char """" t = false ->
  map simple (parts false ("mkdir " ++ quoted d ++ " 2>nul & set ERRORLEVEL=0 & copy /Y " ++ quoted s ++ " " ++ quoted t)) = ["mkdir " ++ quoted d ++ " 2>nul"; "set ERRORLEVEL=0"; "copy /Y " ++ quoted s ++ " " ++ quoted t].
Proof.
  intros d s t D S T. rewrite parts_plain by reflexivity. rewrite parts_quoted by exact D.
  assert (E1 : forall r, parts false (" 2>nul & set ERRORLEVEL=0 & copy /Y " ++ r) = " 2>nul " :: " set ERRORLEVEL=0 " :: parts false (" copy /Y " ++ r)) by reflexivity. rewrite E1.
  assert (E2 : parts false (" copy /Y " ++ quoted s ++ " " ++ quoted t) = [" copy /Y " ++ quoted s ++ " " ++ quoted t]).
  { rewrite parts_plain by reflexivity. rewrite parts_quoted by exact S. rewrite parts_plain by reflexivity. rewrite <- (append_nil_r (quoted t)) at 1. rewrite parts_quoted by exact T. cbn [parts]. rewrite append_nil_r. reflexivity. }
  rewrite E2. cbn [map]. replace (simple " set ERRORLEVEL=0 ") with "set ERRORLEVEL=0" by (vm_compute; reflexivity). assert (C3 : forall (a b c d e : string), a = d -> b = e -> [a; c; b] = [d; c; e]) by (intros; subst; reflexivity). apply C3; clear C3.
  - unfold simple. assert (ST : strip ("mkdir " ++ quoted d ++ " 2>nul ") = "mkdir " ++ quoted d ++ " 2>nul").
    { assert (X : "mkdir " ++ quoted d ++ " 2>nul " = ("mkdir " ++ quoted d ++ " 2>nul") ++ " ") by (rewrite !append_assoc; reflexivity). rewrite X. rewrite <- strip_rstrip.
      assert (Y : rstrip_ws (("mkdir " ++ quoted d ++ " 2>nul") ++ " ") = "mkdir " ++ quoted d ++ " 2>nul").
      { assert (Z : forall a, rstrip_ws (a ++ " ") = rstrip_ws a) by (clear; induction a as [|x a IH]; [reflexivity|]; cbn [append rstrip_ws]; rewrite IH; reflexivity). rewrite Z. assert (X2 : "mkdir " ++ quoted d ++ " 2>nul" = ("mkdir " ++ quoted d ++ " 2>nu") ++ String "l" "") by (rewrite !append_assoc; reflexivity). rewrite X2. apply rstrip_nonblank. reflexivity. }
      rewrite Y. apply (strip_ends "m" ("kdir " ++ quoted d ++ " 2>nul") ("mkdir " ++ quoted d ++ " 2>nu") "l"); [|reflexivity|reflexivity]. rewrite !append_assoc. reflexivity. }
    rewrite ST. destruct (String.length _); reflexivity.
  - unfold simple. assert (ST : strip (" copy /Y " ++ quoted s ++ " " ++ quoted t) = "copy /Y " ++ quoted s ++ " " ++ quoted t).
    { change (strip (" copy /Y " ++ quoted s ++ " " ++ quoted t)) with (strip ("copy /Y " ++ quoted s ++ " " ++ quoted t)). destruct (quoted_end t) as (u & U). apply (strip_ends "c" ("opy /Y " ++ quoted s ++ " " ++ quoted t) ("copy /Y " ++ quoted s ++ " " ++ u) """"); [|reflexivity|reflexivity]. rewrite U, !append_assoc. reflexivity. }
    rewrite ST. destruct (String.length _); reflexivity.
Qed.
Lemma leads_joined : forall here d n, relative d -> has_char ":" n = false -> (forall c, In c ["/"; "\"]%char -> has_char c n = false) -> n <> "" -> has_char "$" n = false -> relative (nt_join d n) /\ leads here (nt_join d n) = leads (leads here d) n.
Proof.
  intros here d n D C S N M. pose proof D as D'. apply relative_iff in D'. destruct D' as (D1 & D2 & D3 & D4). pose proof (S "/"%char (or_introl eq_refl)) as S1. pose proof (S "\"%char (or_intror (or_introl eq_refl))) as S2.
  assert (R : rooted n = false). { destruct n as [|a n]; [reflexivity|]. cbn [rooted]. destruct (is_sep a) eqn:E; [|reflexivity]. apply is_sep_iff in E. cbn [has_char] in S1, S2. destruct E as [-> | ->]; discriminate. }
  assert (B : bare n) by (split; [exact R|]; intros a r ->; cbn [has_char] in C; destruct (Ascii.eqb a ":"); discriminate C).
  unfold nt_join. rewrite R, (bare_drive n B). cbn [fst orb]. change (String.eqb "" "") with true. cbn [negb]. assert (ND : String.eqb d "" = false) by (apply String.eqb_neq; exact D1). rewrite ND. cbn [orb]. destruct (ends_sep d) eqn:E.
  - split.
    + apply relative_iff. split; [destruct d; [contradiction|discriminate]|]. rewrite !has_char_app, D2, D3. split; [exact M|]. split; [exact C|]. destruct d; [contradiction|exact D4].
    + destruct (last_char d) as [->|(t & a & ->)]; [contradiction|]. unfold ends_sep in E. assert (L : list_ascii_of_string (t ++ String a "") = (list_ascii_of_string t ++ [a])%list) by (clear; induction t as [|b t IH]; [reflexivity|]; cbn; rewrite IH; reflexivity). rewrite L, rev_app_distr in E. cbn [rev app] in E.
      rewrite append_assoc. cbn [append]. unfold leads. rewrite !pieces_sep by exact E. rewrite !walk_app. reflexivity.
  - split.
    + apply relative_iff. split; [destruct d; [contradiction|discriminate]|]. rewrite !has_char_app, D2, D3. cbn [has_char orb]. split; [exact M|]. split; [exact C|]. destruct d; [contradiction|exact D4].
    + unfold leads. rewrite pieces_sep by reflexivity. rewrite walk_app. reflexivity.
Qed.
Lemma copy_line : forall p d f cp, way (prefix p) -> destination cp = d -> copies_file p (d, f) (job_line (copy_job p cp f)).
Proof.
  intros p d f cp WP D pre n RD RF EF PRE NS NN Q. subst d. set (d := destination cp) in *.
  assert (ES : ends_slash f = false).
  { unfold ends_slash. destruct (last_char n) as [->|(t & a & ->)]; [contradiction|]. rewrite EF. assert (L : forall t, list_ascii_of_string (t ++ String a "") = (list_ascii_of_string t ++ [a])%list) by (clear; induction t as [|b t IH]; [reflexivity|]; cbn; rewrite IH; reflexivity). rewrite <- append_assoc, L, rev_app_distr. cbn [rev app]. pose proof (NS "/"%char (or_introl eq_refl)) as H. rewrite has_char_app in H. apply orb_false_iff in H. destruct H as [_ H]. cbn [has_char] in H. destruct (Ascii.eqb a "/"); [discriminate|reflexivity]. }
  pose proof (NS "/"%char (or_introl eq_refl)) as S1. pose proof (NS "\"%char (or_intror (or_introl eq_refl))) as S2.
  assert (SP : snd (nt_split f) = n).
  { unfold nt_split. rewrite EF. destruct PRE as [->|(r & [-> | ->])]; [cbn [append]; rewrite rsplit_none by assumption; reflexivity| |]; rewrite append_assoc; cbn [append]; rewrite rsplit_app by (reflexivity || assumption); reflexivity. }
  assert (CN : has_char ":" n = false /\ has_char "$" n = false). { apply relative_iff in RF. destruct RF as (_ & F1 & F2 & _). rewrite EF, has_char_app in F1, F2. apply orb_false_iff in F1, F2. tauto. }
  destruct CN as [CN1 CN2]. destruct (leads_joined [] d n RD CN1 NS NN CN2) as (RJ & _).
  assert (QQ : has_char """" (prefix p) = false /\ has_char """" d = false /\ has_char """" f = false) by (split; [apply Q; cbn; auto|split; apply Q; cbn; auto]). destruct QQ as (Q1 & Q2 & Q3). destruct other_dec as (_ & _ & _ & _ & OQ).
  assert (Q4 : has_char """" n = false) by (rewrite EF, has_char_app in Q3; apply orb_false_iff in Q3; tauto).
  exists (fix_path (prefix p) d), (fix_path (prefix p) f), (fix_path (prefix p) (nt_join d n)). split; [|split; [|split]].
  - unfold copy_job. rewrite ES, SP. cbn [job_line]. fold d. rewrite copy_parts by (apply has_fix; [exact OQ|exact Q1|first [exact Q2|exact Q3|apply has_join_path; assumption]]). unfold quoted. rewrite !append_assoc. reflexivity.
  - intros here. apply leads_fix; [exact WP|apply relative_movable; exact RD].
  - intros here. apply leads_fix; [exact WP|apply relative_movable; exact RF].
  - intros here. rewrite leads_fix by (try exact WP; apply relative_movable; exact RJ). apply leads_joined; assumption.
Qed.

(** ** all of it *)
Lemma custom_build : forall cm p k l, macros_kept cm -> way (prefix p) -> plain_project p -> In (k, l) (attached p) -> custom_for p k (custom_of cm p (k, l)).
Proof.
  intros cm p k l MK WP PP I. destruct (attached_grouped p) as (_ & F & _). rewrite Forall_forall in F. specialize (F _ I). cbn [fst snd] in F. pose proof (jobs_plain p PP) as JP.
  assert (PL : Forall (fun j => plain (job_line j)) l) by (rewrite F; apply Forall_forall; intros j J; apply filter_In in J; rewrite Forall_forall in JP; apply JP; apply J).
  assert (IJ : forall a, In a (actions p) -> first p a = k -> In (job_of p a) l).
  { intros a Ia E. rewrite F, filter_jobs. apply in_or_app. left. apply in_map. apply filter_In. split; [exact Ia|]. apply String.eqb_eq. exact E. }
  constructor.
  - intros R L. exists (fix_path (prefix p) k). split; [apply reads_fix; [exact WP|apply relative_movable; exact R|exact L]|]. intros here. apply leads_fix; [exact WP|apply relative_movable; exact R].
  - exists (map job_line (map (fun df => copy_job p {| destination := fst df; files := [] |} (snd df)) (filter (fun df => String.eqb (snd df) k) (copying p)))). split.
    + unfold commands. cbn [custom_of command]. rewrite MK.
      * rewrite commands_script by (apply Forall_forall; intros j J; rewrite Forall_forall in PL; apply PL; exact J). rewrite F, filter_jobs, map_app. f_equal. rewrite map_map. reflexivity.
      * clear - PL. unfold script. induction l as [|j l IH]; [reflexivity|]. inversion PL as [|? ? (_ & D) PL2]; subst. cbn [map]. rewrite concat_cons. assert (X : has_char "$" ("call " ++ job_line j ++ crlf ++ check) = false) by (rewrite !has_char_app, D; reflexivity). destruct (map _ l) eqn:M; [exact X|]. rewrite has_char_app, X. cbn [orb]. rewrite has_char_app. exact (IH PL2).
    + rewrite map_map. generalize (filter (fun df => String.eqb (snd df) k) (copying p)). intros m. induction m as [|[d f] m IH]; constructor; [|exact IH]. cbn [fst snd]. apply copy_line; [exact WP|reflexivity].
  - intros a i Ia E Ii R L. exists (fix_path (prefix p) i). split; [|intros here; apply leads_fix; [exact WP|apply relative_movable; exact R]]. cbn [custom_of attached_to additional_inputs]. assert (RF : In (fix_path (prefix p) i) (reads (fix_path (prefix p) i))) by (rewrite reads_fix by (try assumption; apply relative_movable; exact R); left; reflexivity).
    apply in_or_app. destruct (String.eqb_spec (fix_path (prefix p) i) (fix_path (prefix p) k)) as [EQ|NE]; [left; rewrite EQ in RF at 2; exact RF|]. right. rewrite reads_concat. apply in_flat_map. exists (fix_path (prefix p) i). split; [|exact RF]. apply filter_In. split; [|apply negb_true_iff; apply String.eqb_neq; exact NE]. apply in_map. apply fold_update_In. right. exists (job_of p a). split; [exact (IJ a Ia E)|]. exact Ii.
  - intros a o Ia E Io R L. exists (fix_path (prefix p) o). split; [|intros here; apply leads_fix; [exact WP|apply relative_movable; exact R]]. cbn [custom_of outputs_of]. rewrite reads_concat. apply in_flat_map. exists (fix_path (prefix p) o). split; [|rewrite reads_fix by (try assumption; apply relative_movable; exact R); left; reflexivity].
    apply in_map. apply fold_update_In. right. exists (job_of p a). split; [exact (IJ a Ia E)|]. exact Io.
  - intros NC AL f If. cbn [custom_of outputs_of] in If. rewrite reads_concat in If. apply (proj1 (in_flat_map _ _ _)) in If. destruct If as (o' & Io & If). apply in_map_iff in Io. destruct Io as (o & <- & Io). apply fold_update_In in Io. destruct Io as [[]|(j & J & Io)]. rewrite F, filter_jobs in J. assert (Z : copying p = []) by (unfold copying; rewrite NC; reflexivity). rewrite Z in J. cbn [filter map] in J. rewrite app_nil_r in J. apply in_map_iff in J. destruct J as (a & <- & J). apply filter_In in J. destruct J as [Ia E]. apply String.eqb_eq in E. cbn [job_of job_outputs] in Io.
    destruct (AL a o Ia Io) as (R & L). rewrite reads_fix in If by (try assumption; apply relative_movable; exact R). destruct If as [<-|[]]. exists a, o. split; [exact Ia|]. split; [exact E|]. split; [exact Io|]. intros here. apply leads_fix; [exact WP|apply relative_movable; exact R].
Qed.
Lemma once : forall cm p items customs, generate cm p = inl (items, customs) -> macros_kept cm -> way (prefix p) -> plain_project p ->
  exists ks, NoDup ks /\ (forall a, In a (actions p) -> In (first p a) ks) /\ (forall f, In f (copied p) -> In f ks) /\ Forall2 (custom_for p) ks customs.
Proof.
  intros cm p items customs G MK WP PP. assert (E : customs = map (custom_of cm p) (attached p)).
  { unfold generate in G. destruct (hierarchy p _) as [[l e]|]; [|discriminate]. destruct (items_of p _ _) as [gi|]; [|discriminate]. injection G as _ <-. reflexivity. }
  destruct (attached_grouped p) as (N & F & C). exists (map fst (attached p)). split; [exact N|]. split; [|split].
  - intros a I. assert (K : key (job_of p a) = first p a) by (unfold key, job_of, first; destruct (inputs a); reflexivity). rewrite <- K. apply C. unfold jobs. apply in_or_app. left. apply in_map. exact I.
  - intros f I. unfold copied in I. apply (proj1 (in_flat_map _ _ _)) in I. destruct I as (c & Ic & If). assert (K : key (copy_job p c f) = f) by (unfold key, copy_job; destruct (ends_slash f); reflexivity). rewrite <- K. apply C. unfold jobs. apply in_or_app. right. apply in_flat_map. exists c. split; [exact Ic|apply in_map; exact If].
  - rewrite E. assert (A : forall d, incl d (attached p) -> Forall2 (custom_for p) (map fst d) (map (custom_of cm p) d)).
    { induction d as [|[k l] d IH]; intros I; constructor; [apply custom_build; try assumption; apply I; left; reflexivity|apply IH; intros x J; apply I; right; exact J]. }
    apply A. intros x J. exact J.
Qed.
Lemma order : forall cm p items customs c W tool st, generate cm p = inl (items, customs) -> macros_kept cm -> way (prefix p) -> plain_project p ->
  In c customs -> Forall no_variable (commands c) -> variable st = None -> run_batch W tool (lines (unescape (command c))) st = one_by_one W tool (commands c) st.
Proof.
  intros cm p items customs c W tool st G MK WP PP I NV V. assert (E : customs = map (custom_of cm p) (attached p)).
  { unfold generate in G. destruct (hierarchy p _) as [[l e]|]; [|discriminate]. destruct (items_of p _ _) as [gi|]; [|discriminate]. injection G as _ <-. reflexivity. }
  rewrite E in I. apply in_map_iff in I. destruct I as ([k l] & <- & I). destruct (attached_grouped p) as (_ & F & _). rewrite Forall_forall in F. specialize (F _ I). cbn [fst snd] in F. pose proof (jobs_plain p PP) as JP.
  assert (PL : Forall (fun j => plain (job_line j)) l) by (rewrite F; apply Forall_forall; intros j J; apply filter_In in J; rewrite Forall_forall in JP; apply JP; apply J).
  assert (PL' : Forall (fun j => plain_line (job_line j)) l) by (apply Forall_forall; intros j J; rewrite Forall_forall in PL; apply PL; exact J).
  assert (EC : cm (script l) = script l).
  { apply MK. clear - PL. unfold script. induction l as [|j l IH]; [reflexivity|]. inversion PL as [|? ? (_ & D) PL2]; subst. cbn [map]. rewrite concat_cons. assert (X : has_char "$" ("call " ++ job_line j ++ crlf ++ check) = false) by (rewrite !has_char_app, D; reflexivity). destruct (map _ l) eqn:M; [exact X|]. rewrite has_char_app, X. cbn [orb]. rewrite has_char_app. exact (IH PL2). }
  unfold commands in *. cbn [custom_of command] in *. rewrite EC in *. rewrite commands_script in * by exact PL'. destruct l as [|j l].
  - reflexivity.
  - destruct (script_lines (j :: l)) as (A & B); [discriminate|exact PL'|]. rewrite A, B. apply run_script; [exact V|]. rewrite Forall_forall in *. intros x X. apply NV. apply in_map. exact X.
Qed.
