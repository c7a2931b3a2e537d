(** The Makefile's command line for itself. *)
From Coq Require Import ZArith Lia.
From Verif Require Import Lib Str LibFacts StrFacts Model_Path Spec_Path Proof_Path Proof_Path2 Model_Args Spec_Args Proof_Args Proof_Args2 Proof_Configure.
Local Open Scope string_scope.

(** How a relative path begins. *)
Lemma join_begins : forall l a s, (forall x, In x l -> has_char slash x = false) -> exists t, fold_left path_join l (String a s) = String a t.
Proof.
  induction l as [|x l IH]; intros a s H; cbn [fold_left]; [exists s; reflexivity|]. assert (N : isabs x = false) by (pose proof (H x (or_introl eq_refl)) as Hx; destruct x as [|c x]; [reflexivity|]; cbn in *; destruct (Ascii.eqb c slash); congruence).
  assert (E : exists s', path_join (String a s) x = String a s') by (unfold path_join; rewrite N; destruct (ends_slash (String a s)); eexists; reflexivity). destruct E as (s' & ->). apply IH. intros y I. apply H. right. exact I.
Qed.
Lemma relative_begins : forall cwd path rel a s, place_ok cwd -> relative_path (plain_realpath cwd) path rel = String a s -> a = "."%char \/ exists c, In c (locate cwd path) /\ begins a c.
Proof.
  intros cwd path rel a s H. unfold relative_path, plain_realpath. set (p := locate cwd path). set (r := locate cwd rel). assert (Hp : place_ok p) by (apply locate_ok; exact H). assert (Hr : place_ok r) by (apply locate_ok; exact H). rewrite !split_absolute by assumption.
  set (ps := ("" :: match p with [] => [""] | _ => rev p end)%list). set (rs := ("" :: match r with [] => [""] | _ => rev r end)%list).
  set (k := common_prefix_length ps rs). assert (Hk : 1 <= k) by (unfold k, ps, rs; cbn [common_prefix_length]; rewrite String.eqb_refl; lia).
  assert (Hps : forall x, In x ps -> has_char slash x = false).
  { intros x [<-|Hx]; [reflexivity|]. destruct p as [|b p]; [destruct Hx as [<-|[]]; reflexivity|]. apply in_rev in Hx. unfold place_ok in Hp. rewrite Forall_forall in Hp. apply Hp. exact Hx. }
  set (l := (repeat dotdot (List.length rs - k) ++ skipn k ps)%list). assert (Hl : forall x, In x l -> has_char slash x = false).
  { intros x Hx. apply in_app_or in Hx. destruct Hx as [Hx|Hx]; [apply repeat_spec in Hx; rewrite Hx; reflexivity|]. apply Hps. rewrite <- (firstn_skipn k ps). apply in_or_app. right. exact Hx. }
  destruct l as [|c l'] eqn:El; [discriminate|]. cbn [path_join_list]. intros E.
  destruct (List.length rs - k) as [|n] eqn:En.
  - cbn [repeat app] in El. assert (I : In c (skipn k ps)) by (unfold l in El; cbn [repeat app] in El; rewrite El; left; reflexivity).
    assert (J : In c (tl ps)) by (destruct k as [|k']; [lia|]; unfold ps in *; cbn [skipn tl] in *; rewrite <- (firstn_skipn k' _); apply in_or_app; right; exact I).
    unfold ps in J. cbn [tl] in J. destruct p as [|b p'] eqn:Ep.
    + exfalso. assert (k = 2); [|subst k; rewrite H0 in I; cbn in I; exact I]. pose proof (proj1 (proj2 (common_prefix_spec ps rs))) as K. fold k in K. change (List.length ps) with 2 in K. assert (2 <= List.length rs) by (unfold rs; destruct r; [cbn; lia|cbn [List.length]; rewrite rev_length; cbn; lia]). lia.
    + apply in_rev in J. right. exists c. split; [exact J|]. assert (N : c <> "") by (unfold place_ok in Hp; rewrite Forall_forall in Hp; apply (Hp c J)). destruct c as [|x c]; [congruence|]. destruct (join_begins l' x c (fun y I => Hl y (or_intror I))) as (t & T). rewrite T in E. injection E as <- _. exists c. reflexivity.
  - cbn [repeat app] in El. injection El as <- _. left. destruct (join_begins l' "." "." (fun y I => Hl y (or_intror I))) as (t & T). change (fold_left path_join l' dotdot) with (fold_left path_join l' "..") in E. rewrite T in E. congruence.
Qed.

(** Keeping only the last of equal definitions changes nothing. *)
Definition dedupe (l : list string) : list string := fold_left (fun l v => (remove_first v l ++ [v])%list) l [].
Lemma dedupe_snoc : forall l x, dedupe (l ++ [x]) = (remove_first x (dedupe l) ++ [x])%list.
Proof. intros. unfold dedupe. rewrite fold_left_app. reflexivity. Qed.
Lemma remove_In : forall x l v, In v (remove_first x l) -> In v l.
Proof. intros x l v. induction l as [|y l IH]; [intros []|]. cbn [remove_first]. destruct (String.eqb x y); [right; assumption|]. intros [<-|I]; [left; reflexivity|right; auto]. Qed.
Lemma dedupe_In : forall l v, In v (dedupe l) -> In v l.
Proof.
  induction l as [|x l IH] using rev_ind; intros v I; [exact I|]. rewrite dedupe_snoc in I. apply in_app_or in I. apply in_or_app. destruct I as [I|I]; [left; apply IH; exact (remove_In _ _ _ I)|right; exact I].
Qed.
Lemma last_cons : forall x l k v, last_says (x :: l) k v <-> last_says l k v \/ (defines_as x k v /\ forall i w, In i l -> ~ defines_as i k w).
Proof.
  intros x l k v. change (x :: l) with ([x] ++ l)%list. rewrite last_app. assert (S : last_says [x] k v <-> defines_as x k v); [|rewrite S; reflexivity]. split.
  - intros (a & i & b & E & D & _). destruct a as [|y a]; [injection E as -> _; exact D|]. destruct a; discriminate.
  - intros D. exists [], x, []. split; [reflexivity|]. split; [exact D|intros i w []].
Qed.
Lemma remove_irrelevant : forall x l k v, (forall w, ~ defines_as x k w) -> (last_says (remove_first x l) k v <-> last_says l k v).
Proof.
  intros x l k v N. induction l as [|y l IH]; [reflexivity|]. cbn [remove_first]. destruct (String.eqb_spec x y) as [<-|NE].
  - rewrite last_cons. split; [left; assumption|]. intros [H|[H _]]; [exact H|destruct (N _ H)].
  - rewrite !last_cons, IH. split; (intros [H|[H M]]; [left; exact H|right; split; [exact H|]]); intros i w I D.
    + destruct (String.eqb_spec i x) as [->|NI]; [exact (N _ D)|]. apply (M i w); [|exact D]. clear - I NI. induction l as [|z l IHl]; [destruct I|]. cbn [remove_first]. destruct (String.eqb_spec x z) as [<-|Q]; [destruct I as [I|I]; [congruence|exact I]|]. destruct I as [I|I]; [left; exact I|right; auto].
    + exact (M i w (remove_In _ _ _ I) D).
Qed.
Lemma dedupe_says : forall l k v, last_says (dedupe l) k v <-> last_says l k v.
Proof.
  induction l as [|x l IH] using rev_ind; intros k v; [reflexivity|]. rewrite dedupe_snoc, !last_app. split; (intros [H|[H N]]; [left; exact H|right; split; [|exact N]]); assert (M : forall w, ~ defines_as x k w) by (intros w; apply N; left; reflexivity).
  - apply (remove_irrelevant x (dedupe l) k v M) in H. apply IH. exact H.
  - apply (remove_irrelevant x (dedupe l) k v M). apply IH. exact H.
Qed.
Lemma dedupe_mapping : forall l m k, assoc k (name_value_dict (dedupe l ++ m)) = assoc k (name_value_dict (l ++ m)).
Proof.
  intros l m k. assert (E : forall v, assoc k (name_value_dict (dedupe l ++ m)) = Some v <-> assoc k (name_value_dict (l ++ m)) = Some v) by (intros v; rewrite !name_value_iff, !last_app, dedupe_says; reflexivity).
  destruct (assoc k (name_value_dict (dedupe l ++ m))) as [v|] eqn:A; [symmetry; apply E; reflexivity|]. destruct (assoc k (name_value_dict (l ++ m))) as [v|] eqn:B; [|reflexivity]. destruct (E v) as [_ F]. discriminate (F eq_refl).
Qed.

(** Reading the flags back. *)
Definition reads (seg : list string) (es : list event) : Prop := forall ws, parse (seg ++ ws) = option_map (app es) (parse ws).
Lemma reads_nil : reads [] [].
Proof. intros ws. cbn [app]. destruct (parse ws); reflexivity. Qed.
Lemma reads_app : forall a ea b eb, reads a ea -> reads b eb -> reads (a ++ b) (ea ++ eb).
Proof. intros a ea b eb A B ws. rewrite <- app_assoc, A, B. destruct (parse ws) as [l|]; [cbn; rewrite app_assoc; reflexivity|reflexivity]. Qed.
Lemma reads_attached : forall c o v, In (c, o) short_options -> ~ In o switches -> ~ In o enders -> attachable v -> reads [String "-" (String c v)] [Given o v].
Proof.
  intros c o v I S E [NE NB] ws. destruct v as [|a v]; [congruence|]. cbn [app]. rewrite (parse_attached c o a v ws I S E); [reflexivity|]. intros ->. apply NB. exists v. reflexivity.
Qed.
Lemma reads_equals : forall n o v, In (n, o) long_options -> ~ In o switches -> ~ In o enders -> reads [("--" ++ n ++ "=" ++ v)%string] [Given o v].
Proof.
  intros n o v I S E ws. cbn [app parse]. assert (O : option_word ("--" ++ n ++ "=" ++ v) o (Some v)) by (apply ow_long_equals; [exact (proj1 (long_no_equals n o I))|left; exact I]). pose proof (option_not_dashes _ _ _ O) as ND. apply (option_class _ _ _ ND) in O. apply String.eqb_neq in ND. rewrite ND, O, (proj2 (value_iff o) (conj S E)). destruct (parse ws); reflexivity.
Qed.
Lemma reads_each : forall {A} (f : A -> string) o (g : A -> string) l, (forall v, In v l -> reads [f v] [Given o (g v)]) -> reads (map f l) (map (fun v => Given o (g v)) l).
Proof.
  intros A f o g l. induction l as [|v l IH]; intros H; [exact reads_nil|]. apply (reads_app [f v] [Given o (g v)] (map f l) (map (fun v => Given o (g v)) l)); [apply H; left; reflexivity|apply IH; intros w I; apply H; right; exact I].
Qed.
Lemma fold_dedupe : forall o f l, (forall a b, format_opt o a = format_opt o b -> a = b) -> (forall v, f v = v) ->
  fold_left (fun l v => let x := format_opt o (f v) in (remove_first x l ++ [x])%list) l [] = map (format_opt o) (dedupe l).
Proof.
  intros o f l J F. assert (R : forall x m, remove_first (format_opt o x) (map (format_opt o) m) = map (format_opt o) (remove_first x m)).
  { intros x m. induction m as [|y m IH]; [reflexivity|]. cbn [map remove_first]. destruct (String.eqb_spec x y) as [->|N]; [rewrite String.eqb_refl; reflexivity|]. destruct (String.eqb_spec (format_opt o x) (format_opt o y)) as [E|_]; [destruct (N (J _ _ E))|]. cbn [map]. rewrite IH. reflexivity. }
  induction l as [|x l IH] using rev_ind; [reflexivity|]. rewrite fold_left_app, IH, dedupe_snoc. cbn [fold_left]. rewrite F, R, map_app. reflexivity.
Qed.
Lemma other_tame : forall w, ~ begins "-" w -> other_word w.
Proof.
  intros w N. assert (NE : w <> "--") by (intros ->; apply N; eexists; reflexivity). apply other_class. split; [exact NE|]. left. apply (proj1 (proj2 (proj2 (proj2 (classify_sort _ NE))))). intros (a & t & ->). apply N. eexists. reflexivity.
Qed.
Lemma reads_files : forall {A} (f : A -> string) l, (forall v, In v l -> ~ begins "-" (f v)) -> reads (map f l) (map (fun v => Left (f v)) l).
Proof.
  intros A f l. induction l as [|v l IH]; intros H; [exact reads_nil|]. apply (reads_app [f v] [Left (f v)] (map f l) (map (fun v => Left (f v)) l)); [|apply IH; intros w I; apply H; right; exact I].
  intros ws. cbn [app]. pose proof (other_tame _ (H v (or_introl eq_refl))) as O. apply other_class in O. destruct O as [NE C]. cbn [parse]. apply String.eqb_neq in NE. rewrite NE. destruct C as [-> | ->]; destruct (parse ws); reflexivity.
Qed.
Lemma reads_switch : forall n o, In (n, o) long_options -> In o switches -> reads [("--" ++ n)%string] [On o].
Proof.
  intros n o I S ws. cbn [app]. pose proof (proj2 (long_no_equals n o I)) as N. assert (O : option_word ("--" ++ n) o None) by (apply ow_long; [exact (proj1 (long_no_equals n o I))|exact N|left; exact I]). pose proof (option_not_dashes _ _ _ O) as ND. apply (option_class _ _ _ ND) in O. cbn [parse]. apply String.eqb_neq in ND. rewrite ND, O. cbn [switches In] in S. destruct S as [<-|[<-|[<-|[<-|[]]]]]; destruct (parse ws); reflexivity.
Qed.

Definition one (o : opt) (v : option string) : list event := match v with Some x => [Given o x] | None => [] end.
Definition effective (v e : option string) : option string := match truth v with Some x => Some x | None => truth e end.
Lemma store_eq : forall n v f e, store_flags n v f e = match effective v e with Some x => [format_opt n (f x)] | None => [] end.
Proof. intros n v f e. unfold store_flags, effective. destruct (truth v); [reflexivity|]. destruct (truth e); reflexivity. Qed.
Lemma reads_store : forall n o v f e, In (n, o) long_options -> ~ In o switches -> ~ In o enders -> reads (store_flags ("--" ++ n) v f e) (one o (option_map f (effective v e))).
Proof.
  intros n o v f e I S E. rewrite store_eq. destruct (effective v e) as [x|]; [|exact reads_nil]. cbn [option_map one]. replace (format_opt ("--" ++ n) (f x)) with ("--" ++ n ++ "=" ++ f x)%string; [exact (reads_equals n o (f x) I S E)|]. unfold format_opt. cbn [append prefix_of]. cbn. reflexivity.
Qed.
Definition fixed (realpath : string -> string) (d p : string) : string := match fix_if_relative_path realpath p d with EmptyString => "." | q => q end.
Definition again_events (realpath : string -> string) (env : environment) (o : options) (d t : string) (files : list string) : list event :=
  let env_list l := if use_environment o then l else [] in
  let env_one v := if use_environment o then v else None in
  ([Given Format "make"; On Ignore_environment] ++ map (Given Build) (configs o) ++ (if check o then [On Check] else [])
   ++ one Config_dir (effective (config_dir o) (env_one (env_config_dir env)))
   ++ map (Given Debug) (debug o) ++ map (Given Define) (dedupe (env_list (env_defines env)) ++ defines o)
   ++ one Depth (option_map (fixed realpath d) (effective (depth o) None)) ++ map (Given Flag) (dedupe (env_list (env_flags env)) ++ flags o)
   ++ one Output (option_map (fixed realpath d) (effective (output o) (env_one (env_output env))))
   ++ map (fun v => Given Include (fixed realpath d v)) (includes o) ++ one Suffix (effective (suffix o) None)
   ++ one Toplevel (option_map (fixed realpath d) (effective (toplevel_dir o) None)) ++ map (Given Root) (root_targets o)
   ++ map (fun f => Left (relative_path realpath f t)) files)%list.
Lemma option_map_id : forall v : option string, option_map (fun x => x) v = v.
Proof. intros [x|]; reflexivity. Qed.
Lemma append_plain : forall c l e, append_flags (String "-" (String c "")) l (fun v => v) e = map (fun v => String "-" (String c v)) (dedupe e ++ l)%list \/ c = "-"%char.
Proof.
  intros c l e. destruct (Ascii.eqb_spec c "-") as [->|N]; [right; reflexivity|left].
  assert (F : forall v, format_opt (String "-" (String c "")) v = String "-" (String c v)) .
  { intros v. unfold format_opt. assert (P : prefix_of "--" (String "-" (String c "")) = false) by (cbn [prefix_of]; destruct (Ascii.eqb_spec "-" c); [congruence|reflexivity]). rewrite P. reflexivity. }
  unfold append_flags. rewrite fold_dedupe; [|intros a b E; rewrite !F in E; congruence|reflexivity]. rewrite map_app. f_equal; apply map_ext; intros v; apply F.
Qed.
Lemma reads_append : forall c o l e, In (c, o) short_options -> ~ In o switches -> ~ In o enders -> (forall v, In v e \/ In v l -> attachable v) ->
  reads (append_flags (String "-" (String c "")) l (fun v => v) e) (map (Given o) (dedupe e ++ l)).
Proof.
  intros c o l e I S E A. destruct (append_plain c l e) as [->| ->]; [|destruct (short_not_dash _ I)].
  apply (reads_each (fun v => String "-" (String c v)) o (fun v => v)). intros v J. apply reads_attached; try assumption. apply A. apply in_app_or in J. destruct J as [J|J]; [left; exact (dedupe_In _ _ J)|right; exact J].
Qed.
Lemma short_in : forall c o, assoc (String c "") (map (fun e => (String (fst e) "", snd e)) short_options) = Some o -> In (c, o) short_options.
Proof. intros c o H. apply assoc_In in H. apply in_map_iff in H. destruct H as ((c' & o') & E & I). injection E as -> ->. exact I. Qed.
Lemma long_in : forall n o, assoc n long_options = Some o -> In (n, o) long_options.
Proof. intros n o. apply assoc_In. Qed.

Lemma again_reads : forall cwd env o d t files, place_ok cwd -> truth (depth o) = Some d -> truth (toplevel_dir o) = Some t ->
  (forall v, In v (debug o) \/ In v (defines o) \/ In v (flags o) \/ In v (root_targets o) -> attachable v) ->
  (use_environment o = true -> forall v, In v (env_defines env) \/ In v (env_flags env) -> attachable v) ->
  (forall v, truth (suffix o) = Some v -> attachable v) ->
  (forall v c, In v (includes o) -> In c (locate cwd v) -> ~ begins "=" c) ->
  (forall v c, In v files -> In c (locate cwd v) -> ~ begins "-" c) ->
  exists again, regeneration_arguments (plain_realpath cwd) env o files = Some again /\ parse again = Some (again_events (plain_realpath cwd) env o d t files).
Proof.
  intros cwd env o d t files OK D T A1 A2 A3 A4 A5. unfold regeneration_arguments, regenerate_flags. rewrite D, T. eexists. split; [reflexivity|].
  fold (fixed (plain_realpath cwd) d).
  set (rp := plain_realpath cwd) in *. set (ed := if use_environment o then env_defines env else []). set (ef := if use_environment o then env_flags env else []).
  assert (AED : forall v, In v ed -> attachable v) by (intros v I; unfold ed in I; destruct (use_environment o); [apply (A2 eq_refl); auto|destruct I]).
  assert (AEF : forall v, In v ef -> attachable v) by (intros v I; unfold ef in I; destruct (use_environment o); [apply (A2 eq_refl); auto|destruct I]).
  assert (FX : forall v, In v (includes o) -> attachable (fixed rp d v)).
  { intros v I. unfold fixed, fix_if_relative_path. destruct (isabs v) eqn:B.
    - destruct v as [|a v]; [discriminate|]. split; [discriminate|]. intros (u & E). injection E as -> _. cbn in B. discriminate.
    - destruct (relative_path rp v d) as [|a s] eqn:R; [split; [discriminate|intros (u & E); discriminate]|]. split; [discriminate|]. intros (u & E). injection E as -> _. apply (relative_begins cwd v d "=" s OK) in R. destruct R as [R|(c & J & K)]; [discriminate|exact (A4 v c I J K)]. }
  assert (Q : reads ("-fmake" :: ("--ignore-environment" :: append_flags "--build" (configs o) (fun v => v) [] ++ (if check o then ["--check"] else [])
      ++ store_flags "--config-dir" (config_dir o) (fun v => v) (if use_environment o then env_config_dir env else None) ++ append_flags "-d" (debug o) (fun v => v) []
      ++ append_flags "-D" (defines o) (fun v => v) ed ++ store_flags "--depth" (depth o) (fixed rp d) None ++ append_flags "-G" (flags o) (fun v => v) ef
      ++ store_flags "--generator-output" (output o) (fixed rp d) (if use_environment o then env_output env else None) ++ append_flags "-I" (includes o) (fixed rp d) []
      ++ store_flags "-S" (suffix o) (fun v => v) None ++ store_flags "--toplevel-dir" (toplevel_dir o) (fixed rp d) None ++ append_flags "-R" (root_targets o) (fun v => v) [])
      ++ map (fun f => relative_path rp f t) files)%list (again_events rp env o d t files)).
  { unfold again_events. fold ed. fold ef. cbv zeta. change ("-fmake" :: ?x) with (["-fmake"] ++ x)%list. 
    change (["-fmake"] ++ ("--ignore-environment" :: ?x) ++ ?y)%list with (["-fmake"; "--ignore-environment"] ++ (x ++ y))%list. rewrite <- !app_assoc.
    apply reads_app; [intros ws; change (parse (["-fmake"; "--ignore-environment"] ++ ws)) with (also (Given Format "make") (also (On Ignore_environment) (parse ws))); destruct (parse ws); reflexivity|].
    apply reads_app; [apply (reads_each (format_opt "--build") Build (fun v => v)); intros v _; apply (reads_equals "build" Build v); [apply long_in; reflexivity|cbn; intuition discriminate|cbn; intuition discriminate]|].
    apply reads_app; [destruct (check o); [apply (reads_switch "check" Check); [apply long_in; reflexivity|cbn; auto]|exact reads_nil]|].
    apply reads_app; [rewrite <- (option_map_id (effective _ _)); apply (reads_store "config-dir" Config_dir); [apply long_in; reflexivity|cbn; intuition discriminate|cbn; intuition discriminate]|].
    apply reads_app; [apply (reads_append "d" Debug (debug o) []); [apply short_in; reflexivity|cbn; intuition discriminate|cbn; intuition discriminate|intros v [[]|I]; auto]|].
    apply reads_app; [apply (reads_append "D" Define (defines o) ed); [apply short_in; reflexivity|cbn; intuition discriminate|cbn; intuition discriminate|intros v [I|I]; auto]|].
    apply reads_app; [apply (reads_store "depth" Depth); [apply long_in; reflexivity|cbn; intuition discriminate|cbn; intuition discriminate]|].
    apply reads_app; [apply (reads_append "G" Flag (flags o) ef); [apply short_in; reflexivity|cbn; intuition discriminate|cbn; intuition discriminate|intros v [I|I]; auto]|].
    apply reads_app; [apply (reads_store "generator-output" Output); [apply long_in; reflexivity|cbn; intuition discriminate|cbn; intuition discriminate]|].
    apply reads_app; [apply (reads_each (fun v => format_opt "-I" (fixed rp d v)) Include (fixed rp d)); intros v I; apply (reads_attached "I" Include); [apply short_in; reflexivity|cbn; intuition discriminate|cbn; intuition discriminate|exact (FX v I)]|].
    apply reads_app; [rewrite store_eq; unfold effective; cbn [truth]; destruct (truth (suffix o)) as [x|] eqn:Sx; [apply (reads_attached "S" Suffix); [apply short_in; reflexivity|cbn; intuition discriminate|cbn; intuition discriminate|exact (A3 x eq_refl)]|exact reads_nil]|].
    apply reads_app; [apply (reads_store "toplevel-dir" Toplevel); [apply long_in; reflexivity|cbn; intuition discriminate|cbn; intuition discriminate]|].
    apply reads_app; [apply (reads_append "R" Root (root_targets o) []); [apply short_in; reflexivity|cbn; intuition discriminate|cbn; intuition discriminate|intros v [[]|I]; auto]|].
    apply reads_files. intros v I (u & E). apply (relative_begins cwd v t "-" u OK) in E. destruct E as [E|(c & J & K)]; [discriminate|exact (A5 v c I J K)]. }
  specialize (Q []). cbn [parse option_map] in Q. rewrite !app_nil_r in Q. exact Q.
Qed.

Lemma truth_some : forall s, s <> "" -> truth (Some s) = Some s.
Proof. intros [|a s] N; [congruence|reflexivity]. Qed.
Lemma truth_full : forall v s, truth v = Some s -> v = Some s /\ s <> "".
Proof. intros [[|a v]|] s E; try discriminate. injection E as <-. split; [reflexivity|discriminate]. Qed.
Lemma fixed_not_empty : forall rp d v, fixed rp d v <> "".
Proof. intros rp d v. unfold fixed. destruct (fix_if_relative_path rp v d); discriminate. Qed.
Lemma fixed_place : forall cwd d v, place_ok cwd -> locate (locate cwd d) (fixed (plain_realpath cwd) d v) = locate cwd v.
Proof.
  intros cwd d v OK. pose proof (fix_if_relative_spec cwd v d OK) as F. unfold fixed. destruct (fix_if_relative_path (plain_realpath cwd) v d) as [|a s]; [|exact F]. rewrite <- F. reflexivity.
Qed.
Lemma given_one : forall o o' v, given o (one o' v) = if opt_beq o o' then match v with Some x => [x] | None => [] end else [].
Proof. intros o o' [x|]; cbn [one given]; destruct (opt_beq o o'); reflexivity. Qed.
Lemma given_check : forall o (b : bool), given o (if b then [On Check] else []) = [].
Proof. intros o []; reflexivity. Qed.
Lemma given_lefts : forall {A} o (f : A -> string) l, given o (map (fun v => Left (f v)) l) = [].
Proof. intros A o f l. induction l as [|x l IH]; [reflexivity|exact IH]. Qed.
Lemma left_one : forall o v, left_over (one o v) = [].
Proof. intros o [x|]; reflexivity. Qed.
Lemma left_check : forall (b : bool), left_over (if b then [On Check] else []) = [].
Proof. intros []; reflexivity. Qed.
Lemma left_lefts_map : forall {A} (f : A -> string) l, left_over (map (fun v => Left (f v)) l) = map f l.
Proof. intros A f l. induction l as [|x l IH]; cbn [map left_over]; congruence. Qed.
Lemma on_one : forall o o' v, is_on o (one o' v) = false.
Proof. intros o o' [x|]; reflexivity. Qed.
Lemma on_check : forall o (b : bool), is_on o (if b then [On Check] else []) = opt_beq o Check && b.
Proof. intros o []; cbn; rewrite ?orb_false_r, ?andb_true_r, ?andb_false_r; reflexivity. Qed.
Lemma on_lefts : forall {A} o (f : A -> string) l, is_on o (map (fun v => Left (f v)) l) = false.
Proof. intros A o f l. induction l as [|x l IH]; [reflexivity|exact IH]. Qed.
Lemma on_map1 : forall o o' l, is_on o (map (Given o') l) = false.
Proof. intros o o' l. induction l as [|x l IH]; [reflexivity|exact IH]. Qed.
Lemma left_map1 : forall o l, left_over (map (Given o) l) = [].
Proof. intros o l. induction l as [|x l IH]; [reflexivity|exact IH]. Qed.
Lemma both_fixed : forall cwd d v, place_ok cwd -> both (same_place cwd (locate cwd d)) v (option_map (fixed (plain_realpath cwd) d) v).
Proof. intros cwd d [v|] OK; constructor. unfold same_place. symmetry. apply fixed_place. exact OK. Qed.
Lemma truth_fixed : forall rp d v, truth (option_map (fixed rp d) v) = option_map (fixed rp d) v.
Proof. intros rp d [v|]; [apply truth_some, fixed_not_empty|reflexivity]. Qed.
Lemma Forall2_map : forall {A B} (R : A -> B -> Prop) f l, (forall x, R x (f x)) -> Forall2 R l (map f l).
Proof. intros A B R f l H. induction l as [|x l IH]; [constructor|]. constructor; [apply H|exact IH]. Qed.
Theorem regenerates : forall cwd f f' env env' args es r d t,
  place_ok cwd -> says args es -> repeatable cwd env es -> gyp f env args = Some r -> run_depth r = Some d -> run_toplevel r = Some t -> locate cwd d = locate cwd t ->
  exists again r', regeneration (plain_realpath cwd) f env args = Some again /\ gyp f' env' again = Some r' /\ run_formats r' = ["make"] /\ comes_to_the_same cwd (locate cwd t) r r'.
Proof.
  intros cwd f f' env env' args es r d t OK S (A1 & A2 & A3 & A4 & A5) G D T E. apply parse_iff in S. unfold gyp, regeneration in *. rewrite S in *. injection G as <-.
  set (o := complete f env (options_of es)) in *. cbn [run_depth run_toplevel run_of] in D, T. rewrite <- E.
  destruct (again_reads cwd env o d t (left_over es) OK D T) as (again & RA & PA).
  - intros v I. apply A1. unfold o in I. cbn in I. rewrite !given_values in I. exact I.
  - intros U. apply A2. intros J. apply on_iff in J. unfold o in U. cbn in U. rewrite J in U. discriminate.
  - intros v V. apply A3. apply chosen_iff. exact V.
  - intros v c I. apply A4. unfold o in I. cbn in I. rewrite given_values in I. exact I.
  - intros v c I. apply A5. rewrite <- left_lefts. exact I.
  - exists again. rewrite PA. eexists. split; [exact RA|]. split; [reflexivity|].
    set (rp := plain_realpath cwd) in *. set (ev := again_events rp env o d t (left_over es)).
    set (ed := if use_environment o then env_defines env else []) in *. set (ef := if use_environment o then env_flags env else []) in *.
    assert (GE : forall x, given x ev = match x with
        | Format => ["make"] | Build => configs o | Debug => debug o | Define => dedupe ed ++ defines o | Flag => dedupe ef ++ flags o
        | Config_dir => match effective (config_dir o) (if use_environment o then env_config_dir env else None) with Some y => [y] | None => [] end
        | Depth => match option_map (fixed rp d) (effective (depth o) None) with Some y => [y] | None => [] end
        | Output => match option_map (fixed rp d) (effective (output o) (if use_environment o then env_output env else None)) with Some y => [y] | None => [] end
        | Include => map (fixed rp d) (includes o)
        | Suffix => match effective (suffix o) None with Some y => [y] | None => [] end
        | Toplevel => match option_map (fixed rp d) (effective (toplevel_dir o) None) with Some y => [y] | None => [] end
        | Root => root_targets o | _ => [] end%list).
    { intros x. unfold ev, again_events. cbv zeta. fold ed. fold ef. rewrite !given_app, !given_one, given_check, (given_lefts x), (given_map x Include (fixed rp d)), !given_map1. destruct x; cbn [opt_beq given app]; rewrite ?app_nil_r; reflexivity. }
    assert (LE : left_over ev = map (fun v => relative_path rp v t) (left_over es)).
    { unfold ev, again_events. cbv zeta. rewrite !left_app, !left_one, left_check, left_lefts_map, (left_map Include (fixed rp d)), !left_map1. reflexivity. }
    assert (OE : forall x, is_on x ev = match x with Ignore_environment => true | Check => check o | _ => false end).
    { intros x. unfold ev, again_events. cbv zeta. rewrite !on_app, !on_one, on_check, (on_lefts x), (on_map x Include (fixed rp d)), !on_map1. destruct x; cbn [is_on existsb opt_beq orb andb]; rewrite ?orb_false_r; reflexivity. }
    assert (SE : forall x v, given x ev = match v with Some y => [y] | None => [] end -> stored x ev = v) by (intros x [v|] H; unfold stored; rewrite H; reflexivity).
    assert (UE : negb (is_on Ignore_environment ev) = false) by (rewrite OE; reflexivity).
    assert (SD : stored Depth ev = option_map (fixed rp d) (effective (depth o) None)) by (apply SE; exact (GE Depth)).
    assert (ST : stored Toplevel ev = option_map (fixed rp d) (effective (toplevel_dir o) None)) by (apply SE; exact (GE Toplevel)).
    assert (SO : stored Output ev = option_map (fixed rp d) (effective (output o) (if use_environment o then env_output env else None))) by (apply SE; exact (GE Output)).
    assert (SC : stored Config_dir ev = effective (config_dir o) (if use_environment o then env_config_dir env else None)) by (apply SE; exact (GE Config_dir)).
    assert (SS : stored Suffix ev = effective (suffix o) None) by (apply SE; exact (GE Suffix)).
    assert (EN : forall v, effective v None = truth v) by (intros v; unfold effective; destruct (truth v); reflexivity). rewrite EN in SD, ST, SS.
    clearbody ev. unfold comes_to_the_same.
    set (r' := run_of env' (complete f' env' (options_of ev)) (left_over ev)).
    assert (R1 : run_files r' = map (fun v => relative_path rp v t) (left_over es)) by exact LE.
    assert (R2 : run_formats r' = ["make"]) by (unfold r'; cbn [run_of run_formats complete formats options_of]; rewrite GE; reflexivity).
    assert (R3 : run_includes r' = map (fixed rp d) (includes o)) by (unfold r'; cbn [run_of run_includes complete includes options_of]; exact (GE Include)).
    assert (R4 : run_depth r' = option_map (fixed rp d) (truth (depth o))) by (unfold r'; cbn [run_of run_depth complete depth options_of]; rewrite SD; apply truth_fixed).
    assert (R5 : run_toplevel r' = option_map (fixed rp d) (truth (toplevel_dir o))).
    { unfold r'. cbn [run_of run_toplevel complete toplevel_dir depth options_of]. rewrite ST, SD, truth_fixed, T. cbn [option_map]. apply truth_some, fixed_not_empty. }
    assert (R6 : run_output r' = option_map (fixed rp d) (truth (output o))).
    { unfold r'. cbn [run_of run_output complete output use_environment options_of]. rewrite UE, SO, truth_fixed.
      assert (EO : effective (output o) (if use_environment o then env_output env else None) = truth (output o)).
      { unfold effective. destruct (truth (output o)) eqn:TO; [reflexivity|]. unfold o in TO |- *. cbn [complete output use_environment options_of] in TO |- *. destruct (truth (stored Output es)) as [x|] eqn:Y; [congruence|]. destruct (negb (is_on Ignore_environment es)); [|reflexivity]. destruct (truth (env_output env)) as [g|] eqn:Z; [|reflexivity]. rewrite <- Z in TO. rewrite truth_truth in TO. congruence. }
      rewrite EO. destruct (truth (output o)) as [x|]; [cbn [option_map]; apply truth_some, fixed_not_empty|reflexivity]. }
    assert (R7 : run_defines r' = name_value_dict (dedupe ed ++ defines o)) by (unfold r'; cbn [run_of run_defines complete defines use_environment options_of]; rewrite UE, GE; reflexivity).
    assert (R8 : run_flags r' = name_value_dict (dedupe ef ++ flags o)) by (unfold r'; cbn [run_of run_flags complete flags use_environment options_of]; rewrite UE, GE; reflexivity).
    assert (R9 : run_config_dir r' = effective (config_dir o) (if use_environment o then env_config_dir env else None)).
    { unfold r'. cbn [run_of run_config_dir complete config_dir use_environment options_of]. rewrite UE, SC. destruct (effective _ _) as [x|] eqn:X; [|reflexivity]. assert (NX : x <> "").
      { unfold effective in X. destruct (truth (config_dir o)) eqn:TC; [apply truth_full in TC; destruct TC; congruence|]. apply truth_full in X. apply X. }
      rewrite (truth_some x NX). reflexivity. }
    assert (R10 : run_check r' = check o) by (unfold r'; cbn [run_of run_check complete check options_of]; exact (OE Check)).
    assert (R11 : run_debug r' = debug o) by (unfold r'; cbn [run_of run_debug complete debug options_of]; exact (GE Debug)).
    assert (R12 : run_suffix r' = truth (suffix o)) by (unfold r'; cbn [run_of run_suffix complete suffix options_of]; rewrite SS; apply truth_truth).
    assert (R13 : run_roots r' = root_targets o) by (unfold r'; cbn [run_of run_roots complete root_targets options_of]; exact (GE Root)).
    assert (R14 : run_configs r' = configs o) by (unfold r'; cbn [run_of run_configs complete configs options_of]; exact (GE Build)).
    rewrite R1, R2, R3, R4, R5, R6, R7, R8, R9, R10, R11, R12, R13, R14. split; [reflexivity|].
    change (run_files (run_of env o (left_over es))) with (left_over es). change (run_includes (run_of env o (left_over es))) with (includes o).
    change (run_output (run_of env o (left_over es))) with (truth (output o)). change (run_depth (run_of env o (left_over es))) with (truth (depth o)). change (run_toplevel (run_of env o (left_over es))) with (truth (toplevel_dir o)).
    repeat match goal with |- _ /\ _ => split end; try reflexivity.
    + apply Forall2_map. intros x. unfold same_place. rewrite E. symmetry. apply (proj1 (relative_path_plain cwd x t OK)).
    + apply Forall2_map. intros x. unfold same_place. symmetry. apply fixed_place. exact OK.
    + apply both_fixed. exact OK.
    + apply both_fixed. exact OK.
    + apply both_fixed. exact OK.
    + intros k. rewrite dedupe_mapping. reflexivity.
    + intros k. rewrite dedupe_mapping. reflexivity.
    + unfold effective. cbn [run_of run_config_dir]. destruct (truth (config_dir o)); [reflexivity|]. destruct (use_environment o); reflexivity.
Qed.
