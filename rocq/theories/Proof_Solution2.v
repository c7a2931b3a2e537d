(** Solutions: where the targets are shown. *)
From Verif Require Import Model_Vcxproj Lib LibFacts Str StrFacts Model_Path Model_Value Model_Names Model_Solution Spec_Solution Proof_Solution.
From Verif Require Model_Writer Proof_Vcxproj2 Proof_Vcxproj4 Proof_Flags5 Proof_Commands.
Local Open Scope string_scope.

(** ** paths *)
Lemma rstrip_keep : forall r s, s <> "" -> has_char "/" s = false -> has_char "\" s = false -> rstrip_sep (r ++ s) = r ++ s.
Proof.
  assert (B : forall s, has_char "/" s = false -> has_char "\" s = false -> rstrip_sep s = s).
  { induction s as [|a s IH]; intros H1 H2; [reflexivity|]. cbn [has_char] in H1, H2. destruct (Ascii.eqb a "/") eqn:E1; [discriminate|]. destruct (Ascii.eqb a "\") eqn:E2; [discriminate|]. cbn [rstrip_sep]. rewrite (IH H1 H2). destruct s; [|reflexivity]. unfold is_sep. change backslash with "\"%char. rewrite E1, E2. reflexivity. }
  intros r s N H1 H2. induction r as [|a r IH]; [exact (B s H1 H2)|]. cbn [append rstrip_sep]. rewrite IH. destruct (r ++ s) eqn:E; [|reflexivity]. destruct r; [contradiction|discriminate].
Qed.
Lemma rstrip_one : forall r c, is_sep c = true -> rstrip_sep (r ++ String c "") = rstrip_sep r.
Proof. intros r c H. induction r as [|a r IH]; cbn [append rstrip_sep]; [rewrite H; reflexivity|]. rewrite IH. reflexivity. Qed.
(** The drive and the rest. *)
Definition drives (p d r : string) : Prop := d ++ r = p /\ r <> "" /\ rstrip_sep r = r /\ forall c x, is_sep c = true -> nt_drive (p ++ String c x) = (d, r ++ String c x).
Lemma sep_colon : forall c, is_sep c = true -> Ascii.eqb c ":" = false.
Proof. intros c H. unfold is_sep in H. apply Bool.orb_true_iff in H. destruct H as [H|H]; apply Ascii.eqb_eq in H; subst c; reflexivity. Qed.
Lemma sep_char : forall sep, sep = "/" \/ sep = "\" -> exists c, is_sep c = true /\ sep = String c "".
Proof. intros sep [-> | ->]; eexists; (split; [|reflexivity]); reflexivity. Qed.
Lemma consists_drives : forall p l, consists p l -> exists d r, drives p d r.
Proof.
  induction 1 as [s (N & H1 & H2) C|a s A1 A2 (N & H1 & H2)|p l sep s C (d & r & E & N & S & D) HS (NS & H1 & H2)].
  - exists "", s. split; [reflexivity|]. split; [exact N|]. split; [exact (rstrip_keep "" s N H1 H2)|]. intros c x H. destruct s as [|a [|b s]]; [contradiction| |].
    + cbn [append nt_drive]. rewrite (sep_colon c H). reflexivity.
    + cbn [append nt_drive]. cbn [has_char] in C. destruct (Ascii.eqb a ":"); [discriminate|]. destruct (Ascii.eqb b ":"); [discriminate|]. reflexivity.
  - exists (String a ":"), ("\" ++ s). split; [reflexivity|]. split; [discriminate|]. split; [exact (rstrip_keep "\" s N H1 H2)|]. intros c x H. reflexivity.
  - destruct (sep_char sep HS) as (c & HC & ->). exists d, (r ++ String c s). split; [rewrite <- E, append_assoc; reflexivity|]. split; [destruct r; discriminate|]. split; [change (String c s) with (String c "" ++ s); rewrite <- append_assoc; apply rstrip_keep; assumption|]. intros c' x H. cbn [append]. rewrite !append_assoc. cbn [append]. apply D. exact HC.
Qed.
Lemma split_longer : forall p l c s, consists p l -> is_sep c = true -> piece s -> Model_Solution.split (p ++ String c s) = (p, s).
Proof.
  intros p l c s C HC (N & H1 & H2). destruct (consists_drives p l C) as (d & r & E & NR & S & D). unfold Model_Solution.split. rewrite (D c s HC). unfold nt_split. rewrite (Proof_Vcxproj2.rsplit_app r c s HC H1 H2), (rstrip_one r c HC), S. destruct r; [contradiction|]. rewrite E. reflexivity.
Qed.
Lemma split_one : forall s, piece s -> has_char ":" s = false -> Model_Solution.split s = ("", s).
Proof.
  intros s (N & H1 & H2) C. unfold Model_Solution.split. assert (E : nt_drive s = ("", s)). { destruct s as [|a [|b s]]; [reflexivity|reflexivity|]. cbn [nt_drive]. cbn [has_char] in C. destruct (Ascii.eqb a ":"); [discriminate|]. destruct (Ascii.eqb b ":"); [discriminate|]. reflexivity. }
  rewrite E. unfold nt_split. rewrite (Proof_Vcxproj2.rsplit_none s H1 H2). reflexivity.
Qed.
Lemma split_root : forall a s, piece s -> Model_Solution.split (String a (":\" ++ s)) = (String a ":\", s).
Proof.
  intros a s (N & H1 & H2). unfold Model_Solution.split. cbn [append nt_drive]. change (Ascii.eqb ":" ":") with true. cbv iota. unfold nt_split. change (String "\" s) with ("" ++ String "\" s). rewrite (Proof_Vcxproj2.rsplit_app "" "\" s eq_refl H1 H2). reflexivity.
Qed.
Lemma consists_end : forall p l, consists p l -> exists a s, p = a ++ s /\ piece s.
Proof.
  intros p l C. destruct C as [s H _|a s _ _ H|p l sep s _ _ H]; [exists "", s|exists (String a ":\"), s|exists (p ++ sep), s]; (split; [|exact H]); try reflexivity. rewrite append_assoc. reflexivity.
Qed.
Lemma not_at_root : forall p l, consists p l -> String.eqb p "" || Model_Writer.ends_with (String backslash "") p = false.
Proof.
  intros p l C. destruct (consists_end p l C) as (a & s & -> & N & H1 & H2). apply Bool.orb_false_iff. split; [apply String.eqb_neq; destruct a; [exact N|discriminate]|]. apply Bool.not_true_iff_false. intros H. apply Proof_Flags5.ends_iff in H. destruct H as (b & E).
  assert (X : exists s' z, s = s' ++ String z "" /\ z <> "\"%char). { clear -N H2. induction s as [|x s IH]; [contradiction|]. cbn [has_char] in H2. destruct (Ascii.eqb x "\") eqn:EX; [discriminate|]. destruct s as [|y s]; [exists "", x; split; [reflexivity|]; intros ->; discriminate EX|]. destruct IH as (s' & z & E & NZ); [discriminate|exact H2|]. exists (String x s'), z. split; [rewrite E; reflexivity|exact NZ]. }
  destruct X as (s' & z & -> & NZ). rewrite <- append_assoc in E. apply (f_equal (fun x => rev (list_ascii_of_string x))) in E. rewrite !Proof_Commands.list_ascii_app, !rev_app_distr in E. cbn in E. injection E as E _. exact (NZ E).
Qed.
Lemma parts_empty : forall fuel, parts fuel "" = Some [].
Proof. destruct fuel; reflexivity. Qed.
Lemma parts_root : forall fuel a, parts fuel (String a ":\") = Some [].
Proof. intros fuel a. destruct fuel; reflexivity. Qed.
Lemma parts_S : forall fuel p, parts (Datatypes.S fuel) p = if String.eqb p "" || Model_Writer.ends_with (String backslash "") p then Some []
  else let '(parent, folder) := Model_Solution.split p in match parts fuel parent with Some l => Some (l ++ [folder])%list | None => None end.
Proof. reflexivity. Qed.
Lemma parts_of : forall p l, consists p l -> forall fuel, length l <= fuel -> parts fuel p = Some l.
Proof.
  intros p l C. pose proof C as C0. induction C as [s P H|a s A1 A2 P|p l sep s C IH HS P]; intros fuel L; pose proof (not_at_root _ _ C0) as R.
  - destruct fuel as [|fuel]; [cbn in L; lia|]. rewrite parts_S, R, (split_one s P H), parts_empty. reflexivity.
  - destruct fuel as [|fuel]; [cbn in L; lia|]. rewrite parts_S, R, (split_root a s P), parts_root. reflexivity.
  - rewrite app_length in L. cbn [length] in L. destruct fuel as [|fuel]; [lia|]. destruct (sep_char sep HS) as (c & HC & ->). rewrite parts_S, R. change (String c "" ++ s) with (String c s). rewrite (split_longer p l c s C HC P), (IH C fuel); [reflexivity|lia].
Qed.
Lemma consists_length : forall p l, consists p l -> length l <= String.length p.
Proof.
  induction 1 as [s (N & _)|a s _ _ _|p l sep s C IH HS (N & _)].
  - destruct s; [contradiction|]. cbn. lia.
  - cbn. lia.
  - rewrite app_length, !Proof_Vcxproj4.slen_app. cbn [length]. destruct s; [contradiction|]. cbn [String.length]. lia.
Qed.
Lemma dirname_parts : forall p folders base, consists p (folders ++ [base])%list -> parts (Datatypes.S (String.length (fst (Model_Solution.split p)))) (fst (Model_Solution.split p)) = Some folders.
Proof.
  intros p folders base C. remember (folders ++ [base])%list as l eqn:E. destruct C as [s P H|a s A1 A2 P|p l sep s C HS P].
  - destruct folders as [|f [|? ?]]; try discriminate E. rewrite (split_one s P H). reflexivity.
  - destruct folders as [|f [|? ?]]; try discriminate E. rewrite (split_root a s P). apply parts_root.
  - apply app_inj_tail in E. destruct E as (<- & <-). destruct (sep_char sep HS) as (c & HC & ->). cbn [append]. rewrite (split_longer p l c s C HC P). cbn [fst]. apply (parts_of p l C). pose proof (consists_length p l C). lia.
Qed.

(** ** names *)
Lemma named_file : forall q file n ts, named q file n ts -> build_file q = file.
Proof. intros q file n ts (-> & H & _). unfold build_file. rewrite (proj2 (rsplit1_Some colon (file ++ ":" ++ n ++ "#" ++ ts) file (n ++ "#" ++ ts)) (conj eq_refl H)). reflexivity. Qed.
Lemma named_target : forall q file n ts, named q file n ts -> target_name_of q = n.
Proof.
  intros q file n ts (-> & H & H2). unfold target_name_of, parse_qualified_target. rewrite (proj2 (rsplit1_Some colon (file ++ ":" ++ n ++ "#" ++ ts) file (n ++ "#" ++ ts)) (conj eq_refl H)). rewrite (proj2 (rsplit1_Some hash (n ++ "#" ++ ts) n ts) (conj eq_refl H2)). reflexivity.
Qed.
Lemma named_host : forall q file n ts, named q file n ts -> Model_Writer.ends_with "#host" q = String.eqb ts "host".
Proof.
  intros q file n ts (-> & H & H2). destruct (String.eqb ts "host") eqn:E.
  - apply String.eqb_eq in E. subst ts. apply Proof_Flags5.ends_iff. exists (file ++ ":" ++ n). rewrite !append_assoc. reflexivity.
  - apply Bool.not_true_iff_false. intros X. apply Proof_Flags5.ends_iff in X. destruct X as (a & X). apply String.eqb_neq in E. apply E. assert (X1 : rsplit1 "#" (file ++ ":" ++ n ++ "#" ++ ts) = Some (file ++ ":" ++ n, ts)) by (apply rsplit1_Some; split; [rewrite !append_assoc; reflexivity|exact H2]). rewrite X in X1. assert (X2 : rsplit1 "#" (a ++ "#host") = Some (a, "host")) by (apply rsplit1_Some; split; reflexivity). congruence.
Qed.
Definition sp (q : string) : list string := match place_of q with Some fs => app fs [key_of q] | None => [] end.
Lemma spot_is : forall q l, spot q l -> l = sp q /\ (exists fs, place_of q = Some fs) /\ last (sp q) "" <> ".vcproj".
Proof.
  intros q l (file & n & ts & folders & base & N & NE & C & ->). assert (P : place_of q = Some folders) by (unfold place_of; rewrite (named_file q file n ts N); exact (dirname_parts file folders base C)). assert (K : key_of q = n ++ host_suffix ts ++ ".vcproj") by (unfold key_of; rewrite (named_target q file n ts N), (named_host q file n ts N); reflexivity). unfold sp. rewrite P, K. split; [reflexivity|]. split; [eauto|].
  rewrite last_last. intros E. apply (f_equal String.length) in E. rewrite !Proof_Vcxproj4.slen_app in E. destruct n; [contradiction|]. cbn [String.length] in E. lia.
Qed.
Lemma of_file_iff : forall file q, file <> "" -> (String.eqb (build_file q) file = true <-> of_file file q).
Proof.
  intros file q N. rewrite String.eqb_eq. unfold build_file, of_file. destruct (rsplit1 colon q) as [[b r]|] eqn:E.
  - split; [intros <-; apply rsplit1_Some in E; exists r; exact E|]. intros (r' & E' & H). assert (X : rsplit1 colon q = Some (file, r')) by (apply rsplit1_Some; split; assumption). congruence.
  - split; [intros <-; contradiction|]. intros (r' & E' & H). assert (X : rsplit1 colon q = Some (file, r')) by (apply rsplit1_Some; split; assumption). congruence.
Qed.

(** ** the tree *)
Lemma tree_ok : forall objects p, forall qs done root, (forall q, In q qs -> assoc q objects = Some (p q)) -> apart (done ++ qs)%list -> NoDup (done ++ qs)%list -> Permutation (flat (Dir root)) (map (fun q => (sp q, p q)) done) ->
  exists root', tree objects qs root = Some root' /\ Permutation (flat (Dir root')) (map (fun q => (sp q, p q)) (done ++ qs)%list).
Proof.
  intros objects p. induction qs as [|q qs IH]; intros done root A AP N P; cbn [tree].
  - exists root. rewrite app_nil_r. auto.
  - assert (IQ : In q (done ++ q :: qs)%list) by (apply in_or_app; right; left; reflexivity). destruct AP as (AP1 & AP2). destruct (AP1 q IQ) as (l & SL). destruct (spot_is q l SL) as (EL & (fs & PF) & _). rewrite PF, (A q (or_introl eq_refl)). assert (ESP : sp q = app fs [key_of q]) by (unfold sp; rewrite PF; reflexivity).
    destruct (insert_flat fs (key_of q) (p q) root) as (root1 & E1 & P1).
    + intros x I. apply (Permutation_in _ P) in I. apply in_map_iff in I. destruct I as (q' & <- & I'). cbn [fst]. rewrite <- ESP. assert (IQ' : In q' (done ++ q :: qs)%list) by (apply in_or_app; auto). destruct (AP1 q' IQ') as (l' & SL'). destruct (spot_is q' l' SL') as (EL' & _). subst l l'.
      assert (NE : q' <> q). { intros ->. apply NoDup_remove_2 in N. apply N. apply in_or_app. auto. }
      split; intros (more & M); apply NE; [exact (AP2 q' q _ _ more IQ' IQ SL' SL M)|symmetry; exact (AP2 q q' _ _ more IQ IQ' SL SL' M)].
    + rewrite E1. destruct (IH (done ++ [q])%list root1) as (root' & E2 & P2).
      * intros x I. apply A. right. exact I.
      * rewrite <- app_assoc. split; assumption.
      * rewrite <- app_assoc. exact N.
      * rewrite P1, map_app. cbn [map]. rewrite ESP, P. apply Permutation_cons_append.
      * exists root'. rewrite <- app_assoc in P2. auto.
Qed.
Lemma gather_ok : forall objects p fl qs, (forall q, In q qs -> assoc q objects = Some (p q)) -> apart qs -> NoDup qs -> exists es, gather objects fl qs = Some es /\ Permutation (held es) (map p qs).
Proof.
  intros objects p fl qs A AP N. unfold gather. destruct (tree_ok objects p qs [] [] A AP N (Permutation_refl _)) as (root & E & P). rewrite E. cbn [app] in P.
  assert (L : forall x, In x (flat (Dir root)) -> last (fst x) "" <> ".vcproj"). { intros x I. apply (Permutation_in _ P) in I. apply in_map_iff in I. destruct I as (q & <- & I). destruct AP as (AP1 & _). destruct (AP1 q I) as (l & SL). destruct (spot_is q l SL) as (_ & _ & X). exact X. }
  destruct (strip_dir (Dir root)) as (l1 & E1); [eauto|]. pose proof (strip_lasts _ L) as L1. rewrite E1 in *. destruct (collapse_dir l1 L1) as (l2 & E2). rewrite E2. eexists. split; [reflexivity|]. rewrite folders_held, <- E2, collapse_leaves, <- E1, strip_leaves. unfold leaves. rewrite P, map_map. reflexivity.
Qed.
