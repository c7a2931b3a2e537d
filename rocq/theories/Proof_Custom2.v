(** Every action and every copy is in one custom build. *)
From Verif Require Import Lib LibFacts Str StrFacts Model_Path Proof_Path Proof_Path2 Spec_Path Model_Vcxproj Spec_Vcxproj Spec_Custom Proof_Vcxproj Proof_Vcxproj2 Proof_Vcxproj3 Proof_Vcxproj4 Proof_Custom.
From Verif Require Proof_Make.
Local Open Scope string_scope.

(** ** _AddActionStep *)
Definition key (j : job) : string := hd "" (job_inputs j).
Definition grouped (d : list (string * list job)) (js : list job) : Prop :=
  NoDup (map fst d) /\ Forall (fun kl => snd kl = filter (fun j => String.eqb (key j) (fst kl)) js) d /\ (forall j, In j js -> In (key j) (map fst d)).
Lemma attach_at : forall k s d, NoDup (map fst d) -> NoDup (map fst (attach k s d)) /\ (forall k' l, In (k', l) (attach k s d) -> k' <> k /\ In (k', l) d \/ k' = k /\ exists l0, l = (l0 ++ [s])%list /\ (In (k, l0) d \/ l0 = [] /\ ~ In k (map fst d))).
Proof.
  intros k s. induction d as [|[k0 l0] d IH]; intros N; cbn [attach].
  - split; [repeat constructor; intros []|]. intros k' l [E|[]]. injection E as <- <-. right. split; [reflexivity|]. exists []. split; [reflexivity|]. right. split; [reflexivity|intros []].
  - cbn [map fst] in N. inversion N as [|? ? N1 N2]; subst. destruct (String.eqb_spec k k0) as [->|NE].
    + split; [exact N|]. intros k' l [E|I].
      * injection E as <- <-. right. split; [reflexivity|]. exists l0. split; [reflexivity|left; left; reflexivity].
      * left. split; [|right; exact I]. intros ->. apply N1. apply in_map_iff. exists (k0, l). auto.
    + destruct (IH N2) as (A & B). split.
      * cbn [map fst]. constructor; [|exact A]. intros I. apply attach_keys in I. destruct I as [I|I]; [congruence|contradiction].
      * intros k' l [E|I].
        -- injection E as <- <-. left. split; [congruence|left; reflexivity].
        -- destruct (B k' l I) as [[X Y]|(-> & l1 & -> & [Y|[-> Y]])]; [left; split; [exact X|right; exact Y]|right; split; [reflexivity|]; exists l1; split; [reflexivity|left; right; exact Y]|].
           right. split; [reflexivity|]. exists []. split; [reflexivity|]. right. split; [reflexivity|]. cbn [map fst]. intros [Z|Z]; [congruence|contradiction].
Qed.
Lemma attach_grouped : forall s d js, grouped d js -> grouped (attach (key s) s d) (js ++ [s]).
Proof.
  intros s d js (N & F & C). destruct (attach_at (key s) s d N) as (A & B). split; [exact A|]. split.
  - apply Forall_forall. intros [k l] I. cbn [fst snd]. rewrite filter_app. cbn [filter]. rewrite Forall_forall in F. destruct (B k l I) as [[X Y]|(-> & l0 & -> & Y)].
    + destruct (String.eqb_spec (key s) k) as [Z|]; [congruence|]. rewrite app_nil_r. exact (F _ Y).
    + rewrite String.eqb_refl. f_equal. destruct Y as [Y|[-> Y]]; [exact (F _ Y)|]. symmetry. assert (Z : forall l, (forall j, In j l -> In (key j) (map fst d)) -> filter (fun j => String.eqb (key j) (key s)) l = []).
      { clear - Y. induction l as [|j l IH]; intros C; [reflexivity|]. cbn [filter]. destruct (String.eqb_spec (key j) (key s)) as [E|]; [exfalso; apply Y; rewrite <- E; apply C; left; reflexivity|]. apply IH. intros i I. apply C. right. exact I. }
      exact (Z js C).
  - intros j I. apply attach_keys. apply in_app_or in I. destruct I as [I|[<-|[]]]; [right; exact (C j I)|left; reflexivity].
Qed.
Lemma attached_grouped : forall p, grouped (attached p) (jobs p).
Proof.
  intros p. unfold attached. assert (G : forall l d js, grouped d js -> grouped (fold_left (fun d s => attach (hd "" (job_inputs s)) s d) l d) (js ++ l)).
  { induction l as [|s l IH]; intros d js H; [rewrite app_nil_r; exact H|]. cbn [fold_left]. assert (E : (js ++ s :: l = (js ++ [s]) ++ l)%list) by (rewrite <- app_assoc; reflexivity). rewrite E. apply IH. exact (attach_grouped s d js H). }
  apply (G (jobs p) [] []). split; [constructor|]. split; [constructor|]. intros j [].
Qed.
Lemma filter_jobs : forall p k, filter (fun j => String.eqb (key j) k) (jobs p) =
  (map (job_of p) (filter (fun a => String.eqb (first p a) k) (actions p)) ++ map (fun df => copy_job p {| destination := fst df; files := [] |} (snd df)) (filter (fun df => String.eqb (snd df) k) (copying p)))%list.
Proof.
  intros p k. unfold jobs, copying. rewrite filter_app. f_equal.
  - induction (actions p) as [|a l IH]; [reflexivity|]. cbn [map filter]. assert (E : key (job_of p a) = first p a) by (unfold key, job_of, first; destruct (inputs a); reflexivity). rewrite E. destruct (String.eqb (first p a) k); cbn [map]; rewrite IH; reflexivity.
  - induction (copies p) as [|c l IH]; [reflexivity|]. cbn [flat_map]. rewrite !filter_app, map_app, IH. f_equal. clear IH. assert (G : forall fs, filter (fun j => String.eqb (key j) k) (map (copy_job p c) fs) = map (fun df => copy_job p {| destination := fst df; files := [] |} (snd df)) (filter (fun df => String.eqb (snd df) k) (map (fun f => (destination c, f)) fs))).
    { induction fs as [|f fs IH]; [reflexivity|]. cbn [map filter snd fst]. assert (E : key (copy_job p c f) = f) by (unfold key, copy_job; destruct (ends_slash f); reflexivity). rewrite E. destruct (String.eqb f k); cbn [map fst snd]; rewrite IH; reflexivity. }
    apply G.
Qed.

(** ** no new characters *)
Lemma rev_norm_subset : forall r l x, In x (rev (norm_comps r [] l)) -> In x l.
Proof. intros r l x I. apply in_rev in I. apply norm_comps_subset in I. destruct I as [[]|I]. exact I. Qed.
Lemma split_char_has : forall c d s x, In x (split_char d s) -> has_char c s = false -> has_char c x = false.
Proof.
  intros c d. induction s as [|a s IH]; intros x I H; cbn [split_char] in I; [destruct I as [<-|[]]; reflexivity|]. cbn [has_char] in H. destruct (Ascii.eqb a c) eqn:E; [discriminate|]. destruct (Ascii.eqb a d).
  - destruct I as [<-|I]; [reflexivity|exact (IH x I H)].
  - destruct (split_char d s) as [|y l]; [destruct I as [<-|[]]; cbn [has_char]; rewrite E; reflexivity|]. destruct I as [<-|I]; [cbn [has_char]; rewrite E; apply IH; [left; reflexivity|exact H]|apply IH; [right; exact I|exact H]].
Qed.
Definition other (c : ascii) : Prop := c <> "/"%char /\ c <> "\"%char /\ c <> "."%char /\ c <> ":"%char.
Lemma has_normpath : forall c s, other c -> has_char c s = false -> has_char c (nt_normpath s) = false.
Proof.
  intros c s (N1 & N2 & N3 & N4) H. unfold nt_normpath. assert (H' : has_char c (to_bs s) = false) by (rewrite to_bs_char by assumption; exact H). revert H'. change (replace_char "/" "\" s) with (to_bs s). generalize (to_bs s). clear s H. intros s H.
  assert (D : has_char c (fst (nt_drive s)) = false /\ has_char c (snd (nt_drive s)) = false).
  { destruct s as [|a [|b r]]; [split; reflexivity|split; [reflexivity|exact H]|]. cbn [nt_drive]. destruct (Ascii.eqb b ":"); [|split; [reflexivity|exact H]]. cbn [fst snd has_char] in *. destruct (Ascii.eqb a c); [discriminate|]. destruct (Ascii.eqb b c); [discriminate|]. destruct (Ascii.eqb_spec ":" c) as [<-|]; [contradiction|]. split; [reflexivity|exact H]. }
  destruct (nt_drive s) as [drive rest]. cbn [fst snd] in D. destruct D as [D1 D2]. assert (P : has_char c (drive ++ (if rooted rest then "\" else "")) = false).
  { rewrite has_char_app, D1. destruct (rooted rest); [|reflexivity]. cbn [orb has_char]. destruct (Ascii.eqb_spec "\" c) as [<-|]; [contradiction|reflexivity]. }
  destruct (rev (norm_comps (rooted rest) [] (split_char "\" rest))) as [|x l] eqn:E.
  - destruct (String.eqb _ ""); [cbn [has_char]; destruct (Ascii.eqb_spec "." c) as [<-|]; [contradiction|reflexivity]|exact P].
  - rewrite <- E. rewrite has_char_app, P. cbn [orb]. change (String.concat "\") with join_bs. rewrite has_join by exact N2. destruct (existsb (has_char c) _) eqn:X; [|reflexivity]. apply existsb_exists in X. destruct X as (y & I & X). apply rev_norm_subset in I. rewrite (split_char_has c "\" rest y I D2) in X. discriminate X.
Qed.
Lemma has_normalized : forall c s, other c -> has_char c s = false -> has_char c (normalized_source s) = false.
Proof. intros c s O H. unfold normalized_source. destruct (Nat.eqb _ _); [apply has_normpath; assumption|exact H]. Qed.
Lemma has_join_path : forall c a b, other c -> has_char c a = false -> has_char c b = false -> has_char c (nt_join a b) = false.
Proof.
  intros c a b (_ & N & _) A B. unfold nt_join. destruct (_ || _)%bool; [exact B|]. destruct (_ || _)%bool; rewrite has_char_app, A; [exact B|]. cbn [orb has_char]. destruct (Ascii.eqb_spec "\" c) as [<-|]; [contradiction|exact B].
Qed.
Lemma has_fix : forall c p s, other c -> has_char c p = false -> has_char c s = false -> has_char c (fix_path p s) = false.
Proof.
  intros c p s O P S. unfold fix_path. pose proof O as (N1 & N2 & _). rewrite has_chop by exact N2. apply has_normalized; [exact O|]. change (replace_char "/" "\") with to_bs. rewrite to_bs_char by assumption. destruct (_ && _)%bool; [apply has_join_path; assumption|exact S].
Qed.
Lemma has_rsplit : forall c p h t, rsplit_sep p = Some (h, t) -> has_char c p = false -> has_char c h = false /\ has_char c t = false.
Proof.
  intros c. induction p as [|a p IH]; intros h t E H; cbn [rsplit_sep] in E; [discriminate|]. cbn [has_char] in H. destruct (Ascii.eqb a c) eqn:Q; [discriminate|]. destruct (rsplit_sep p) as [[h' t']|].
  - injection E as <- <-. destruct (IH _ _ eq_refl H) as (A & B). cbn [has_char]. rewrite Q. auto.
  - destruct (is_sep a); [|discriminate]. injection E as <- <-. cbn [has_char]. rewrite Q. auto.
Qed.
Lemma has_split : forall c p, has_char c p = false -> has_char c (snd (nt_split p)) = false.
Proof. intros c p H. unfold nt_split. destruct (rsplit_sep p) as [[h t]|] eqn:E; [|exact H]. cbn [snd]. apply (has_rsplit c p h t E H). Qed.
Lemma has_substring : forall c s n m, has_char c s = false -> has_char c (substring n m s) = false.
Proof.
  intros c. induction s as [|a s IH]; intros n m H; [destruct n, m; reflexivity|]. cbn [has_char] in H. destruct (Ascii.eqb a c) eqn:Q; [discriminate|]. destruct n as [|n]; [destruct m as [|m]; [reflexivity|]|]; cbn [substring has_char]; [rewrite Q|]; apply IH; exact H.
Qed.
Lemma has_posix : forall c p, has_char c p = false -> has_char c (snd (Model_Names.path_split p)) = false.
Proof.
  intros c p H. unfold Model_Names.path_split. destruct (rsplit1 slash p) as [[h t]|] eqn:E; [|exact H]. apply rsplit1_Some in E. destruct E as [-> _]. rewrite has_char_app in H. apply orb_false_iff in H. destruct H as [_ H]. cbn [has_char] in H. destruct (Ascii.eqb _ c); [discriminate|exact H].
Qed.
Lemma other_dec : other "010"%char /\ other "013"%char /\ other "%"%char /\ other "$"%char /\ other """"%char.
Proof. repeat split; discriminate. Qed.
Lemma copy_char : forall c p cp f, In c ["010"; "013"; "%"; "$"]%char -> has_char c (prefix p) = false -> has_char c (destination cp) = false -> has_char c f = false -> has_char c (job_line (copy_job p cp f)) = false.
Proof.
  intros c p cp f I P D F. assert (O : other c) by (destruct other_dec as (O1 & O2 & O3 & O4 & _); destruct I as [<-|[<-|[<-|[<-|[]]]]]; assumption).
  assert (Q : has_char c (nt_join (destination cp) (snd (nt_split f))) = false) by (apply has_join_path; [exact O|exact D|apply has_split; exact F]).
  assert (S : forall s, has_char c (quoted s) = has_char c s) by (intros s; unfold quoted; rewrite !has_char_app; destruct I as [<-|[<-|[<-|[<-|[]]]]]; cbn [has_char orb]; apply orb_false_r).
  unfold copy_job. destruct (ends_slash f); cbn [job_line].
  - rewrite !has_char_app, !S, !has_char_app. cbn [has_char]. rewrite !has_char_app. rewrite !(has_fix c) by (try assumption; apply has_char_dirname; apply has_substring; exact F). rewrite has_posix by (apply has_substring; exact F). destruct I as [<-|[<-|[<-|[<-|[]]]]]; reflexivity.
  - rewrite !has_char_app, !S. rewrite !(has_fix c) by assumption. destruct I as [<-|[<-|[<-|[<-|[]]]]]; reflexivity.
Qed.
Lemma jobs_plain : forall p, plain_project p -> Forall (fun j => plain (job_line j)) (jobs p).
Proof.
  intros p ((P1 & P2) & A & C). unfold jobs. apply Forall_app. split.
  - apply Forall_map. exact A.
  - apply Forall_flat_map. apply Forall_forall. intros c I. rewrite Forall_forall in C. destruct (C c I) as ((D1 & D2) & F). apply Forall_map. apply Forall_forall. intros f If. rewrite Forall_forall in F. destruct (F f If) as (F1 & F2). destruct P1 as (P11 & P12 & P13), D1 as (D11 & D12 & D13), F1 as (F11 & F12 & F13).
    split; [split; [|split]|]; apply copy_char; try assumption; cbn; auto.
Qed.
