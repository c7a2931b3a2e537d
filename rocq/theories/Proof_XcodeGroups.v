From Verif Require Import Lib Str StrFacts LibFacts Model_Names Model_Path Model_Writer Model_XcodeGroups Spec_XcodeGroups.
From Verif Require Import Proof_Path.
From Coq Require Import Lia Permutation.
Local Open Scope string_scope.

(** ** Paths in normal form *)
Definition okn (c : string) : Prop := has_char slash c = false /\ c <> "".
Fixpoint updown (l : list string) : Prop := match l with [] => True | c :: l' => (c <> ".." -> ~ In ".." l') /\ updown l' end.
Definition normal (l : list string) : Prop := l = ["."] \/ (l <> [] /\ Forall (fun c => okn c /\ c <> ".") l /\ updown l).

Lemma norm_push : forall comps acc, Forall (fun c => okn c /\ c <> ".") comps -> updown comps -> (Forall (fun a => a = "..") acc \/ ~ In ".." comps) -> norm_comps false acc comps = (rev comps ++ acc)%list.
Proof.
  induction comps as [|c comps IH]; intros acc F U A; [reflexivity|]. apply Forall_cons_iff in F. destruct F as [[[F1 F2] F3] F]. destruct U as [U1 U2]. cbn [norm_comps].
  destruct (String.eqb_spec c ""); [contradiction|]. destruct (String.eqb_spec c dot); [contradiction|]. cbn [orb].
  assert (G : negb (String.eqb c dotdot) || (negb false && match acc with [] => true | _ => false end) || match acc with a :: _ => String.eqb a dotdot | [] => false end = true).
  { destruct (String.eqb_spec c dotdot) as [->|D]; [|reflexivity]. cbn [negb orb andb]. destruct A as [A|A]; [|exfalso; apply A; left; reflexivity]. destruct acc as [|a acc]; [reflexivity|]. apply Forall_cons_iff in A. destruct A as [-> _]. reflexivity. }
  rewrite G. rewrite IH; [cbn [rev]; rewrite <- app_assoc; reflexivity|exact F|exact U2|].
  destruct (String.eqb_spec c "..") as [->|D]; [|right; exact (U1 D)]. destruct A as [A|A]; [left; constructor; [reflexivity|exact A]|right; intros I; apply A; right; exact I].
Qed.
Lemma updown_snoc : forall l c, updown l -> (c = ".." -> Forall (fun a => a = "..") l) -> updown (l ++ [c])%list.
Proof.
  induction l as [|a l IH]; intros c U A; cbn; [split; [intros _ []|exact I]|]. destruct U as [U1 U2]. split.
  - intros D J. apply in_app_or in J. destruct J as [J|[J|[]]]; [exact (U1 D J)|]. specialize (A J). apply Forall_cons_iff in A. destruct A as [A _]. contradiction.
  - apply IH; [exact U2|]. intros E. specialize (A E). apply Forall_cons_iff in A. tauto.
Qed.
Lemma updown_all : forall l, updown (l ++ [".."])%list -> Forall (fun a => a = "..") (l ++ [".."])%list.
Proof.
  induction l as [|a l IH]; intros U; [constructor; [reflexivity|constructor]|]. destruct U as [U1 U2]. constructor; [|exact (IH U2)].
  destruct (String.eqb_spec a "..") as [E|E]; [exact E|]. exfalso. apply (U1 E). apply in_or_app. right. left. reflexivity.
Qed.
Lemma updown_cut : forall l c, updown (l ++ [c])%list -> updown l.
Proof. induction l as [|a l IH]; intros c U; [exact I|]. destruct U as [U1 U2]. split; [intros D J; apply (U1 D); apply in_or_app; left; exact J|exact (IH c U2)]. Qed.
Lemma norm_updown : forall comps acc, updown (rev acc) -> updown (rev (norm_comps false acc comps)).
Proof.
  induction comps as [|c comps IH]; intros acc U; cbn [norm_comps]; [exact U|]. destruct (String.eqb c "" || String.eqb c dot); [exact (IH acc U)|].
  match goal with |- context [if ?b then _ else _] => destruct b eqn:B end.
  - apply IH. cbn [rev]. apply updown_snoc; [exact U|]. intros ->. cbn in B. destruct acc as [|a acc]; [constructor|]. apply String.eqb_eq in B. subst a. cbn [rev] in *. apply updown_all. exact U.
  - apply IH. destruct acc as [|a acc]; [exact I|]. cbn [tl rev] in *. apply (updown_cut _ a). exact U.
Qed.
Lemma normpath_rel : forall p, isabs p = false -> exists l, normpath p = String.concat "/" l /\ normal l.
Proof.
  intros p A. unfold normpath. destruct p as [|x p]; [exists ["."]; split; [reflexivity|left; reflexivity]|]. rewrite A. replace (initial_slashes (String x p)) with "" by (cbn in *; rewrite A; reflexivity).
  assert (P := norm_comps_props false (split_char slash (String x p)) [] (split_char_no_char slash _) (fun c H => match H with end)).
  assert (U := norm_updown (split_char slash (String x p)) [] I). set (r := norm_comps false [] (split_char slash (String x p))) in *.
  assert (F : Forall (fun c => okn c /\ c <> ".") (rev r)). { apply Forall_forall. intros c H. apply in_rev in H. destruct (P c H) as (P1 & P2 & P3). split; [split; assumption|assumption]. }
  change ("" ++ String.concat sep (rev r)) with (String.concat "/" (rev r)). destruct (rev r) as [|c l] eqn:E.
  - exists ["."]. split; [reflexivity|left; reflexivity].
  - exists (c :: l). assert (N : String.concat "/" (c :: l) <> "").
    { apply concat_nonempty; [|discriminate]. intros y Y. rewrite Forall_forall in F. apply F in Y. destruct Y as [[_ Y] _]. exact Y. }
    split; [destruct (String.concat "/" (c :: l)); [contradiction|reflexivity]|]. right. split; [discriminate|]. split; assumption.
Qed.
Lemma normal_okn : forall l, normal l -> Forall okn l /\ l <> [].
Proof. intros l [->|(N & F & _)]; [split; [repeat constructor; discriminate|discriminate]|]. split; [|exact N]. revert F. apply Forall_impl. tauto. Qed.
Lemma normal_split : forall l, Forall okn l -> l <> [] -> split_char slash (String.concat "/" l) = l.
Proof. intros l F N. apply split_concat; [exact N|]. intros x X. rewrite Forall_forall in F. apply F. exact X. Qed.
Lemma normal_split' : forall l, Forall okn l -> l <> [] -> split_char "/" (String.concat "/" l) = l.
Proof. exact normal_split. Qed.
Lemma normal_fix : forall l, normal l -> normpath (String.concat "/" l) = String.concat "/" l.
Proof.
  intros l H. assert (K := normal_okn l H). destruct K as [K N]. destruct H as [->|(_ & F & U)]; [reflexivity|]. unfold normpath.
  assert (A : isabs (String.concat "/" l) = false) by (apply concat_not_abs; intros c C; rewrite Forall_forall in K; exact (K c C)).
  assert (E : String.concat "/" l <> "") by (apply concat_nonempty; [intros c C; rewrite Forall_forall in K; apply (K c C)|exact N]).
  rewrite (normal_split l K N), A, (norm_push l [] F U (or_introl (Forall_nil _))). rewrite app_nil_r, rev_involutive.
  destruct (String.concat "/" l) as [|x s] eqn:S; [contradiction|]. replace (initial_slashes (String x s)) with "" by (cbn in *; rewrite A; reflexivity).
  change ("" ++ String.concat sep l) with (String.concat "/" l). rewrite S. reflexivity.
Qed.
Lemma concat_ends : forall l, Forall okn l -> l <> [] -> ends_slash (String.concat "/" l) = false.
Proof.
  induction l as [|a l IH]; intros F N; [congruence|]. apply Forall_cons_iff in F. destruct F as [[F1 F2] F]. rewrite concat_cons. destruct l as [|b l]; [apply ends_slash_no_char; assumption|].
  rewrite ends_slash_sep; [apply IH; [exact F|discriminate]|]. apply concat_nonempty; [intros c C; rewrite Forall_forall in F; apply (F c C)|discriminate].
Qed.
Lemma normal_tail : forall c d l, normal (c :: d :: l) -> normal (d :: l).
Proof. intros c d l [H|(_ & F & U)]; [discriminate H|]. right. split; [discriminate|]. split; [apply Forall_cons_iff in F; tauto|exact (proj2 U)]. Qed.
Lemma concat_snoc : forall l x, l <> [] -> String.concat "/" (l ++ [x])%list = String.concat "/" l ++ String slash x.
Proof.
  induction l as [|a l IH]; intros x N; [congruence|]. destruct l as [|b l]; [reflexivity|]. change ((a :: b :: l) ++ [x])%list with (a :: (b :: l) ++ [x])%list.
  rewrite (concat_cons _ a ((b :: l) ++ [x])%list), (concat_cons _ a (b :: l)). change ((b :: l) ++ [x])%list with (b :: (l ++ [x]))%list at 1. cbv iota. rewrite IH by discriminate. rewrite !append_assoc. reflexivity.
Qed.
Lemma rstrip_one : forall s, s <> "" -> ends_slash s = false -> rstrip slash (s ++ String slash "") = s.
Proof.
  induction s as [|a s IH]; intros N E; [congruence|]. cbn [append rstrip]. destruct s as [|b s].
  - cbn [append rstrip]. cbn in E. rewrite Ascii.eqb_refl. cbn. unfold slash in *. rewrite E. reflexivity.
  - rewrite IH; [reflexivity|discriminate|exact E].
Qed.
Lemma all_slashes_head : forall s t, s <> "" -> isabs s = false -> all_slashes (s ++ t) = false.
Proof. intros [|a s] t N A; [congruence|]. cbn in *. rewrite A. reflexivity. Qed.
Lemma split_snoc : forall l x, Forall okn l -> okn x -> l <> [] -> path_split (String.concat "/" (l ++ [x])%list) = (String.concat "/" l, x).
Proof.
  intros l x F X N. rewrite concat_snoc by exact N. unfold path_split. rewrite (proj2 (rsplit1_Some slash _ (String.concat "/" l) x)); [|split; [reflexivity|exact (proj1 X)]].
  assert (E : String.concat "/" l <> "") by (apply concat_nonempty; [intros c C; rewrite Forall_forall in F; apply (F c C)|exact N]).
  rewrite all_slashes_head; [|exact E|apply concat_not_abs; intros c C; rewrite Forall_forall in F; exact (F c C)]. rewrite rstrip_one; [reflexivity|exact E|]. apply concat_ends; assumption.
Qed.
Lemma split_one : forall x, okn x -> path_split x = ("", x).
Proof. intros x X. unfold path_split. rewrite (proj2 (rsplit1_None slash x) (proj1 X)). reflexivity. Qed.

(** ** One step of [add] *)
Definition language (d : string) : option string := let '(r, e) := splitext d in if String.eqb e ".lproj" then Some r else None.
Definition add_file (c : string) (kids : list elem) : outcome :=
  match child_at c kids with Some (File _) => Added kids | Some _ => Refused | None => append_child (new_file None c) kids end.
Definition add_group (n : nat) (d : string) (rest : list string) (kids : list elem) : outcome :=
  match child_at d kids with
  | Some (Group false q sub) =>
    match add n (String.concat "/" rest) sub with
    | Added sub' => match change (has_key d) (fun _ => Some (Group false q sub')) kids with Some k => Added k | None => Refused end
    | o => o
    end
  | Some _ => Refused
  | None =>
    match append_child (Group false (init None (Some d)) []) kids with
    | Added _ => match add n (String.concat "/" rest) [] with Added sub' => Added (kids ++ [Group false (init None (Some d)) sub'])%list | o => o end
    | o => o
    end
  end.
Lemma unsnoc : forall (l : list string), l <> [] -> exists l' x, l = (l' ++ [x])%list.
Proof. intros l N. destruct (exists_last N) as (l' & x & E). exists l', x. exact E. Qed.
Lemma add_one : forall n c kids, normal [c] -> add (S n) c kids = add_file c kids.
Proof.
  intros n c kids N. destruct (normal_okn _ N) as [K _]. assert (X : okn c) by (apply Forall_cons_iff in K; tauto). assert (E : ends_slash c = false) by (apply ends_slash_no_char; [exact (proj2 X)|exact (proj1 X)]).
  cbn [add]. rewrite E. change c with (String.concat "/" [c]) at 1. assert (Z := normal_fix [c] N). change (String.concat "/" [c]) with c in Z. change (String.concat "/" [c]) with c. rewrite !Z.
  unfold dirname. rewrite (split_one c X). cbn [fst]. change (splitext (basename "")) with ("", ""). cbv beta iota zeta. change (String.eqb "" ".lproj") with false. cbn [andb orb].
  rewrite (split_char_none "/" c (proj1 X)). cbn [length Nat.eqb orb]. reflexivity.
Qed.
Lemma add_two : forall n d x kids, normal [d; x] ->
  add (S n) (String.concat "/" [d; x]) kids = match language d with Some r => add_variant x None r (String.concat "/" [d; x]) kids | None => add_group n d [x] kids end.
Proof.
  intros n d x kids N. destruct (normal_okn _ N) as [K K']. assert (X : okn d /\ okn x) by (apply Forall_cons_iff in K; destruct K as [K1 K2]; apply Forall_cons_iff in K2; tauto). destruct X as [D X].
  cbn [add]. rewrite (concat_ends _ K K'), !(normal_fix _ N). assert (S : path_split (String.concat "/" [d; x]) = (d, x)) by (apply (split_snoc [d] x); [repeat constructor; apply D|exact X|discriminate]).
  unfold dirname. rewrite S. cbn [fst]. unfold basename at 1. rewrite (split_one d D). cbn [fst snd]. unfold language. destruct (splitext d) as [r e]. rewrite (normal_split' _ K K').
  cbn [length Nat.eqb orb andb]. destruct (String.eqb e ".lproj"); cbn [andb orb].
  - unfold basename. rewrite S. cbn [snd]. reflexivity.
  - reflexivity.
Qed.
Lemma add_more : forall n d a b l kids, normal (d :: a :: b :: l) -> add (S n) (String.concat "/" (d :: a :: b :: l)) kids = add_group n d (a :: b :: l) kids.
Proof.
  intros n d a b l kids N. destruct (normal_okn _ N) as [K K']. cbn [add]. rewrite (concat_ends _ K K'), !(normal_fix _ N). destruct (splitext (basename (dirname (String.concat "/" (d :: a :: b :: l))))) as [r e].
  rewrite (normal_split' _ K K'). cbn [length Nat.eqb orb andb]. rewrite andb_false_r. reflexivity.
Qed.
