From Verif Require Import Lib Str StrFacts LibFacts Model_Names Model_Path Model_Writer Model_XcodeGroups Spec_XcodeGroups.
From Verif Require Import Proof_Path Proof_XcodeGroups.
From Coq Require Import Lia Permutation.
Local Open Scope string_scope.

Arguments init : simpl never.
(** ** Elements that [add] makes *)
Definition okc (top : bool) (c : string) : Prop := okn c /\ (no_variable c \/ (top = true /\ variable c)).
Definition id (e : elem) : bool * option string := match e with Group true p _ => (true, name p) | _ => (false, key (props_of e)) end.
Definition no_file (kids : list elem) : Prop := forall p, ~ In (File p) kids.
Definition variant_file (n : string) (e : elem) : Prop := exists d r, language d = Some r /\ okn d /\ no_variable d /\ e = File {| name := Some r; tree := "<group>"; path := Some (d ++ "/" ++ n) |}.
Inductive good : bool -> elem -> Prop :=
| good_file top c : okc top c -> good top (File (init None (Some c)))
| good_group top c sub : okc top c -> Forall (good false) sub -> NoDup (map id sub) -> (language c <> None -> no_file sub) -> (exists s, In s (listed sub)) ->
    good top (Group false (init None (Some c)) sub)
| good_variant top n sub : okn n -> Forall (variant_file n) sub -> sub <> [] -> NoDup (map id sub) -> good top (Group true {| name := Some n; tree := "<group>"; path := None |} sub).
Definition goods (top : bool) (kids : list elem) : Prop := Forall (good top) kids /\ NoDup (map id kids).

Lemma prefix_dollar : forall v, String.prefix "$(" ("$(" ++ v) = true.
Proof. intros v. cbn. destruct v; reflexivity. Qed.
Lemma variable_end_is : forall v acc, has_char ")" v = false -> variable_end acc (v ++ ")") = Some (acc ++ v, None).
Proof.
  induction v as [|a v IH]; intros acc H; [cbn; rewrite append_nil_r; reflexivity|]. cbn [has_char] in H. cbn [append variable_end].
  destruct (Ascii.eqb a ")") eqn:E; [discriminate H|]. rewrite IH by exact H. rewrite append_assoc. reflexivity.
Qed.
Lemma substring_whole : forall s, substring 0 (String.length s) s = s.
Proof. induction s; cbn; congruence. Qed.
Lemma source_variable : forall v, has_char ")" v = false -> source_tree ("$(" ++ v ++ ")") = Some (v, None).
Proof.
  intros v H. unfold source_tree. rewrite prefix_dollar. change (String.length ("$(" ++ v ++ ")")) with (S (S (String.length (v ++ ")")))). replace (S (S (String.length (v ++ ")"))) - 2) with (String.length (v ++ ")")) by lia.
  change (substring 2 (String.length (v ++ ")")) ("$(" ++ v ++ ")")) with (substring 0 (String.length (v ++ ")")) (v ++ ")")). rewrite substring_whole. exact (variable_end_is v "" H).
Qed.
Lemma source_plain : forall c, no_variable c -> source_tree c = None.
Proof. intros c H. unfold source_tree. rewrite H. reflexivity. Qed.
Lemma basename_one : forall c, okn c -> basename c = c.
Proof. intros c C. unfold basename. rewrite (split_one c C). reflexivity. Qed.
Lemma init_name : forall c, okn c -> init None (Some c) = match source_tree c with None => {| name := None; tree := "<group>"; path := Some c |} | Some (t, Some q) => {| name := None; tree := t; path := Some q |} | Some (t, None) => {| name := Some t; tree := t; path := None |} end.
Proof. intros c C. unfold init. rewrite (basename_one c C), String.eqb_refl, orb_true_r. destruct (source_tree c) as [[t [q|]]|]; reflexivity. Qed.
Lemma init_cases : forall top c, okc top c ->
  init None (Some c) = {| name := None; tree := "<group>"; path := Some c |} \/
  (exists v, c = "$(" ++ v ++ ")" /\ v <> "<group>" /\ init None (Some c) = {| name := Some v; tree := v; path := None |}).
Proof.
  intros top c [C [N|[_ (v & E & H & G)]]]; rewrite (init_name c C).
  - left. rewrite (source_plain c N). reflexivity.
  - right. exists v. split; [exact E|]. split; [exact G|]. rewrite E. rewrite (source_variable v H). reflexivity.
Qed.
Lemma key_init : forall top c, okc top c -> key (init None (Some c)) = Some c.
Proof.
  intros top c C. destruct (init_cases top c C) as [->|(v & E & G & ->)]; [reflexivity|]. unfold key. cbn [tree path]. destruct (String.eqb_spec v "<group>"); [contradiction|]. rewrite E. reflexivity.
Qed.
Lemma place_init : forall top c, okc top c -> place "" (init None (Some c)) = c.
Proof.
  intros top c C. destruct (init_cases top c C) as [->|(v & E & G & ->)]; [reflexivity|]. unfold place. cbn [tree path]. destruct (String.eqb_spec v "<group>"); [contradiction|]. symmetry. exact E.
Qed.
Lemma new_file_init : forall top c, okc top c -> new_file None c = File (init None (Some c)).
Proof.
  intros top c C. unfold new_file. destruct (init_cases top c C) as [->|(v & E & G & ->)]; [|reflexivity]. cbn [path]. rewrite (ends_slash_no_char c (proj2 (proj1 C)) (proj1 (proj1 C))). reflexivity.
Qed.
Lemma okc_up : forall top c, okc false c -> okc top c.
Proof. intros top c [C [N|[E _]]]; [|discriminate E]. split; [exact C|left; exact N]. Qed.

(** ** Induction over elements *)
Section Elem.
Variable P : elem -> Prop.
Hypothesis on_file : forall p, P (File p).
Hypothesis on_group : forall v p kids, Forall P kids -> P (Group v p kids).
Fixpoint elem_induction (e : elem) : P e :=
  match e with
  | File p => on_file p
  | Group v p kids => on_group v p kids ((fix go l : Forall P l := match l with [] => Forall_nil P | k :: l' => Forall_cons k (elem_induction k) (go l') end) kids)
  end.
End Elem.
Lemma flat_map_ext_in : forall (A B : Type) (f g : A -> list B) l, (forall x, In x l -> f x = g x) -> flat_map f l = flat_map g l.
Proof. induction l as [|a l IH]; intros H; [reflexivity|]. cbn. rewrite (H a (or_introl eq_refl)), IH; [reflexivity|]. intros x X. apply H. right. exact X. Qed.
Lemma map_flat_map : forall (A B C : Type) (g : B -> C) (f : A -> list B) l, map g (flat_map f l) = flat_map (fun x => map g (f x)) l.
Proof. induction l as [|a l IH]; [reflexivity|]. cbn. rewrite map_app, IH. reflexivity. Qed.
Lemma files_above : forall e, good false e -> forall above, above <> "" -> files above e = map (fun s => above ++ "/" ++ s) (files "" e).
Proof.
  induction e as [p|v p kids IH] using elem_induction; intros G above A.
  - inversion G as [top c C E1 E2| |]; subst. cbn [files map]. destruct (init_cases false c C) as [->|(v & E & _)]; [|destruct C as [_ [N|[E' _]]]; [unfold no_variable in N; rewrite E, prefix_dollar in N; discriminate N|discriminate E']].
    unfold place. cbn [tree path]. change (String.eqb "<group>" "<group>") with true. cbv iota. destruct (String.eqb_spec above ""); [contradiction|]. reflexivity.
  - inversion G as [|top c sub C F D L X E1 [E2 E3 E4]|top n sub C F N D E1 [E2 E3 E4]]; subst; cbn [files].
    + assert (R : init None (Some c) = {| name := None; tree := "<group>"; path := Some c |}).
      { destruct (init_cases false c C) as [R|(v & E & _)]; [exact R|]. destruct C as [_ [N|[E' _]]]; [unfold no_variable in N; rewrite E, prefix_dollar in N; discriminate N|discriminate E']. }
      rewrite R. unfold place. cbn [tree path]. change (String.eqb "<group>" "<group>") with true. cbv iota. destruct (String.eqb_spec above ""); [contradiction|]. change (String.eqb "" "") with true. cbv iota.
      rewrite map_flat_map. apply flat_map_ext_in. intros k K. rewrite Forall_forall in IH, F. rewrite (IH k K (F k K) (above ++ "/" ++ c)) by (destruct above; discriminate). rewrite (IH k K (F k K) c) by exact (proj2 (proj1 C)).
      rewrite map_map. apply map_ext. intros s. rewrite !append_assoc. reflexivity.
    + unfold place. cbn [tree path]. change (String.eqb "<group>" "<group>") with true. cbv iota. rewrite map_flat_map. apply flat_map_ext_in. intros k K. rewrite Forall_forall in F. destruct (F k K) as (d & r & _ & _ & _ & ->).
      cbn [files map]. unfold place. cbn [tree path]. change (String.eqb "<group>" "<group>") with true. cbv iota. destruct (String.eqb_spec above ""); [contradiction|]. reflexivity.
Qed.
Lemma files_group : forall top c sub, okc top c -> Forall (good false) sub -> files "" (Group false (init None (Some c)) sub) = map (fun s => c ++ "/" ++ s) (listed sub).
Proof.
  intros top c sub C F. cbn [files]. rewrite (place_init top c C). unfold listed. rewrite map_flat_map. apply flat_map_ext_in. intros k K. rewrite Forall_forall in F. apply files_above; [exact (F k K)|]. exact (proj2 (proj1 C)).
Qed.
Lemma files_variant : forall n sub, files "" (Group true {| name := Some n; tree := "<group>"; path := None |} sub) = listed sub.
Proof. reflexivity. Qed.
Lemma listed_variant : forall n sub s, Forall (variant_file n) sub -> In s (listed sub) -> exists d r, s = d ++ "/" ++ n /\ language d = Some r /\ okn d /\ no_variable d /\ In (File {| name := Some r; tree := "<group>"; path := Some s |}) sub.
Proof.
  intros n sub s F H. unfold listed in H. apply in_flat_map in H. destruct H as (e & E & H). rewrite Forall_forall in F. destruct (F e E) as (d & r & L & D & N & ->). destruct H as [H|[]]. cbn in H. subst s. exists d, r. repeat split; try assumption; apply D.
Qed.

(** What is listed, by kind of child. *)
Lemma listed_In : forall top kids s, goods top kids -> In s (listed kids) ->
  (exists c, s = c /\ okc top c /\ In (File (init None (Some c))) kids) \/
  (exists c sub t, s = c ++ "/" ++ t /\ okc top c /\ In (Group false (init None (Some c)) sub) kids /\ In t (listed sub)) \/
  (exists n sub d r, s = d ++ "/" ++ n /\ okn n /\ okn d /\ language d = Some r /\ In (Group true {| name := Some n; tree := "<group>"; path := None |} sub) kids /\ In (File {| name := Some r; tree := "<group>"; path := Some s |}) sub).
Proof.
  intros top kids s [F _] H. unfold listed in H. apply in_flat_map in H. destruct H as (e & E & H). rewrite Forall_forall in F. assert (G := F e E). inversion G as [t c C E1 E2|t c sub C F' D L X E1 E2|t n sub C F' N D E1 E2]; subst.
  - left. destruct H as [H|[]]. rewrite (place_init top c C) in H. exists c. split; [symmetry; exact H|]. split; assumption.
  - right. left. rewrite (files_group top c sub C F') in H. apply in_map_iff in H. destruct H as (u & <- & U). exists c, sub, u. repeat split; try assumption; apply C.
  - right. right. rewrite files_variant in H. destruct (listed_variant n sub s F' H) as (d & r & -> & L & D' & _ & I). exists n, sub, d, r. repeat split; try assumption; try apply C; apply D'.
Qed.
Lemma find_split : forall (m : elem -> bool) kids e, find m kids = Some e -> m e = true /\ exists l1 l2, kids = (l1 ++ e :: l2)%list /\ forall e', change m (fun _ => Some e') kids = Some (l1 ++ e' :: l2)%list.
Proof.
  induction kids as [|k kids IH]; intros e H; [discriminate H|]. cbn in H. destruct (m k) eqn:M.
  - injection H as <-. split; [exact M|]. exists [], kids. split; [reflexivity|]. intros e'. cbn. rewrite M. reflexivity.
  - destruct (IH e H) as (Me & l1 & l2 & -> & C). split; [exact Me|]. exists (k :: l1), l2. split; [reflexivity|]. intros e'. cbn [change app]. rewrite M, C. reflexivity.
Qed.
Lemma nodup_same : forall (kids : list elem) a b, NoDup (map id kids) -> In a kids -> In b kids -> id a = id b -> a = b.
Proof.
  induction kids as [|k kids IH]; intros a b D A B E; [destruct A|]. cbn in D. apply NoDup_cons_iff in D. destruct D as [D1 D2]. destruct A as [<-|A], B as [<-|B]; [reflexivity| | |exact (IH a b D2 A B E)].
  - exfalso. apply D1. rewrite E. apply in_map. exact B.
  - exfalso. apply D1. rewrite <- E. apply in_map. exact A.
Qed.
Lemma slash_split : forall a b c d, has_char slash a = false -> has_char slash c = false -> a ++ "/" ++ b = c ++ "/" ++ d -> a = c /\ b = d.
Proof.
  induction a as [|x a IH]; intros b c d A C E; destruct c as [|y c].
  - split; [reflexivity|]. cbn in E. injection E as E. exact E.
  - cbn in E. injection E as E _. subst y. cbn in C. discriminate C.
  - cbn in E. injection E as E _. subst x. cbn in A. discriminate A.
  - cbn in E. injection E as E1 E2. subst y. cbn [has_char] in A, C. destruct (Ascii.eqb x slash); [discriminate A|]. destruct (IH b c d A C E2) as [-> ->]. split; reflexivity.
Qed.
Lemma no_slash_app : forall c a b, has_char slash c = false -> c <> a ++ "/" ++ b.
Proof. intros c a b H E. rewrite E, has_char_app in H. cbn in H. rewrite orb_true_r in H. discriminate H. Qed.
Lemma has_key_id : forall top e c, good top e -> okn c -> has_key c e = true <-> id e = (false, Some c).
Proof.
  intros top e c G C. unfold has_key, id. inversion G as [t d D E1 E2|t d sub D F N L X E1 E2|t n sub D F N U E1 E2]; subst; cbn [props_of].
  - rewrite (key_init top d D). rewrite String.eqb_eq. split; [intros ->; reflexivity|congruence].
  - rewrite (key_init top d D). rewrite String.eqb_eq. split; [intros ->; reflexivity|congruence].
  - cbn. split; discriminate.
Qed.
Lemma variant_id : forall top e n, good top e -> is_variant (Some n) None e = true <-> id e = (true, Some n).
Proof.
  intros top e n G. unfold is_variant, id. inversion G as [t d D E1 E2|t d sub D F N L X E1 E2|t m sub D F N U E1 E2]; subst; cbn [name props_of].
  - split; discriminate.
  - split; discriminate.
  - cbn. rewrite andb_true_r, String.eqb_eq. split; [intros ->; reflexivity|congruence].
Qed.
Lemma id_cases : forall top e c, good top e -> id e = (false, Some c) -> okc top c /\ (e = File (init None (Some c)) \/ exists sub, e = Group false (init None (Some c)) sub /\ Forall (good false) sub /\ NoDup (map id sub) /\ (language c <> None -> no_file sub) /\ exists s, In s (listed sub)).
Proof.
  intros top e c G E. inversion G as [t d D E1 E2|t d sub D F N L X E1 E2|t m sub D F N U E1 E2]; subst; cbn [id props_of name] in E.
  - rewrite (key_init top d D) in E. injection E as ->. split; [exact D|left; reflexivity].
  - rewrite (key_init top d D) in E. injection E as ->. split; [exact D|right; exists sub; repeat split; assumption].
  - discriminate E.
Qed.
Lemma id_variant : forall top e n, good top e -> id e = (true, Some n) -> exists sub, e = Group true {| name := Some n; tree := "<group>"; path := None |} sub /\ okn n /\ Forall (variant_file n) sub /\ sub <> [] /\ NoDup (map id sub).
Proof.
  intros top e n G E. inversion G as [t d D E1 E2|t d sub D F N L X E1 E2|t m sub D F N U E1 E2]; subst; cbn [id props_of name] in E; try discriminate E. injection E as ->. exists sub. repeat split; try assumption; apply D.
Qed.
Lemma listed_app : forall a b, listed (a ++ b)%list = (listed a ++ listed b)%list.
Proof. intros a b. unfold listed. apply flat_map_app. Qed.
