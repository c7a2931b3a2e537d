(** Proofs about Xcode project files: when they are written. *)
From Verif Require Import Lib Str StrFacts LibFacts Model_Quote Model_Writer Model_Pbx Spec_Pbx Proof_Pbx Proof_Pbx2 Proof_Pbx3.
From Coq Require Import ZArith Permutation Lia.
Local Open Scope string_scope.

Theorem value_read : forall single alternate flat tabs v t, tame_value v -> printable single alternate flat tabs v = Some t -> exists p, same flat v p /\ read_as t p.
Proof.
  intros single alternate flat tabs v t T E. destruct (value_said single alternate flat v T tabs t E) as (p & S & R). exists p. split; [exact S|]. destruct (R "" I) as (r & H & K). rewrite append_nil_r in H. exists r. split; [exact H|rewrite K; reflexivity].
Qed.
Theorem read_as_once : forall file p q, read_as file p -> read_as file q -> p = q.
Proof. intros file p q (r & H & _) (r' & H' & _). exact (proj1 (read_once file p r H q r' H')). Qed.

Lemma all_some_total : forall A B (f : A -> option B) l, Forall (fun x => exists y, f x = Some y) l -> exists r, all_some (map f l) = Some r.
Proof. intros A B f l F. induction F as [|x l [y E] F (r & IH)]; [exists []; reflexivity|]. exists (y :: r). cbn [map all_some]. rewrite E, IH. reflexivity. Qed.
Theorem value_written : forall single alternate flat v, writable flat v -> forall tabs, exists t, printable single alternate flat tabs v = Some t.
Proof.
  intros single alternate flat. induction v as [s|z|i c|l IH|l IH] using value_ind'; intros W tabs.
  - eexists. reflexivity.
  - eexists. reflexivity.
  - eexists. reflexivity.
  - inversion W as [| | |? H F|]; subst. destruct (all_some_total _ _ (printable single alternate flat (S tabs)) l) as (ts & E).
    { clear H W. induction F as [|v l Wv F IHF]; [constructor|]. inversion IH as [|? ? I1 I2]; subst. constructor; [apply I1; exact Wv|apply IHF; exact I2]. }
    cbn [printable]. rewrite E. destruct flat; [|eexists; reflexivity]. destruct l as [|v [|w l]]; [eexists; reflexivity| |destruct v; eexists; reflexivity].
    destruct v as [s|?|? ?|?|?]; [eexists; reflexivity|..]; destruct (H eq_refl _ eq_refl) as (s & X); discriminate X.
  - inversion W as [| | | |? F]; subst. cbn [printable].
    destruct (all_some_total _ _ (fun kv => with_key (fst kv, printable single alternate flat (S tabs) (snd kv))) l) as (ts & E).
    { clear W. induction F as [|v l Wv F IHF]; [constructor|]. inversion IH as [|? ? I1 I2]; subst. constructor; [|apply IHF; exact I2]. destruct (I1 Wv (S tabs)) as (t & Et). rewrite Et. eexists. reflexivity. }
    rewrite E. eexists. reflexivity.
Qed.
Lemma property_written : forall c tabs kv, writable_property c kv -> exists t, key_value c tabs kv = Some t.
Proof.
  intros c tabs [k v] (W1 & W2 & W3). unfold key_value. cbv zeta. cbn [fst snd] in *.
  assert (V : exists v', (if String.eqb k "remoteGlobalIDString" && String.eqb c "PBXContainerItemProxy" then match v with Reference i _ => Some (Text i) | _ => None end else Some v) = Some v' /\ writable (String.eqb k "buildSettings" && String.eqb c "XCBuildConfiguration") v').
  { destruct (String.eqb_spec k "remoteGlobalIDString") as [->|K]; [destruct (String.eqb_spec c "PBXContainerItemProxy") as [->|C]|]; cbn [andb].
    - destruct (W1 eq_refl eq_refl) as (i & m & ->). exists (Text i). split; [reflexivity|apply writable_text].
    - exists v. split; [reflexivity|]. change (String.eqb "remoteGlobalIDString" "buildSettings") with false. cbn [andb]. apply W3. right. discriminate.
    - exists v. split; [reflexivity|]. destruct (String.eqb_spec k "buildSettings") as [->|K2]; [destruct (String.eqb_spec c "XCBuildConfiguration") as [->|C2]|]; cbn [andb]; auto. }
  destruct V as (v' & -> & V). destruct (value_written (on_one_line c) (on_one_line c) _ v' V tabs) as (t & ->). eexists. reflexivity.
Qed.
Lemma object_written : forall o, writable_object o -> exists t, print_object o = Some t.
Proof.
  intros o W. unfold print_object. cbv zeta. cbn [printable].
  destruct (all_some_total _ _ (key_value (class o) 3) (("isa", Text (class o)) :: sort_by fst (properties o))) as (ts & E); [|rewrite E; eexists; reflexivity].
  constructor.
  - apply property_written. split; [|split]; cbn [fst snd]; [discriminate|discriminate|intros _; apply writable_text].
  - rewrite Forall_forall. intros kv I. apply property_written. unfold writable_object in W. rewrite Forall_forall in W. apply W. exact (Permutation_in _ (Permutation_sym (sort_by_perm _ fst _)) I).
Qed.
Theorem file_written : forall props os, Forall (fun kv => writable false (snd kv)) props -> Forall writable_object os -> exists text, print_file props os = Some text.
Proof.
  intros props os P O. rewrite Forall_forall in P, O. unfold print_file.
  match goal with |- context [all_some (map ?f ?l)] => destruct (all_some_total _ _ f l) as (ts & E); [|rewrite E; eexists; reflexivity] end.
  rewrite Forall_forall. intros kv I. apply (Permutation_in _ (Permutation_sym (sort_by_perm _ fst _))) in I. destruct (String.eqb_spec (fst kv) "objects") as [X|X].
  - unfold print_objects. destruct (all_some_total _ _ (print_section os) (sort (classes [] os))) as (us & U); [|rewrite U; eexists; reflexivity].
    rewrite Forall_forall. intros c _. unfold print_section. destruct (all_some_total _ _ print_object (sort_by id (filter (fun o => String.eqb (class o) c) os))) as (vs & V); [|rewrite V; eexists; reflexivity].
    rewrite Forall_forall. intros o J. apply object_written, O. apply (Permutation_in _ (Permutation_sym (sort_by_perm _ id _))) in J. apply filter_In in J. exact (proj1 J).
  - destruct I as [I|I]; [subst kv; contradiction|]. apply filter_In in I. destruct I as [I _]. apply property_written. split; [discriminate|]. split; [discriminate|]. intros _. exact (P kv I).
Qed.
Lemma plain_tame : forall s, has_char "013" s = false -> has_char "010" s = false -> String.prefix "//" s = false -> tame s.
Proof.
  intros s R N S. split; [exact R|]. split.
  - intros (b & _ & -> & _). rewrite has_char_app in N. apply orb_false_iff in N. destruct N as [_ N]. discriminate N.
  - intros (r & -> & _). cbn in S. destruct r; discriminate S.
Qed.
