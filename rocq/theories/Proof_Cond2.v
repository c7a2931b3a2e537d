(** The phase pass: keys, depth and termination. *)
From Verif Require Import LibFacts StrFacts Model_Value Model_Merge Model_Filter Model_Cond Spec_Merge Spec_Cond
  Proof_Merge Proof_Merge2 Proof_Merge3 Proof_Filter Proof_Filter2 Proof_Cond.
Local Open Scope string_scope.

(** Depth at most [n], no repeated keys, all keys in [Q]. *)
Fixpoint ok (Q : string -> Prop) (n : nat) (v : value) {struct n} : Prop :=
  match n with
  | O => False
  | S n' => match v with
            | VList l => Forall (ok Q n') l
            | VDict d => NoDup (map fst d) /\ Forall (fun e => Q (fst e) /\ ok Q n' (snd e)) d
            | _ => True
            end
  end.
Lemma ok_mono : forall (Q Q' : string -> Prop) n m v, n <= m -> (forall k, Q k -> Q' k) -> ok Q n v -> ok Q' m v.
Proof.
  intros Q Q' n. induction n as [|n IH]; intros m v Hm HQ H; [destruct H|]. destruct m as [|m]; [lia|].
  destruct v as [s|z|l|d|c]; cbn [ok] in *; auto.
  - rewrite Forall_forall in *. intros x Hx. apply IH; [lia|exact HQ|auto].
  - destruct H as [ND H]. split; [exact ND|]. rewrite Forall_forall in *. intros x Hx. destruct (H x Hx) as [H1 H2]. split; [auto|]. apply IH; [lia|exact HQ|exact H2].
Qed.
Lemma ok_all_keys : forall Q n v, ok Q n v <-> depth v <= n /\ all_keys Q v /\ no_dup_keys v.
Proof.
  intros Q n. induction n as [|n IH]; intros v.
  - split; [intros []|]. intros [H _]. pose proof (depth_pos v). lia.
  - destruct v as [s|z|l|d|c]; cbn [ok].
    + split; [intros _; split; [cbn; lia|split; constructor]|intros; exact I].
    + split; [intros _; split; [cbn; lia|split; constructor]|intros; exact I].
    + rewrite depth_list_le. split.
      * intros F. split; [|split; constructor]; rewrite Forall_forall in *; intros x Hx; apply IH; auto.
      * intros (F1 & F2 & F3). inversion F2; inversion F3; subst. rewrite Forall_forall in *. intros x Hx. apply IH. auto.
    + rewrite depth_dict_le. split.
      * intros [ND F]. split; [|split; constructor]; try exact ND; rewrite Forall_forall in *; intros x Hx.
        -- apply IH, F; exact Hx.
        -- split; [apply F; exact Hx|]. apply IH, F; exact Hx.
        -- apply IH, F; exact Hx.
      * intros (F1 & F2 & F4). inversion F2 as [| | | |? F3]; subst. inversion F4 as [| | | |? ND F5]; subst. split; [exact ND|].
        rewrite Forall_forall in *. intros x Hx. split; [apply F3; exact Hx|].
        apply IH. split; [auto|]. split; [apply F3; exact Hx|apply F5; exact Hx].
    + split; [intros _; split; [cbn; lia|split; constructor]|intros; exact I].
Qed.

Definition closed_keys (Q : string -> Prop) : Prop := forall k l b, affects k (VList l) b -> Q k -> Q b.

Section Merge.
  Variable c : ctx.
  Variable Q : string -> Prop.
  Hypothesis HQ : closed_keys Q.

  Lemma affects_Q : forall k v b, affects k v b -> Q k -> Q b.
  Proof. intros k v b HA H. destruct v as [s|z|l|d|cl]; try (cbn in HA; subst; exact H). eapply HQ; eassumption. Qed.

  Lemma ok_nil : forall n v, ok Q n v -> ok Q n (VList []) /\ ok Q n (VDict []).
  Proof. intros [|n] v H; [destruct H|]. split; [constructor|split; constructor]. Qed.
  Lemma ok_scalar : forall n v w, ok Q n v -> match w with VList _ | VDict _ => False | _ => True end -> ok Q n w.
  Proof. intros [|n] v w H Hw; [destruct H|]. destruct w; cbn; auto; destruct Hw. Qed.

  Definition merge_ok_at (n : nat) : Prop := forall v, ok Q n v -> forall ip ap to w, ok Q n to -> merge c v ip ap to = Val w -> ok Q n w.

  Lemma merge_dicts_ok_at : forall n d0 d d', merge_ok_at n -> ok Q n (VDict d) -> ok Q n (VDict d0) -> merge_dicts c d0 d = Val d' -> ok Q n (VDict d').
  Proof. intros n d0 d d' M H1 H2 H. eapply M with (ip := false) (ap := true); [exact H1|exact H2|]. apply merge_as_dicts. eauto. Qed.
  Lemma merge_lists_ok_at : forall n ip ap d0 d d', merge_ok_at n -> ok Q n (VList d) -> ok Q n (VList d0) -> merge_lists c ip ap d0 d = Val d' -> ok Q n (VList d').
  Proof. intros n ip ap d0 d d' M H1 H2 H. eapply M with (ip := ip) (ap := ap); [exact H1|exact H2|]. apply merge_as_lists. eauto. Qed.

  Lemma effect_ok : forall n b k v old w, merge_ok_at n -> ok Q n v -> (forall o, old = Some o -> ok Q n o) ->
    effect c b k v old w -> ok Q n w.
  Proof.
    intros n b k v old w M Hv Ho HE. destruct (ok_nil _ _ Hv) as [NL ND].
    assert (LE : forall l0, list_or_empty old l0 -> ok Q n (VList l0)) by (intros l0 [E|[_ ->]]; [auto|exact NL]).
    destruct v as [s|z|l|d|cl]; cbn [effect] in HE.
    - subst. eapply ok_scalar; [exact Hv|exact I].
    - subst. eapply ok_scalar; [exact Hv|exact I].
    - destruct HE as [(_ & l' & H & ->)|[(_ & l0 & l' & HL & H & ->)|[(_ & [E|(_ & l' & H & ->)])|(_ & l0 & l' & HL & H & ->)]]].
      + eapply merge_lists_ok_at; [exact M|exact Hv|exact NL|exact H].
      + eapply merge_lists_ok_at; [exact M|exact Hv|apply LE; exact HL|exact H].
      + auto.
      + eapply merge_lists_ok_at; [exact M|exact Hv|exact NL|exact H].
      + eapply merge_lists_ok_at; [exact M|exact Hv|apply LE; exact HL|exact H].
    - destruct HE as (d0 & d' & HD & H & ->). eapply merge_dicts_ok_at; [exact M|exact Hv| |exact H].
      destruct HD as [E|[_ ->]]; [auto|exact ND].
    - destruct HE.
  Qed.

  (** Entries of a merge, with a predicate on entries that may depend on the key. *)
  Lemma dict_loop_inv : forall (E : string -> value -> Prop) fk es td td',
    (forall k v b old w, In (k, v) es -> affects k v b -> (forall o, old = Some o -> E b o) -> effect c b k v old w -> E b w) ->
    Forall (fun e => E (fst e) (snd e)) td -> dict_loop c fk es td = Val td' -> Forall (fun e => E (fst e) (snd e)) td'.
  Proof.
    intros E fk es. induction es as [|[k v] es IH]; intros td td' HE F H.
    - cbn in H. inversion H; subst. exact F.
    - rewrite dict_loop_cons in H. destruct (merge_entry c fk k v (merge c v) td) as [t1|e] eqn:EM; [|discriminate]. cbn [rbind] in H.
      apply (IH t1); [intros; eapply HE; [right|..]; eassumption| |exact H].
      apply merge_entry_result in EM. destruct EM as [b0 new HA HF ->|b0 new HA HF HO ->].
      + apply set_key_Forall; [|exact F]. cbn. eapply HE; [left; reflexivity|exact HA| |exact HF].
        intros o Ho. apply assoc_In in Ho. rewrite Forall_forall in F. exact (F _ Ho).
      + exact F.
  Qed.

  Lemma merge_ok : forall n, merge_ok_at n.
  Proof.
    induction n as [|n IH]; intros v Hv ip ap to w Ht H; [destruct Hv|].
    destruct v as [s|z|fl|fd|cl].
    - Transparent merge. destruct to; discriminate H.
    - destruct to; discriminate H.
    - destruct to as [s|z|tl|td|cl]; try discriminate H. apply merge_as_lists in H. destruct H as (l' & H & ->).
      apply merge_members in H. destruct H as (copies & F & HM). cbn [ok] in *. rewrite Forall_forall in *. intros y Hy. apply HM in Hy.
      destruct Hy as [Hy|Hy]; [auto|]. apply in_map_iff in Hy. destruct Hy as ([y' b] & E & Hy). cbn in E. subst y'.
      assert (G : exists item, In item fl /\ copy_of c ip item (y, b)).
      { clear - F Hy. induction F as [|item ci fl copies HC F IH]; [destruct Hy|]. destruct Hy as [->|Hy]; [exists item; split; [left; reflexivity|exact HC]|].
        destruct (IH Hy) as (it & H1 & H2). exists it. split; [right; exact H1|exact H2]. }
      destruct G as (item & Hin & HC). apply Hv in Hin. destruct (ok_nil _ _ Hin) as [NL ND]. destruct item as [s|z|l|d|cl]; cbn [copy_of] in HC.
      + inversion HC. eapply ok_scalar; [exact Hin|exact I].
      + inversion HC. eapply ok_scalar; [exact Hin|exact I].
      + destruct HC as (l2 & H2 & E). inversion E. eapply merge_lists_ok_at; [exact IH|exact Hin|exact NL|exact H2].
      + destruct HC as (l2 & H2 & E). inversion E. eapply merge_dicts_ok_at; [exact IH|exact Hin|exact ND|exact H2].
      + destruct HC.
    - destruct to as [s|z|tl|td|cl]; try discriminate H. apply merge_as_dicts in H. destruct H as (d' & H & ->).
      cbn [ok] in *. destruct Hv as [_ Hv], Ht as [ND Ht]. split.
      { destruct (merge_dicts_keys _ _ _ _ H) as (extra & _ & _ & HN). auto. }
      rewrite merge_dicts_eq in H. eapply (dict_loop_inv (fun k v => Q k /\ ok Q n v)); [|exact Ht|exact H].
      intros k v b old w Hin HA Ho HE. rewrite Forall_forall in Hv. destruct (Hv _ Hin) as [H1 H2]. cbn in H1, H2.
      split; [eapply affects_Q; eassumption|]. eapply effect_ok; [exact IH|exact H2| |exact HE]. intros o Eo. apply Ho. exact Eo.
    - destruct to; discriminate H.
  Qed.
End Merge.
Global Opaque merge.

(** ** Merging raises no out-of-fuel *)
Lemma merge_nn : forall c n v, depth v <= n -> forall ip ap to, no_nofuel (merge c v ip ap to).
Proof.
  intros c n. induction n as [|n IH]; intros v Hd ip ap to; [pose proof (depth_pos v); lia|].
  Transparent merge. destruct v as [s|z|fl|fd|cl]; try discriminate; destruct to as [s|z|tl|td|cl]; try discriminate.
  - rewrite merge_list_eq. apply nn_bind; [|discriminate]. apply depth_list_le in Hd.
    generalize (tl, filter is_hashable tl, 0). induction Hd as [|x fl Hx Hd IHl]; intros st; [discriminate|].
    rewrite list_loop_cons. apply nn_bind; [|auto]. 
    destruct x as [s|z|l|d|cl]; cbn [copy_item]; try discriminate.
    + apply nn_bind; [|discriminate]. destruct ip; [|discriminate]. unfold move_int. destruct (String.eqb _ _); discriminate.
    + apply nn_bind; [apply IH; exact Hx|discriminate].
    + apply nn_bind; [apply IH; exact Hx|discriminate].
  - rewrite merge_dict_eq. apply nn_bind; [|discriminate]. apply depth_dict_le in Hd.
    generalize (map fst fd) as fk. revert td. induction Hd as [|[k x] fd Hx Hd IHl]; intros td fk; [discriminate|].
    rewrite dict_loop_cons. apply nn_bind; [|auto]. cbn [snd] in Hx. specialize (IH x Hx). revert IH. generalize (merge c x). intros rec IH.
    unfold merge_entry. destruct (match assoc k td with Some _ => _ | None => _ end); [discriminate|].
    destruct x as [s|z|l|d|cl]; try discriminate.
    + apply nn_bind; [|discriminate]. destruct (is_path_section _ _); [|discriminate]. unfold move_int. destruct (String.eqb _ _); discriminate.
    + destruct (list_policy k) as [[p base]|]; [|discriminate]. cbv zeta. destruct (find _ _); [discriminate|].
      destruct (assoc base _) as [old|].
      * destruct p; try discriminate; destruct old; try discriminate; (apply nn_bind; [apply IH|discriminate]).
      * apply nn_bind; [apply IH|discriminate].
    + apply nn_bind; [apply IH|discriminate].
Qed.
Global Opaque merge.
Lemma merge_dicts_nn : forall c to fro, no_nofuel (merge_dicts c to fro).
Proof.
  intros c to fro. unfold merge_dicts. apply nn_bind; [eapply merge_nn; apply le_n|]. intros [s|z|l|d|cl] _; discriminate.
Qed.
