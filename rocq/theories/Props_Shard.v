(** Property theorems: sharding partitions sources and redirects dependencies
    (C34).  [pieces], [whole], [replaced], [piece_of] are in Spec_Shard. *)
From Coq Require Import ZArith.
From Verif Require Import Lib LibFacts Str Model_Shard Spec_Shard Proof_Shard.
Local Open Scope string_scope.

(** C34: in the target list and in the target table every cut target is
    replaced, in place, by all its pieces and nothing else changes. *)
Theorem C34_list : forall (A : Type) (ds : list (string * target A)) l, NoDup (map fst ds) -> counts_ok ds -> replaced ds l (fst (shard_targets l ds)).
Proof. intros A ds l H HC. exact (shard_list_replaced ds l H HC). Qed.
Print Assumptions C34_list.
Theorem C34_table : forall (A : Type) tl (ds : list (string * target A)), NoDup (map fst ds) -> counts_ok ds -> no_clash ds ->
  replaced ds (map fst ds) (map fst (snd (shard_targets tl ds))) /\ NoDup (map fst (snd (shard_targets tl ds))).
Proof. intros A. exact shard_keys. Qed.
Print Assumptions C34_table.

(** C34: a target that is not cut keeps its name, sources and settings, and its
    dependencies are redirected to the pieces. *)
Theorem C34_whole : forall (A : Type) tl (ds : list (string * target A)) t d, NoDup (map fst ds) -> counts_ok ds -> no_clash ds -> In (t, d) ds -> t_shards d = 0%Z ->
  exists d', assoc t (snd (shard_targets tl ds)) = Some d' /\ t_name d' = t_name d /\ t_sources d' = t_sources d /\
    replaced ds (t_deps d) (t_deps d') /\ replaced ds (t_deps_original d) (t_deps_original d') /\ t_rest d' = t_rest d.
Proof. intros A. exact shard_whole. Qed.
Print Assumptions C34_whole.

(** C34: piece [i] of [n] has the sources number [i], [i + n], [i + 2n], ... in
    order, its dependencies are redirected too, and the rest is a copy. *)
Theorem C34_pieces : forall (A : Type) tl (ds : list (string * target A)) t d n i, NoDup (map fst ds) -> counts_ok ds -> no_clash ds ->
  In (t, d) ds -> t_shards d = Z.of_nat n -> i < n ->
  exists p, assoc (shard_name t i) (snd (shard_targets tl ds)) = Some p /\ piece_of ds d n i p.
Proof. intros A tl ds t d n i H1 H2 H3 H4 H5 H6. destruct (shard_pieces tl ds t d n i H1 H2 H3 H4 H5 H6) as (p & E & HP & _). exists p. auto. Qed.
Print Assumptions C34_pieces.

(** C34: together the pieces have every source of the target exactly as often
    as the target had it. *)
Theorem C34_sources : forall (A : Type) tl (ds : list (string * target A)) t d n, NoDup (map fst ds) -> counts_ok ds -> no_clash ds ->
  In (t, d) ds -> t_shards d = Z.of_nat n -> n <> 0 ->
  Permutation (flat_map (fun i => match assoc (shard_name t i) (snd (shard_targets tl ds)) with Some p => t_sources p | None => [] end) (seq 0 n)) (t_sources d).
Proof. intros A. exact shard_sources_perm. Qed.
Print Assumptions C34_sources.

(** Different pieces have different names, whatever the target names. *)
Theorem C34_names : forall t u i j, shard_name t i = shard_name u j -> t = u /\ i = j.
Proof. exact shard_name_inj. Qed.
Print Assumptions C34_names.

Definition ex_shard : list (string * target nat) :=
  [("x.gyp:a#target", mk_target "a" ["1"; "2"; "3"; "4"; "5"] [] [] 2%Z 7); ("x.gyp:b#target", mk_target "b" ["z"] ["x.gyp:c#target"; "x.gyp:a#target"] [] 0%Z 8);
   ("x.gyp:c#target", mk_target "c" [] ["x.gyp:a#target"] ["x.gyp:a#target"] 0%Z 9)].
Example C34_witness : NoDup (map fst ex_shard) /\ counts_ok ex_shard /\ no_clash ex_shard /\ pieces ex_shard "x.gyp:a#target" 2 /\
  shard_targets (map fst ex_shard) ex_shard = (["x.gyp:a_0#target"; "x.gyp:a_1#target"; "x.gyp:b#target"; "x.gyp:c#target"],
    [("x.gyp:a_0#target", mk_target "a_0" ["1"; "3"; "5"] [] [] 2%Z 7); ("x.gyp:a_1#target", mk_target "a_1" ["2"; "4"] [] [] 2%Z 7);
     ("x.gyp:b#target", mk_target "b" ["z"] ["x.gyp:c#target"; "x.gyp:a_0#target"; "x.gyp:a_1#target"] [] 0%Z 8);
     ("x.gyp:c#target", mk_target "c" [] ["x.gyp:a_0#target"; "x.gyp:a_1#target"] ["x.gyp:a_0#target"; "x.gyp:a_1#target"] 0%Z 9)]).
Proof.
  split; [repeat constructor; cbn; intuition discriminate|]. split; [|split; [|split; [|reflexivity]]].
  - intros t d H. cbn in H. destruct H as [H|[H|[H|[]]]]; injection H as <- <-; cbn; lia.
  - intros t n i u (d & H & E & N) Hi Hu _ X. cbn in H. destruct H as [H|[H|[H|[]]]]; injection H as <- <-; cbn in E; [|lia|lia]. assert (n = 2) by lia. subst n.
    destruct i as [|[|i]]; [| |lia]; cbn in Hu; destruct Hu as [Hu|[Hu|[Hu|[]]]]; subst u; discriminate X.
  - eexists. split; [left; reflexivity|]. split; [reflexivity|lia].
Qed.

(** Refuted without [no_clash]: a piece named like another target is lost. *)
Theorem C34_clash_refuted : exists ds : list (string * target unit), NoDup (map fst ds) /\ counts_ok ds /\
  snd (shard_targets (map fst ds) ds) = [("a_0", mk_target "other" ["c"] [] [] 0%Z tt); ("a_1", mk_target "a_1" ["y"] [] [] 2%Z tt)].
Proof. exact clash. Qed.
Print Assumptions C34_clash_refuted.
