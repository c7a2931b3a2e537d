(** Property theorems: list filters (C16, C17). *)
From Verif Require Import LibFacts StrFacts Model_Value Model_Filter Spec_Merge Spec_Filter Proof_Merge2 Proof_Filter Proof_Filter2.
Local Open Scope string_scope.

(** C16/C17: the list [b] of strings, filtered by [b!] and [b/], is split in
    order into the items that stay in [b] and the items moved to [b_excluded];
    an item moves exactly when it is [excluded] (last matching action wins). *)
Theorem C16_partition : forall eqv compiles search d w b l, plain_filters d ->
  process_list_filters eqv compiles search d = Val (VDict w) ->
  assoc b d = Some (VList l) -> Forall (fun x => exists s, x = VStr s) l ->
  In (b ++ "!") (map fst d) \/ In (b ++ "/") (map fst d) ->
  exists ex filters kept excl,
    exclusions (assoc (b ++ "!") d) ex /\ filter_pairs (assoc (b ++ "/") d) filters /\
    splits (fun x => excluded search (exists e, In e ex /\ eqv e x = true) filters x) l excl kept /\
    assoc b w = Some (VList kept) /\ assoc (b ++ "_excluded") d = None /\
    assoc (b ++ "_excluded") w = match excl with [] => None | _ => Some (VList excl) end.
Proof. exact process_strings. Qed.
Print Assumptions C16_partition.

(** C16: nothing is lost, invented or duplicated by a split. *)
Theorem C16_split_nothing_lost : forall A (p : A -> Prop) l yes no, splits p l yes no ->
  Permutation l (yes ++ no) /\ sublist yes l /\ sublist no l /\ Forall p yes /\ Forall (fun x => ~ p x) no.
Proof. exact splits_meaning. Qed.
Print Assumptions C16_split_nothing_lost.

(** C16: no filter key survives, at any depth. *)
Theorem C16_filter_keys_gone : forall eqv compiles search d w,
  process_list_filters eqv compiles search d = Val w -> filter_free w.
Proof. exact process_free. Qed.
Print Assumptions C16_filter_keys_gone.

(** C16: lists without filters keep their items (one dictionary). *)
Theorem C16_others_unchanged : forall eqv compiles search d d' k, plain_filters d ->
  filter_dict eqv compiles search d = Val d' -> ~ is_filter_key k ->
  (forall b, In b (map fst d) -> (In (b ++ "!") (map fst d) \/ In (b ++ "/") (map fst d)) -> k <> b /\ k <> b ++ "_excluded") ->
  assoc k d' = assoc k d.
Proof. exact filter_dict_others. Qed.
Print Assumptions C16_others_unchanged.

(** C16: the pass visits every nested dictionary and list once (no recursion
    limit is met). *)
Theorem C16_terminates : forall eqv compiles search d, process_list_filters eqv compiles search d <> Exn NoFuel.
Proof. exact process_terminates. Qed.
Print Assumptions C16_terminates.

(** C17: with the [!] list absent, the verdict depends on the last match only. *)
Theorem C17_last_match : forall search filters before p after a item, filters = (before ++ (a, p) :: after)%list ->
  (forall x, In x filters -> fst x = "exclude" \/ fst x = "include") ->
  matches search p item -> (forall x q, In (x, q) after -> ~ matches search q item) ->
  forall named, excluded search named filters item <-> a = "exclude".
Proof. exact last_match_decides. Qed.
Print Assumptions C17_last_match.
(** C17: with no match, the [!] list decides. *)
Theorem C17_no_match : forall search filters item, (forall x q, In (x, q) filters -> ~ matches search q item) ->
  forall named, excluded search named filters item <-> named.
Proof. exact no_match_decides. Qed.
Print Assumptions C17_no_match.

(** A dictionary on which all the above says something. *)
Definition ex_search (p s : string) : bool := String.prefix p s.
Definition ex_dict : dict :=
  [("sources", VList [VStr "a.c"; VStr "b.c"; VStr "b_win.c"; VStr "c.c"]);
   ("sources!", VList [VStr "a.c"; VStr "c.c"]);
   ("sources/", VList [VList [VStr "exclude"; VStr "b"]; VList [VStr "include"; VStr "b_"]; VList [VStr "include"; VStr "c"]]);
   ("defines", VList [VStr "X"])].
Example C16_witness : plain_filters ex_dict /\
  process_list_filters scalar_eqb (fun _ => true) ex_search ex_dict = Val (VDict
   [("sources", VList [VStr "b_win.c"; VStr "c.c"]);
    ("defines", VList [VStr "X"]);
    ("sources_excluded", VList [VStr "a.c"; VStr "b.c"])]).
Proof.
  split; [|reflexivity]. intros b s Hs Hin [(q & E)|(q & E)]; subst b; cbn in Hin, Hs;
    destruct Hs as [<-|[<-|[]]]; destruct Hin as [H|[H|[H|[H|[]]]]];
    try (apply (f_equal last_char) in H; rewrite last_char_snoc in H; discriminate H);
    apply (f_equal drop_last) in H; rewrite drop_last_snoc in H;
    apply (f_equal last_char) in H; rewrite last_char_snoc in H; discriminate H.
Qed.
Example C17_witness : excluded ex_search True [("exclude", "b"); ("include", "b_")] (VStr "b.c") /\
  ~ excluded ex_search True [("exclude", "b"); ("include", "b_")] (VStr "b_win.c").
Proof.
  split.
  - left. exists [], "b", [("include", "b_")]. split; [reflexivity|]. split; [exists "b.c"; auto|].
    intros a q [E|[]] (s & E1 & E2); inversion E; subst; inversion E1; subst. discriminate.
  - intros H. refine (_ (proj1 (last_match_decides ex_search _ [("exclude", "b")] "b_" [] "include" (VStr "b_win.c") eq_refl _ _ _ True) H)).
    + discriminate.
    + intros x [<-|[<-|[]]]; auto.
    + exists "b_win.c". auto.
    + intros x q [].
Qed.

(** Finding: without [plain_filters] the pass can die with a KeyError. *)
Theorem C16_filtered_filter_refuted : exists d, (forall k v, In (k, v) d -> exists l, v = VList l) /\
  process_list_filters scalar_eqb (fun _ => true) ex_search d = Exn (KeyError "sources!").
Proof. exact filtered_filter. Qed.
Print Assumptions C16_filtered_filter_refuted.
