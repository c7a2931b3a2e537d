(** Properties of merging (C13, C14, C15, C23, C55). *)
From Verif Require Import Lib Str Model_Path Model_Value Model_Merge Spec_Merge Spec_Path
  Proof_Merge Proof_Merge2 Proof_Merge3 Examples_Merge.
Local Open Scope string_scope.

(** C13: appending keeps the old list and adds, in order, the copies of the new
    items except once-only ones present already or earlier. *)
Theorem C13_append : forall c is_paths to fro r, merge_lists c is_paths true to fro = Val r ->
  exists copies added, Forall2 (copy_of c is_paths) fro copies /\ new_items to copies added /\ r = (to ++ added)%list.
Proof. exact merge_append. Qed.
Print Assumptions C13_append.

Example C13_append_witness :
  merge_lists ctx0 true true [VStr "m.c"; VStr "-l"] [VStr "n.c"; VStr "../b/n.c"; VStr "-l"; VStr "n.c"; VInt 3] = Exn (TypeError "expected string") /\
  merge_lists ctx0 true true [VStr "m.c"; VStr "-l"] [VStr "n.c"; VStr "../b/n.c"; VStr "-l"; VStr "n.c"; VDict [("files", VStr "q")]] =
    Val [VStr "m.c"; VStr "-l"; VStr "../b/n.c"; VStr "-l"; VDict [("files", VStr "../b/q")]].
Proof. split; reflexivity. Qed.

(** What [new_items] means: a sublist of the copies; nothing new is lost, and
    items that may repeat are all kept. *)
Theorem C13_new_items : forall earlier copies added, new_items earlier copies added ->
  sublist added (map fst copies) /\
  (forall x, In x (map fst copies) -> In x earlier \/ In x added) /\
  (forall x, In (x, false) copies -> In x added).
Proof. exact new_items_facts. Qed.
Print Assumptions C13_new_items.

(** C13: prepending puts the copies first, in order, and removes the older
    occurrences of the once-only ones - as long as the incoming list does not
    itself repeat a once-only item. *)
Theorem C13_prepend : forall c is_paths to fro r, merge_lists c is_paths false to fro = Val r ->
  exists copies, Forall2 (copy_of c is_paths) fro copies /\
    (no_repeats copies ->
     exists rest, without (fun x => In (x, true) copies) to rest /\ r = (map fst copies ++ rest)%list).
Proof. exact merge_prepend. Qed.
Print Assumptions C13_prepend.

Example C13_prepend_witness :
  merge_lists ctx1 false false [VStr "x"; VStr "a"; VStr "-f"] [VStr "a"; VStr "-f"; VStr "b"; VStr "-f"] =
    Val [VStr "a"; VStr "-f"; VStr "b"; VStr "-f"; VStr "x"; VStr "-f"] /\
  no_repeats [(VStr "a", true); (VStr "-f", false); (VStr "b", true)].
Proof.
  split; [reflexivity|]. apply no_repeats_strings. cbn. repeat constructor; cbn; intuition discriminate.
Qed.

(** Finding: with a repeated item the prepend puts it behind old items. *)
Theorem C13_prepend_repeats_refuted : exists c to fro r, merge_lists c false false to fro = Val r /\
  In (VStr "a") fro /\ ~ In (VStr "a") to /\ hd_error r = Some (VStr "x") /\ ~ In (VStr "x") fro.
Proof. exact prepend_repeats. Qed.
Print Assumptions C13_prepend_repeats_refuted.

(** C13: either way, the result holds exactly the old items and the copies. *)
Theorem C13_members : forall c is_paths append to fro r, merge_lists c is_paths append to fro = Val r ->
  exists copies, Forall2 (copy_of c is_paths) fro copies /\ forall y, In y r <-> In y to \/ In y (map fst copies).
Proof. exact merge_members. Qed.
Print Assumptions C13_members.

(** C13: appending the same once-only items again changes nothing. *)
Theorem C13_append_twice : forall c is_paths to fro r,
  (forall item, In item fro ->
     match item with VStr s => match s with String "-" _ => False | _ => True end | VInt _ => True | _ => False end) ->
  merge_lists c is_paths true to fro = Val r -> merge_lists c is_paths true r fro = Val r.
Proof. exact merge_append_twice. Qed.
Print Assumptions C13_append_twice.

Example C13_twice_witness : exists r, merge_lists ctx0 true true [VStr "m.c"] [VStr "n.c"; VStr "n.c"] = Val r /\ length r = 2.
Proof. eexists. split; [reflexivity|reflexivity]. Qed.

(** C14: every key of the result is its old value transformed, in order, by
    exactly the entries that concern it. *)
Theorem C14_policies : forall c to fro to', merge_dicts c to fro = Val to' ->
  forall b, effects c b fro (assoc b to) (assoc b to').
Proof. exact merge_dicts_effects. Qed.
Print Assumptions C14_policies.

(** C14: in particular a key concerned by one entry only gets that entry's effect... *)
Theorem C14_single_entry : forall c to fro to' b k v, merge_dicts c to fro = Val to' ->
  NoDup (map fst fro) -> In (k, v) fro -> affects k v b ->
  (forall k' v', In (k', v') fro -> affects k' v' b -> k' = k) ->
  exists new, assoc b to' = Some new /\ effect c b k v (assoc b to) new.
Proof. exact merge_only_entry. Qed.
Print Assumptions C14_single_entry.

(** ...and a key concerned by none is untouched. *)
Theorem C14_untouched : forall c to fro to' b, merge_dicts c to fro = Val to' ->
  (forall k v, In (k, v) fro -> ~ affects k v b) -> assoc b to' = assoc b to.
Proof. exact merge_untouched. Qed.
Print Assumptions C14_untouched.

(** C14: an entry concerns one key only. *)
Theorem C14_one_key : forall k v b b', affects k v b -> affects k v b' -> b = b'.
Proof. exact affects_unique. Qed.
Print Assumptions C14_one_key.

(** C14: keys keep their order, new keys come last, none is repeated. *)
Theorem C14_keys : forall c to fro to', merge_dicts c to fro = Val to' ->
  exists extra, map fst to' = (map fst to ++ extra)%list /\
    (forall b, In b extra -> exists k v, In (k, v) fro /\ affects k v b) /\
    (NoDup (map fst to) -> NoDup (map fst to')).
Proof. exact merge_dicts_keys. Qed.
Print Assumptions C14_keys.

(** C14: contradictory policies are rejected. *)
Theorem C14_contradictory : forall c to fro b s1 s2 l, contradictory s1 s2 ->
  In (b ++ s1, VList l) fro -> In (b ++ s2) (map fst fro) -> forall to', merge_dicts c to fro <> Val to'.
Proof. exact merge_contradictory. Qed.
Print Assumptions C14_contradictory.

(** C14: and merges of strings and lists of strings without contradictory
    policies and with consistent kinds are never rejected. *)
Theorem C14_accepts : forall c to fro (K : string -> kind),
  (forall k v, In (k, v) fro -> flat v /\ (kind_of v = KList -> k <> "") /\ K k = kind_of v /\
               forall b, affects k v b -> K b = kind_of v) ->
  (forall b o, assoc b to = Some o -> kind_of o = K b) ->
  compatible_keys (map fst fro) ->
  exists to', merge_dicts c to fro = Val to'.
Proof. exact merge_flat_succeeds. Qed.
Print Assumptions C14_accepts.

Example C14_witness :
  merge_dicts ctx0 [("sources", VList [VStr "m.c"]); ("defines", VList [VStr "D"]); ("libs", VList [VStr "l"]);
                    ("name", VStr "n"); ("sub", VDict [("k", VInt 1)]); ("keep", VInt 7)]
                   [("sources", VList [VStr "n.c"]); ("sources+", VList [VStr "o.c"]); ("defines=", VList [VStr "E"; VStr "F"]);
                    ("libs?", VList [VStr "q"]); ("extra?", VList [VStr "r"]); ("out_dir", VStr "p/"); ("name", VInt 2);
                    ("sub", VDict [("j", VStr "v")])] =
  Val [("sources", VList [VStr "../b/o.c"; VStr "m.c"; VStr "../b/n.c"]); ("defines", VList [VStr "E"; VStr "F"]);
       ("libs", VList [VStr "l"]); ("name", VInt 2); ("sub", VDict [("k", VInt 1); ("j", VStr "v")]); ("keep", VInt 7);
       ("extra", VList [VStr "r"]); ("out_dir", VStr "../b/p/")] /\
  contradictory "=" "" /\
  merge_dicts ctx0 [] [("a", VList []); ("a=", VList [])] = Exn (IncompatiblePolicies "a" "a=").
Proof. split; [vm_compute; reflexivity|]. split; [left; reflexivity|reflexivity]. Qed.

Example C14_accepts_witness :
  (forall k v, In (k, v) [("a", VList [VStr "p"]); ("a+", VList [VStr "q"]); ("n", VStr "m")] ->
     flat v /\ (kind_of v = KList -> k <> "") /\
     (fun k => if mem k ["a"; "a+"] then KList else KScalar) k = kind_of v /\
     forall b, affects k v b -> (fun k => if mem k ["a"; "a+"] then KList else KScalar) b = kind_of v) /\
  compatible_keys ["a"; "a+"; "n"].
Proof.
  split.
  - intros k v [e|[e|[e|[]]]]; inversion e; subst; cbn [flat kind_of].
    + split; [intros x [<-|[]]; eauto|]. split; [discriminate|]. split; [reflexivity|]. cbn [affects].
      intros b [H|[H|[H|(H & _)]]]; try (destruct b as [|x [|y b]]; discriminate). subst b. reflexivity.
    + split; [intros x [<-|[]]; eauto|]. split; [discriminate|]. split; [reflexivity|]. cbn [affects].
      intros b [H|[H|[H|(H & _ & Hp & _)]]]; try (destruct b as [|x [|y [|z b]]]; discriminate).
      * destruct b as [|x [|y [|z b]]]; try discriminate. inversion H. reflexivity.
      * exfalso. apply Hp. exists "a". reflexivity.
    + split; [exact I|]. split; [discriminate|]. split; [reflexivity|]. cbn [affects]. intros b <-. reflexivity.
  - intros b s1 s2 HC H1 H2. cbn in HC.
    destruct HC as [e|[e|[e|[e|[e|[]]]]]]; inversion e; subst s1 s2; cbn in H1, H2;
      destruct b as [|x [|y [|z b]]]; cbn in H1, H2; intuition discriminate.
Qed.

(** C15: pre-existing keys survive with a value of the same kind, unless the
    incoming dictionary asks for a replacement with [key=]. *)
Theorem C15_kinds : forall c to fro to' b o, merge_dicts c to fro = Val to' -> assoc b to = Some o ->
  (forall l, ~ In (b ++ "=", VList l) fro) -> exists o', assoc b to' = Some o' /\ kind_of o' = kind_of o.
Proof. exact merge_kinds. Qed.
Print Assumptions C15_kinds.

(** C15: a value of another kind for an existing key is always rejected. *)
Theorem C15_mismatch : forall c to fro b v o, In (b, v) fro -> assoc b to = Some o -> kind_of v <> kind_of o ->
  forall to', merge_dicts c to fro <> Val to'.
Proof. exact merge_mismatch. Qed.
Print Assumptions C15_mismatch.

(** C15: values that are neither strings, integers, lists nor dictionaries are
    always rejected. *)
Theorem C15_other_in_dict : forall c to fro k cl to', In (k, VOther cl) fro -> merge_dicts c to fro <> Val to'.
Proof. exact merge_other. Qed.
Print Assumptions C15_other_in_dict.
Theorem C15_other_in_list : forall c is_paths append to fro cl r,
  In (VOther cl) fro -> merge_lists c is_paths append to fro <> Val r.
Proof. exact merge_list_other. Qed.
Print Assumptions C15_other_in_list.

Example C15_witness :
  merge_dicts ctx0 [("a", VStr "s")] [("a", VInt 1); ("b", VList [VStr "q"])] = Val [("a", VInt 1); ("b", VList [VStr "q"])] /\
  merge_dicts ctx0 [("a", VStr "s")] [("a", VList [])] = Exn (TypeError "a") /\
  merge_dicts ctx0 [("a", VStr "s")] [("a+", VList [])] = Exn (TypeError "a").
Proof. repeat split. Qed.

(** Finding: [key=] turns a string into a list without a type error. *)
Theorem C15_replace_refuted : exists c to fro to' s l, merge_dicts c to fro = Val to' /\
  assoc "x" to = Some (VStr s) /\ assoc "x" to' = Some (VList l).
Proof. exact replace_kind. Qed.
Print Assumptions C15_replace_refuted.

(** C23: a key is a path section exactly when its name, without trailing policy
    characters, is declared or ends in _dir(s), _file(s), _path(s). *)
Theorem C23_path_section : forall path_sections k, is_path_section path_sections k = true <-> path_key path_sections k.
Proof. exact is_path_section_spec. Qed.
Print Assumptions C23_path_section.

Example C23_witness : path_key base_path_sections "sources!" /\ path_key [] "my_files=+" /\ ~ path_key base_path_sections "defines".
Proof.
  split; [|split]; rewrite <- is_path_section_spec; try reflexivity. discriminate.
Qed.

(** C55: copying (merging into an empty container of the same file) is exact
    for values without repeated once-only items and policy suffixes. *)
Theorem C55_copy_dict : forall c d, c_to_file c = c_fro_file c -> copies_exactly (VDict d) -> merge_dicts c [] d = Val d.
Proof. exact copy_dict_exact. Qed.
Print Assumptions C55_copy_dict.
Theorem C55_copy_list : forall c is_paths l, c_to_file c = c_fro_file c -> copies_exactly (VList l) ->
  merge_lists c is_paths true [] l = Val l.
Proof. exact copy_list_exact. Qed.
Print Assumptions C55_copy_list.

Example C55_witness : copies_exactly (VDict [("action", VList [VStr "cp"; VStr "-a"; VStr "-a"]); ("n", VInt 1)]).
Proof.
  constructor.
  - repeat constructor. intros l1 x l2 E HO Hin.
    destruct l1 as [|y1 [|y2 [|y3 l1]]]; inversion E; subst; cbn in Hin.
    + exact Hin.
    + destruct Hin as [H|[]]; discriminate.
    + destruct HO. exists "a". reflexivity.
    + destruct l1; discriminate.
  - cbn. repeat constructor; cbn; intuition discriminate.
  - intros k l [e|[e|[]]]; inversion e; subst. split; [discriminate|].
    assert (H : forall a, a <> "n"%char -> ~ ends_with "action" (String a "")).
    { intros a Ha. apply not_ends. cbn. congruence. }
    split; [apply H; discriminate|]. split; [apply H; discriminate|]. split; [apply H; discriminate|].
    cbn. split; intuition discriminate.
Qed.

(** Finding: a copied list of command arguments loses repeated arguments... *)
Theorem C55_repeated_items_refuted : exists c l l', c_to_file c = c_fro_file c /\
  merge_dicts c [] [("action", VList l)] = Val [("action", VList l')] /\ length l' < length l.
Proof. exact copy_loses. Qed.
Print Assumptions C55_repeated_items_refuted.

(** ...and the copied filter ['exclude', 'exclude'] is no longer a pair. *)
Theorem C55_filter_pair_refuted : exists c p, c_to_file c = c_fro_file c /\ p = [VStr "exclude"; VStr "exclude"] /\
  merge_dicts c [] [("sources/", VList [VList p])] = Val [("sources/", VList [VList [VStr "exclude"]])].
Proof. exact copy_pair_breaks. Qed.
Print Assumptions C55_filter_pair_refuted.
