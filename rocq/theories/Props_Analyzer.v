(** Property theorems: the analyzer reports exactly the affected targets (C35)
    and a right set of targets to compile (C58).  [affected], [root], [loaded],
    [stands_for], [test_answer], [supplied_by], [compile_answer] are in
    Spec_Analyzer. *)
From Verif Require Import Lib LibFacts Model_Graph Model_Names Model_Analyzer Spec_Analyzer Proof_Analyzer3.
Local Open Scope string_scope.

(** C35: whatever the order in which sets are iterated, the reported test
    targets are exactly the requested ones that use a changed file or depend on
    a target that does; "all" is reported when a root is affected; and the
    invalid names are exactly those no target has. *)
Theorem C35_tests : forall ts tl changed bfs, loaded ts tl -> exists m, stands_for ts tl m /\
  forall ord pick tests additional, any_order ord -> any_order pick ->
  exists ans, analyze ts tl changed bfs ord pick tests additional = Ok ans /\
    (forall n, In n (ans_tests ans) <-> test_answer ts tl changed bfs tests m n) /\
    (forall n, In n (ans_invalid ans) <-> asked tests additional n /\ n <> "all" /\ m n = None).
Proof.
  intros ts tl changed bfs HL. destruct (analyze_answer ts tl changed bfs HL) as (m & HM & H). exists m. split; [exact HM|]. intros ord pick tests additional HO HP.
  destruct (H ord pick tests additional HO HP) as (ans & res & A & B & _ & _ & _ & C & _). exists ans. auto.
Qed.
Print Assumptions C35_tests.

(** C58: the targets to compile are the reported tests and the names of a right
    set of targets; "found" is reported when there are any. *)
Theorem C58_compile : forall ts tl changed bfs, loaded ts tl -> exists m, stands_for ts tl m /\
  forall ord pick tests additional, any_order ord -> any_order pick ->
  exists ans res, analyze ts tl changed bfs ord pick tests additional = Ok ans /\
    compile_answer ts tl changed (supplied_by ts tl bfs tests additional m) res /\
    (forall n, In n (ans_compile ans) <-> In n (ans_tests ans) \/ exists q, In q res /\ target_name_of q = n) /\ NoDup (ans_compile ans) /\
    (ans_found ans = true <-> ans_compile ans <> []).
Proof.
  intros ts tl changed bfs HL. destruct (analyze_answer ts tl changed bfs HL) as (m & HM & H). exists m. split; [exact HM|]. intros ord pick tests additional HO HP.
  destruct (H ord pick tests additional HO HP) as (ans & res & A & _ & B & C & D & _ & F). exists ans, res. auto.
Qed.
Print Assumptions C58_compile.

(** The example of analyzer.py:36-52, with a library below B. *)
Definition ex_an : atargets :=
  [("x.gyp:l#t", mk_atarget [] "static_library" false); ("x.gyp:B#t", mk_atarget ["x.gyp:l#t"] "executable" false); ("x.gyp:C#t", mk_atarget [] "executable" false);
   ("x.gyp:A#t", mk_atarget ["x.gyp:B#t"; "x.gyp:C#t"] "none" false); ("x.gyp:D#t", mk_atarget [] "executable" false)].
Definition ex_changed (t : string) : bool := mem t ["x.gyp:l#t"; "x.gyp:D#t"].
Lemma ex_needs : forall t d, needs ex_an t d -> (t = "x.gyp:B#t" /\ d = "x.gyp:l#t") \/ (t = "x.gyp:A#t" /\ (d = "x.gyp:B#t" \/ d = "x.gyp:C#t")).
Proof. intros t d (a & H & X). cbn in H. destruct H as [H|[H|[H|[H|[H|[]]]]]]; injection H as <- <-; cbn in X; intuition. Qed.
Example C35_witness : loaded ex_an (map fst ex_an) /\ any_order (@rev string) /\
  analyze ex_an (map fst ex_an) ex_changed ["x.gyp"] (fun l => l) (@rev string) ["B"; "C"; "all"; "zzz"] ["A"] =
  Ok (mk_answer ["B"; "all"] ["all"; "B"; "D"] ["zzz"] true) /\
  analyze ex_an (map fst ex_an) ex_changed ["x.gyp"] (fun l => l) (fun l => l) ["C"] ["A"] = Ok (mk_answer [] ["B"] [] true).
Proof.
  split; [|split; [intros l; apply Permutation_sym, Permutation_rev|split; vm_compute; reflexivity]].
  split; [repeat constructor; cbn; intuition discriminate|]. split; [|split; [intros x H; exact H|]].
  - intros t d H. destruct (ex_needs t d H) as [[-> ->]|[-> [-> | ->]]]; cbn; tauto.
  - exists (map fst ex_an). split; [reflexivity|]. intros t d H. destruct (ex_needs t d H) as [[-> ->]|[-> [-> | ->]]].
    + exists [], [], (map fst (skipn 2 ex_an)). reflexivity.
    + exists ["x.gyp:l#t"], ["x.gyp:C#t"], ["x.gyp:D#t"]. reflexivity.
    + exists ["x.gyp:l#t"; "x.gyp:B#t"], [], ["x.gyp:D#t"]. reflexivity.
Qed.

(** Finding: unlike the tests, the compile targets are not determined by the
    graph and the changed files.  Two build orders of the same targets, both
    with dependencies first, give different answers: a changed target of type
    "none" without actions is reported only when it is reached before the
    changed targets it depends on. *)
Theorem C58_order_refuted : exists ts tl tl' changed ans ans', Permutation tl tl' /\ loaded ts tl /\ loaded ts tl' /\
  (forall t d, needs ts t d -> before d t tl /\ before d t tl') /\
  analyze ts tl changed ["x.gyp"] (fun l => l) (fun l => l) [] ["g"] = Ok ans /\
  analyze ts tl' changed ["x.gyp"] (fun l => l) (fun l => l) [] ["g"] = Ok ans' /\
  ~ Permutation (ans_compile ans) (ans_compile ans').
Proof. exact compile_order_witness. Qed.
Print Assumptions C58_order_refuted.
