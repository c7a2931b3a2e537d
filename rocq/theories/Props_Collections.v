(** Properties of the collection helpers (C09, C10, C45, C50). *)
From Verif Require Import Lib Model_OrderedSet Spec_OrderedSet Proof_OrderedSet
  Model_TopoSort Proof_TopoSort Model_Memo Model_Graph Proof_Memo.

(** C09: over any element type with decidable equality, every history of
    operations on a fresh OrderedSet returns what the insertion-ordered list
    of distinct elements would return. *)
Theorem C09_ordered_set : forall (A : Type) (eq_dec : forall x y : A, {x = y} + {x <> y}) (ops : list (op A)),
  run A eq_dec (empty A) ops = s_run A eq_dec [] ops.
Proof. exact run_refines. Qed.
Print Assumptions C09_ordered_set.

Example C09_witness :
  run nat Nat.eq_dec (empty nat)
    [Add 3; Add 1; Add 3; Update [2; 1; 5]; Discard 1; Add 1; Iter; Reversed; Pop true; Pop false; Iter; Len; Contains 3]
  = [ODone; ODone; ODone; ODone; ODone; ODone; OList (Some [Some 3; Some 2; Some 5; Some 1]);
     OList (Some [Some 1; Some 5; Some 2; Some 3]); OKey (Some 1); OKey (Some 3);
     OList (Some [Some 2; Some 5]); ONat 2; OBool false].
Proof. vm_compute. reflexivity. Qed.

(** C10: on a finite graph closed under edges, the sort either returns every
    node reachable from the given ones exactly once, each before the nodes its
    edges point to, and then no reachable cycle exists; or raises CycleError
    naming only reachable nodes, among them one that lies on a cycle. *)
Theorem C10_topological_sort : forall (get_edges : string -> list string) (U : list string),
  (forall x y, In x U -> In y (get_edges x) -> In y U) ->
  forall fuel graph, length U < fuel -> incl graph U ->
  let edge := fun x y => In y (get_edges x) in
  (exists l, topologically_sorted fuel graph get_edges = Sorted l /\ NoDup l /\
     (forall x, In x l <-> exists g, In g graph /\ clos_refl_trans string edge g x) /\
     (forall x y, In x l -> edge x y -> before x y l) /\
     ~ exists g c, In g graph /\ clos_refl_trans string edge g c /\ clos_trans string edge c c) \/
  (exists vs c, topologically_sorted fuel graph get_edges = CycleError vs /\ In c vs /\
     clos_trans string edge c c /\
     forall v, In v vs -> exists g, In g graph /\ clos_refl_trans string edge g v).
Proof. exact topo_cases. Qed.
Print Assumptions C10_topological_sort.

Definition sample_edges (x : string) : list string :=
  (if String.eqb x "a" then ["b"; "c"] else if String.eqb x "b" then ["d"] else
   if String.eqb x "c" then ["d"] else if String.eqb x "p" then ["q"] else
   if String.eqb x "q" then ["p"] else [])%string.

Example C10_witness :
  topologically_sorted 7 ["c"; "a"; "b"; "d"]%string sample_edges = Sorted ["a"; "c"; "b"; "d"]%string /\
  topologically_sorted 7 ["c"; "a"; "p"]%string sample_edges = CycleError ["q"; "p"]%string /\
  forall x y, In x ["a"; "b"; "c"; "d"; "p"; "q"]%string -> In y (sample_edges x) ->
              In y ["a"; "b"; "c"; "d"; "p"; "q"]%string.
Proof.
  split; [vm_compute; reflexivity|]. split; [vm_compute; reflexivity|].
  intros x y Hx. cbn in Hx.
  destruct Hx as [<-|[<-|[<-|[<-|[<-|[<-|[]]]]]]]; cbn; tauto.
Qed.

(** C10, determinism: the result does not depend on the order in which the
    nodes are enumerated ... *)
Theorem C10_node_order_irrelevant : forall fuel graph graph' get_edges,
  Permutation graph graph' ->
  topologically_sorted fuel graph get_edges = topologically_sorted fuel graph' get_edges.
Proof. exact topo_perm. Qed.
Print Assumptions C10_node_order_irrelevant.

(** ... but it does depend on the order in which the edges of a node are
    enumerated; xcode_emulation.py:1869 passes a Python set of strings, whose
    order changes from run to run. *)
Theorem C10_edge_order_refuted : exists graph edges edges',
  (forall x, Permutation (edges x) (edges' x)) /\
  topologically_sorted 4 graph edges = Sorted ["a"; "c"; "b"]%string /\
  topologically_sorted 4 graph edges' = Sorted ["a"; "b"; "c"]%string.
Proof. exact topo_edge_order. Qed.
Print Assumptions C10_edge_order_refuted.

(** C45: Unify keeps exactly the first occurrence of every item, in order. *)
Theorem C45_unify : forall l,
  sublist (unify l) l /\ NoDup (unify l) /\ (forall x, In x (unify l) <-> In x l) /\
  (forall l1 x l2, l = l1 ++ x :: l2 -> ~ In x l1 ->
     exists r1 r2, unify l = r1 ++ x :: r2 /\ forall y, In y r1 <-> In y l1).
Proof. exact unify_spec. Qed.
Print Assumptions C45_unify.

(** C45: Filter removes exactly the given item and keeps all other
    occurrences in order. *)
Theorem C45_filter : forall l item,
  sublist (filter_out l item) l /\ (forall x, In x (filter_out l item) <-> In x l /\ x <> item) /\
  (forall x, x <> item -> count_occ string_dec (filter_out l item) x = count_occ string_dec l x).
Proof. exact filter_out_spec. Qed.
Print Assumptions C45_filter.

(** C45: uniquer keeps the first item of every marker. *)
Theorem C45_uniquer : forall (Item Marker : Type) (dec : forall x y : Marker, {x = y} + {x <> y})
    (idfun : Item -> Marker) (seq : list Item),
  let r := uniquer Item Marker dec idfun seq in
  sublist r seq /\ NoDup (map idfun r) /\ (forall x, In x seq -> In (idfun x) (map idfun r)) /\
  (forall l1 x l2, seq = l1 ++ x :: l2 -> ~ In (idfun x) (map idfun l1) -> In x r).
Proof. exact uniquer_spec. Qed.
Print Assumptions C45_uniquer.

Example C45_witness :
  unify ["b"; "a"; "b"; "c"; "a"]%string = ["b"; "a"; "c"]%string /\
  filter_out ["b"; "a"; "b"; "c"]%string "b" = ["a"; "c"]%string /\
  uniquer nat nat Nat.eq_dec (fun n => Nat.modulo n 3) [4; 7; 2; 3; 5; 6] = [4; 2; 3].
Proof. repeat split; vm_compute; reflexivity. Qed.

(** C50: a memoised function returns, for every history of calls, what the
    plain function returns (exceptions included), and calls it at most once
    per argument on which it succeeds. *)
Theorem C50_memoize : forall (Arg Res Exn : Type) (dec : forall x y : Arg, {x = y} + {x <> y})
    (f : Arg -> Res + Exn) (calls : list Arg),
  snd (memo_run Arg Res Exn dec f (mk_memo Arg Res [] []) calls) = map f calls /\
  forall a r, f a = inl r ->
    count_occ dec (m_log Arg Res (fst (memo_run Arg Res Exn dec f (mk_memo Arg Res [] []) calls))) a <= 1.
Proof. exact memo_transparent. Qed.
Print Assumptions C50_memoize.

(** C50: evaluating conditions through the compiled-code cache gives, for
    every sequence of conditions and variable environments, what compiling
    and evaluating each time gives. *)
Theorem C50_condition_cache : forall (Code Vars Exn : Type) (compile : string -> Code + Exn)
    (eval : Code -> Vars -> bool + Exn) (qs : list (string * Vars)),
  eval_run Code Vars Exn compile eval [] qs =
  map (fun q => match compile (fst q) with inl c => eval c (snd q) | inr e => inr e end) qs.
Proof. exact eval_transparent. Qed.
Print Assumptions C50_condition_cache.

Example C50_witness :
  memo_run nat nat string Nat.eq_dec (fun n => if Nat.eqb n 0 then inr "ZeroDivisionError"%string else inl (n * n))
    (mk_memo nat nat [] []) [2; 3; 0; 2; 0; 3]
  = (mk_memo nat nat [(3, 9); (2, 4)] [2; 3; 0; 0],
     [inl 4; inl 9; inr "ZeroDivisionError"%string; inl 4; inr "ZeroDivisionError"%string; inl 9]).
Proof. vm_compute. reflexivity. Qed.
