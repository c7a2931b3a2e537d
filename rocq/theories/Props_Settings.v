(** Property theorems: dependent settings (C47).
    [settings_pass ... who ts ts'] (Spec_Settings) says: targets outside the
    list are unchanged, and each target in it becomes its old dict with the
    settings of the targets [who] names merged in, in order. *)
From Verif Require Import Lib LibFacts Model_Value Model_Merge Spec_Merge Model_Graph Proof_Graph Spec_Graph Model_Settings Spec_Settings Proof_Settings Examples_Graph.
Local Open Scope string_scope.

(** The graph meant below is the one the values describe. *)
Theorem C47_graph : forall ts t x, (depends_on (graph_of ts) t x <-> lists ts "dependencies" t x) /\
  (exports_to (graph_of ts) t x <-> lists ts "export_dependent_settings" t x).
Proof. exact graph_of_lists. Qed.
Print Assumptions C47_graph.

(** C47: all_dependent_settings come from exactly the transitive dependencies,
    a dependency's before those of the targets that depend on it. *)
Theorem C47_all : forall rp ps flat ts ts', NoDup flat -> incl flat (map fst ts) -> inert "all_dependent_settings" ts ->
  is_dict (graph_of ts) -> closed (graph_of ts) -> ~ cyclic (graph_of ts) ->
  do_dependent_settings rp ps (node_dependencies (graph_of ts)) "all_dependent_settings" flat ts = Val ts' ->
  settings_pass rp ps "all_dependent_settings" flat
    (fun t ds => NoDup ds /\ (forall x, In x ds <-> depends_transitively (graph_of ts) t x) /\
                 (forall x d, In x ds -> depends_on (graph_of ts) x d -> before d x ds)) ts ts'.
Proof. exact all_settings. Qed.
Print Assumptions C47_all.

(** C47: direct_dependent_settings come from exactly the direct dependencies
    and those they export. *)
Theorem C47_direct : forall rp ps flat ts ts', NoDup flat -> incl flat (map fst ts) -> inert "direct_dependent_settings" ts ->
  is_dict (graph_of ts) -> closed (graph_of ts) -> (forall t d, exports_to (graph_of ts) t d -> In d (names (graph_of ts))) ->
  do_dependent_settings rp ps (node_dependencies (graph_of ts)) "direct_dependent_settings" flat ts = Val ts' ->
  settings_pass rp ps "direct_dependent_settings" flat
    (fun t ds => NoDup ds /\ (forall x, In x ds <-> imported_by (graph_of ts) t x)) ts ts'.
Proof. exact direct_settings. Qed.
Print Assumptions C47_direct.

(** C47: link_settings come from the target itself and what is linked into it,
    and only linkable targets take any. *)
Theorem C47_link : forall rp ps flat ts ts', NoDup flat -> incl flat (map fst ts) -> inert "link_settings" ts ->
  is_dict (graph_of ts) -> closed (graph_of ts) -> typed (graph_of ts) ->
  do_dependent_settings rp ps (node_dependencies (graph_of ts)) "link_settings" flat ts = Val ts' ->
  settings_pass rp ps "link_settings" flat
    (fun t ds => (~ linkable (graph_of ts) t -> ds = []) /\
       (linkable (graph_of ts) t -> exists s r, In (t, s) (graph_of ts) /\ ds = t :: r /\ NoDup ds /\
          forall x, In x ds <-> x = t \/ linked_into (graph_of ts) (sp_propagate s) t x)) ts ts'.
Proof. exact link_settings_pass. Qed.
Print Assumptions C47_link.

(** C47: after publication the settings are taken out of the targets, and
    nothing else is. *)
Theorem C47_taken_out : forall key flat ts t,
  (In t flat -> forall d, assoc t ts = Some d -> exists d', assoc t (take_out key flat ts) = Some d' /\ ~ In key (map fst d') /\ forall b, b <> key -> assoc b d' = assoc b d) /\
  (~ In t flat -> assoc t (take_out key flat ts) = assoc t ts).
Proof. exact taken_out_only. Qed.
Print Assumptions C47_taken_out.

(** C47: the three kinds are published in this order, each on what the one
    before left, with its block taken out in between. *)
Theorem C47_order : forall rp ps links flat ts ts', publish_settings rp ps links flat ts = Val ts' ->
  exists a b c, do_dependent_settings rp ps links "all_dependent_settings" flat ts = Val a /\
    do_dependent_settings rp ps links "direct_dependent_settings" flat (take_out "all_dependent_settings" flat a) = Val b /\
    do_dependent_settings rp ps links "link_settings" flat (take_out "direct_dependent_settings" flat b) = Val c /\
    ts' = take_out "link_settings" flat c.
Proof. exact published. Qed.
Print Assumptions C47_order.

Definition ex_settings : tdicts :=
  [("a.gyp:app", [("target_name", VStr "app"); ("type", VStr "executable"); ("dependencies", VList [VStr "a.gyp:mid"])]);
   ("a.gyp:mid", [("target_name", VStr "mid"); ("type", VStr "static_library"); ("dependencies", VList [VStr "a.gyp:base"])]);
   ("a.gyp:base", [("target_name", VStr "base"); ("type", VStr "static_library");
      ("all_dependent_settings", VDict [("defines", VList [VStr "ALL"])]);
      ("direct_dependent_settings", VDict [("defines", VList [VStr "DIRECT"])]);
      ("link_settings", VDict [("libraries", VList [VStr "-lm"])])])].
Definition ex_flat := ["a.gyp:base"; "a.gyp:mid"; "a.gyp:app"].

Example C47_witness : publish_settings (fun p => p) [] (node_dependencies (graph_of ex_settings)) ex_flat ex_settings = Val
  [("a.gyp:app", [("target_name", VStr "app"); ("type", VStr "executable"); ("dependencies", VList [VStr "a.gyp:mid"]);
                  ("defines", VList [VStr "ALL"]); ("libraries", VList [VStr "-lm"])]);
   ("a.gyp:mid", [("target_name", VStr "mid"); ("type", VStr "static_library"); ("dependencies", VList [VStr "a.gyp:base"]);
                  ("defines", VList [VStr "ALL"; VStr "DIRECT"])]);
   ("a.gyp:base", [("target_name", VStr "base"); ("type", VStr "static_library")])].
Proof. reflexivity. Qed.

Lemma ex_inert : forall key, In key ["all_dependent_settings"; "direct_dependent_settings"; "link_settings"] -> inert key ex_settings.
Proof.
  intros key Hk t d sd k v b Ht EA Hin Hb. destruct Hk as [<-|[<-|[<-|[]]]]; destruct Ht as [E|[E|[E|[]]]]; injection E as <- <-; try discriminate EA; injection EA as <-;
    destruct Hin as [Hin|[]]; injection Hin as <- <-; intros [A|[A|[A|[A _]]]];
    repeat (destruct Hb as [<-|Hb]; [discriminate A|]); destruct Hb.
Qed.
Example C47_hypotheses : NoDup ex_flat /\ incl ex_flat (map fst ex_settings) /\
  is_dict (graph_of ex_settings) /\ closed (graph_of ex_settings) /\ ~ cyclic (graph_of ex_settings) /\ typed (graph_of ex_settings) /\
  (forall t d, exports_to (graph_of ex_settings) t d -> In d (names (graph_of ex_settings))).
Proof.
  split; [apply nodupb_ok; reflexivity|]. split; [intros x Hx; cbn in *; tauto|].
  assert (H1 : is_dict (graph_of ex_settings)) by (apply nodupb_ok; reflexivity).
  assert (H2 : closed (graph_of ex_settings)) by (apply closedb_ok; reflexivity).
  split; [exact H1|]. split; [exact H2|]. split; [|split; [apply typedb_ok; reflexivity|apply exportsb_ok; reflexivity]].
  apply (proj2 (Proof_Graph.phase_circular _ H1 H2)). eexists. vm_compute. reflexivity.
Qed.

(** Finding: a settings block of a later kind may bring back a block of an
    earlier kind, which then stays in the target and is published to nobody. *)
Theorem C47_left_over_refuted : exists ts ts' d, publish_settings (fun p => p) [] (node_dependencies (graph_of ts)) (map fst ts) ts = Val ts' /\
  assoc "a.gyp:app" ts' = Some d /\ In "all_dependent_settings" (map fst d).
Proof. exact left_over. Qed.
Print Assumptions C47_left_over_refuted.
