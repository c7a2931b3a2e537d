(** Property theorems: comparison of versions (C33).  The order
    [version_before] and [same_version] are in Spec_Version. *)
From Coq Require Import NArith.
From Verif Require Import Lib Str Model_Version Spec_Version Proof_Version.
Local Open Scope N_scope.

(** C33: the six comparisons of parsed versions never raise and say what
    PEP 440 says. *)
Theorem C33_comparisons : forall v w, normalised v -> normalised w ->
  (version_cmp Lt v w = Some true <-> version_before v w) /\ (version_cmp Gt v w = Some true <-> version_before w v) /\
  (version_cmp Le v w = Some true <-> version_before v w \/ same_version v w) /\ (version_cmp Ge v w = Some true <-> version_before w v \/ same_version v w) /\
  (version_eq v w = true <-> same_version v w) /\ (version_ne v w = true <-> ~ same_version v w) /\ forall o, version_cmp o v w <> None.
Proof. exact version_comparisons. Qed.
Print Assumptions C33_comparisons.

(** C33: it is a strict total order up to [same_version]. *)
Theorem C33_total_order : forall u v w, normalised u -> normalised v -> normalised w ->
  (version_before u v -> version_before v w -> version_before u w) /\
  (same_version u v -> (version_before u w <-> version_before v w) /\ (version_before w u <-> version_before w v)) /\
  (version_before u v -> ~ version_before v u /\ ~ same_version u v) /\
  (version_before u v \/ same_version u v \/ version_before v u).
Proof. exact version_order. Qed.
Print Assumptions C33_total_order.

Definition ver r pre post dev local := mk_version 0 r pre post dev local.
(** 1.0.dev3 < 1a2.dev1 < 1.0a2 < 1.0rc1 < 1 < 1.0+abc < 1.0+5 < 1.0.post1 < 1.0.0.1 *)
Definition ex_versions := [ver [1; 0] None None (Some ("dev", 3)) None; ver [1] (Some ("a", 2)) None (Some ("dev", 1)) None; ver [1; 0] (Some ("a", 2)) None None None;
  ver [1; 0] (Some ("rc", 1)) None None None; ver [1] None None None None; ver [1; 0] None None None (Some [inr "abc"]); ver [1; 0] None None None (Some [inl 5]);
  ver [1; 0] None (Some ("post", 1)) None None; ver [1; 0; 0; 1] None None None None]%string.
Example C33_witness : (forall v, In v ex_versions -> normalised v) /\
  (forall i j, In i (seq 0 9) -> In j (seq 0 9) -> version_cmp Lt (nth i ex_versions (ver [] None None None None)) (nth j ex_versions (ver [] None None None None)) = Some (Nat.ltb i j)) /\
  version_eq (ver [1; 2; 0; 0] None None None None) (ver [1; 2] None None None None) = true.
Proof.
  split; [|split; [|reflexivity]].
  - intros v H. cbn [In ex_versions] in H. repeat destruct H as [H|H]; try contradiction; subst v; (split; [|split]); cbn; intros l n E; try discriminate; injection E as <- <-; auto.
  - intros i j Hi Hj. cbn in Hi, Hj. repeat destruct Hi as [Hi|Hi]; try contradiction; subst i; repeat destruct Hj as [Hj|Hj]; try contradiction; subst j; reflexivity.
Qed.
