(** What sharding should do. *)
From Coq Require Import ZArith.
From Verif Require Import Lib Str Model_Shard.
Local Open Scope string_scope.

Section Spec.
Context {A : Type}.
(** [pieces ds t n]: target [t] asks to be cut into [n] pieces. *)
Definition pieces (ds : list (string * target A)) (t : string) (n : nat) : Prop :=
  exists d, In (t, d) ds /\ t_shards d = Z.of_nat n /\ n <> 0.
Definition whole (ds : list (string * target A)) (t : string) : Prop := forall d, In (t, d) ds -> t_shards d = 0%Z.

(** A list of target names in which every target to cut is replaced by all its
    pieces, in order. *)
Inductive replaced (ds : list (string * target A)) : list string -> list string -> Prop :=
| replaced_nil : replaced ds [] []
| replaced_whole t l l' : whole ds t -> replaced ds l l' -> replaced ds (t :: l) (t :: l')
| replaced_cut t n l l' : pieces ds t n -> replaced ds l l' -> replaced ds (t :: l) (map (shard_name t) (seq 0 n) ++ l').

(** [piece] is piece number [i] of [n] of [d]: source number [i + j * n] of [d]
    is source number [j] of the piece. *)
Definition piece_of (ds : list (string * target A)) (d : target A) (n i : nat) (p : target A) : Prop :=
  t_name p = shard_name (t_name d) i /\
  (forall j, nth_error (t_sources p) j = nth_error (t_sources d) (i + j * n)) /\
  replaced ds (t_deps d) (t_deps p) /\ replaced ds (t_deps_original d) (t_deps_original p) /\ t_rest p = t_rest d.

(** No piece has the name of a target that is not cut. *)
Definition no_clash (ds : list (string * target A)) : Prop :=
  forall t n i u, pieces ds t n -> i < n -> In u (map fst ds) -> whole ds u -> u <> shard_name t i.
(** Shard counts are not negative. *)
Definition counts_ok (ds : list (string * target A)) : Prop := forall t d, In (t, d) ds -> (0 <= t_shards d)%Z.
End Spec.
