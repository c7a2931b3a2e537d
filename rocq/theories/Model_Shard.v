(** Model of target sharding: gyp/pylib/gyp/MSVSUtil.py:47-127.
    Simplifications: of a target dict the entries the function touches are
    fields and everything else is [t_rest]; an absent list is the empty list
    (the code reads them with [.get(..., [])] and writes them back); the
    entry "msvs_shard" has already been read as an integer. *)
From Coq Require Import ZArith DecimalString DecimalNat.
From Verif Require Import Lib Str Model_Value.
Local Open Scope string_scope.

Record target (A : Type) := mk_target {
  t_name : string;            (* "target_name" *)
  t_sources : list string;    (* "sources" *)
  t_deps : list string;       (* "dependencies" *)
  t_deps_original : list string; (* "dependencies_original" *)
  t_shards : Z;               (* "msvs_shard", default 0 *)
  t_rest : A
}.
Arguments mk_target {A}. Arguments t_name {A}. Arguments t_sources {A}. Arguments t_deps {A}.
Arguments t_deps_original {A}. Arguments t_shards {A}. Arguments t_rest {A}.

(** str(number) of a natural number. *)
Definition nat_str (n : nat) : string := NilZero.string_of_uint (Nat.to_uint n).

(** MSVSUtil.py:47-59: _SuffixName. *)
Definition suffix_name (name suffix : string) : string :=
  match rsplit1 hash name with
  | None => name ++ "_" ++ suffix
  | Some (head, tail) => (head ++ "_" ++ suffix) ++ String hash tail
  end.
(** MSVSUtil.py:62-71: _ShardName. *)
Definition shard_name (name : string) (number : nat) : string := suffix_name name (nat_str number).

(** range(n) for an integer n. *)
Definition range (n : Z) : list nat := seq 0 (Z.to_nat n).
(** range(start, stop, step) for step > 0. *)
Definition range3 (start stop step : nat) : list nat :=
  map (fun k => start + k * step) (seq 0 ((stop - start + (step - 1)) / step)).

Section Shard.
Context {A : Type}.
Definition tdicts := list (string * target A).

(** MSVSUtil.py:84-88: the targets to shard, and how many pieces. *)
Definition targets_to_shard (ds : tdicts) : list (string * Z) :=
  fold_left (fun acc '(t, d) => if Z.eqb (t_shards d) 0 then acc else set_key t (t_shards d) acc) ds [].

(** MSVSUtil.py:90-96 and, for dependencies, 118-124. *)
Definition shard_list (shards : list (string * Z)) (l : list string) : list string :=
  fold_left (fun acc t => match assoc t shards with
                          | Some n => (acc ++ map (shard_name t) (range n))%list
                          | None => (acc ++ [t])%list
                          end) l [].

(** MSVSUtil.py:103-111. *)
Definition shard_target (d : target A) (n : Z) (i : nat) : target A :=
  mk_target (shard_name (t_name d) i)
    (map (fun pos => nth pos (t_sources d) "") (range3 i (length (t_sources d)) (Z.to_nat n)))
    (t_deps d) (t_deps_original d) (t_shards d) (t_rest d).
(** MSVSUtil.py:98-113. *)
Definition shard_dicts (shards : list (string * Z)) (ds : tdicts) : tdicts :=
  fold_left (fun acc '(t, d) =>
    match assoc t shards with
    | Some n => fold_left (fun acc i => set_key (shard_name t i) (shard_target d n i) acc) (range n) acc
    | None => set_key t d acc
    end) ds [].

(** MSVSUtil.py:115-125. *)
Definition shard_deps (shards : list (string * Z)) (ds : tdicts) : tdicts :=
  fold_left (fun acc t => match assoc t acc with
    | None => acc
    | Some d => set_key t (mk_target (t_name d) (t_sources d) (shard_list shards (t_deps d)) (shard_list shards (t_deps_original d)) (t_shards d) (t_rest d)) acc
    end) (sort (map fst ds)) ds.

(** MSVSUtil.py:74-127: ShardTargets. *)
Definition shard_targets (target_list : list string) (ds : tdicts) : list string * tdicts :=
  let shards := targets_to_shard ds in
  (shard_list shards target_list, shard_deps shards (shard_dicts shards ds)).
End Shard.
