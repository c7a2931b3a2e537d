(** Model of gyp/pylib/gyp/common.py:646-686 [TopologicallySorted], used to
    order environment variables by their references (xcode_emulation.py:1851-1890
    and generator/msvs.py:3300). *)
From Verif Require Import Lib.

(** Outcome: a list, CycleError(visiting) (common.py:636-643), or the model's
    recursion bound. *)
Inductive topo (A : Type) : Type :=
| Sorted (a : A)
| CycleError (visiting : list string)
| TopoOutOfFuel.
Arguments Sorted {A} a.
Arguments CycleError {A} visiting.
Arguments TopoOutOfFuel {A}.

(** (visited, ordered_nodes) *)
Definition topo_state : Type := list string * list string.

(** common.py:671-681 [Visit].  [get_edges] is memoised (667); it is pure, so
    the cache is not modelled here (see Model_Memo). *)
Fixpoint visit (fuel : nat) (get_edges : string -> list string) (visiting : list string)
         (node : string) (st : topo_state) : topo topo_state :=
  match fuel with
  | O => TopoOutOfFuel
  | S fuel' =>
    if mem node visiting then CycleError visiting
    else if mem node (fst st) then Sorted st
    else
      match (fix go (ns : list string) (st : topo_state) : topo topo_state :=
               match ns with
               | [] => Sorted st
               | n :: ns' => match visit fuel' get_edges (node :: visiting) n st with
                             | Sorted st' => go ns' st'
                             | e => e
                             end
               end) (get_edges node) (node :: fst st, snd st) with
      | Sorted st' => Sorted (fst st', node :: snd st')
      | e => e
      end
  end.

(** common.py:683-684: visit the nodes of the graph in sorted order. *)
Fixpoint visit_all (fuel : nat) (get_edges : string -> list string) (nodes : list string)
         (st : topo_state) : topo topo_state :=
  match nodes with
  | [] => Sorted st
  | n :: ns => match visit fuel get_edges [] n st with
               | Sorted st' => visit_all fuel get_edges ns st'
               | e => e
               end
  end.

Definition topologically_sorted (fuel : nat) (graph : list string) (get_edges : string -> list string)
  : topo (list string) :=
  match visit_all fuel get_edges (sort graph) ([], []) with
  | Sorted st => Sorted (snd st)
  | CycleError v => CycleError v
  | TopoOutOfFuel => TopoOutOfFuel
  end.
