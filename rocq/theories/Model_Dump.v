(** Model of gyp/pylib/gyp/generator/dump_dependency_json.py: the graph that is written
    to dump.json.  Left out: the name and the writing of the file (95-103). *)
From Verif Require Import Lib.

(** The graph, in the order in which targets are visited, or a KeyError *)
Inductive dump := Graph (edges : list (string * list string)) | Unknown (target : string).
(** 85-93, the loop.  [dicts] is target_dicts, each with the list behind "dependencies",
    if there is one; the end of targets_to_visit, from which it takes targets, is here the
    beginning of [todo].  [None] is that [fuel] is used up. *)
Fixpoint visit (fuel : nat) (dicts : list (string * option (list string))) (edges : list (string * list string)) (todo : list string) : option dump :=
  match fuel with
  | 0 => None
  | S fuel' =>
    match todo with
    | [] => Some (Graph edges)
    | target :: rest =>
      if mem target (map fst edges) then visit fuel' dicts edges rest
      else
        match assoc target dicts with
        | None => Some (Unknown target)
        | Some deps =>
          let deps := match deps with Some l => l | None => [] end in
          visit fuel' dicts (edges ++ [(target, deps)]) (rev deps ++ rest)
        end
    end
  end.
(** 78-93: GenerateOutput *)
Definition generate_dump (fuel : nat) (dicts : list (string * option (list string))) (target_list : list string) : option dump :=
  visit fuel dicts [] (rev target_list).
