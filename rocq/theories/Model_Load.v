(** Model of gyp/pylib/gyp/input.py:139-169 (GetIncludedBuildFiles) and 172-220
    (CheckedEval, CheckNode).  Simplification: the parser itself (ast.parse) is
    not modelled; a syntax tree is given. *)
From Verif Require Export Model_Value.
Local Open Scope string_scope.

(** input.py:139-169; [aux] is aux_data, giving for each known file its
    "included" list (default []); [included] is the list extended in place. *)
Fixpoint included_build_files (fuel : nat) (aux : list (string * list string)) (path : string) (included : list string)
  : result (list string) :=
  match fuel with
  | O => Exn NoFuel
  | S fuel' =>
    if mem path included then Val included
    else match assoc path aux with
         | None => Exn (KeyError path)
         | Some fs => rfold (fun acc f => included_build_files fuel' aux f acc) fs (included ++ [path])%list
         end
  end.

(** A Python expression as the checked loader sees it: dict displays (an entry
    [**e] has no key), list displays, string literals, anything else. *)
Inductive node : Type :=
| NStr (s : string)
| NList (l : list node)
| NDict (d : list (option node * node))
| NOther (class : string).

(** input.py:188-220; the key path only occurs in messages. *)
Fixpoint check_node (n : node) : result value :=
  match n with
  | NDict d =>
    rbind ((fix go (es : list (option node * node)) (acc : dict) {struct es} : result dict :=
              match es with
              | [] => Val acc
              | (Some (NStr k), v) :: es' =>
                if has_key k acc then Exn (GypError k)
                else rbind (check_node v) (fun w => go es' (set_key k w acc))
              | _ => Exn (AssertionError "key")
              end) d [])
          (fun d' => Val (VDict d'))
  | NList l =>
    rbind ((fix go (ns : list node) : result (list value) :=
              match ns with
              | [] => Val []
              | c :: ns' => rbind (check_node c) (fun w => rbind (go ns') (fun ws => Val (w :: ws)))
              end) l)
          (fun l' => Val (VList l'))
  | NStr s => Val (VStr s)
  | NOther c => Exn (TypeError c)
  end.
