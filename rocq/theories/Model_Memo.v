(** Models of small stateful helpers:
    - gyp/pylib/gyp/common.py:19-30 [memoize];
    - gyp/pylib/gyp/input.py:1113 and 1176-1184 [cached_conditions_asts];
    - gyp/pylib/gyp/common.py:558-567 [uniquer]. *)
From Verif Require Import Lib.

Section Memo.
  Variables Arg Res Exn : Type.
  Variable arg_eq_dec : forall x y : Arg, {x = y} + {x <> y}.
  (** the decorated function; [inr] is a raised exception *)
  Variable f : Arg -> Res + Exn.

  Fixpoint cache_get (a : Arg) (cache : list (Arg * Res)) : option Res :=
    match cache with
    | [] => None
    | (a', r) :: c => if arg_eq_dec a a' then Some r else cache_get a c
    end.

  (** Cache and the log of calls to [f] that the wrapper made. *)
  Record memo := mk_memo { m_cache : list (Arg * Res); m_log : list Arg }.

  (** common.py:24-30 [__call__]: an exception leaves the cache alone. *)
  Definition memo_call (m : memo) (a : Arg) : memo * (Res + Exn) :=
    match cache_get a (m_cache m) with
    | Some r => (m, inl r)
    | None => match f a with
              | inl r => (mk_memo ((a, r) :: m_cache m) (m_log m ++ [a]), inl r)
              | inr e => (mk_memo (m_cache m) (m_log m ++ [a]), inr e)
              end
    end.

  Fixpoint memo_run (m : memo) (calls : list Arg) : memo * list (Res + Exn) :=
    match calls with
    | [] => (m, [])
    | a :: cs => let (m1, r) := memo_call m a in
                 let (m2, rs) := memo_run m1 cs in (m2, r :: rs)
    end.
End Memo.

(** input.py:1176-1187: a condition is compiled through the cache and then
    evaluated against the variables of the moment.  [compile] and [eval] are
    Python's; compile errors are not cached. *)
Section ConditionCache.
  Variables Code Vars Exn : Type.
  Variable compile : string -> Code + Exn.
  Variable eval : Code -> Vars -> bool + Exn.

  Definition eval_cached (cache : list (string * Code)) (q : string * Vars)
    : list (string * Code) * (bool + Exn) :=
    match assoc (fst q) cache with
    | Some code => (cache, eval code (snd q))
    | None => match compile (fst q) with
              | inl code => ((fst q, code) :: cache, eval code (snd q))
              | inr e => (cache, inr e)
              end
    end.

  Fixpoint eval_run (cache : list (string * Code)) (qs : list (string * Vars)) : list (bool + Exn) :=
    match qs with
    | [] => []
    | q :: qs' => let (c', r) := eval_cached cache q in r :: eval_run c' qs'
    end.
End ConditionCache.

(** common.py:558-567 [uniquer]: keep the first item of every marker. *)
Section Uniquer.
  Variables Item Marker : Type.
  Variable marker_eq_dec : forall x y : Marker, {x = y} + {x <> y}.
  Variable idfun : Item -> Marker.

  Fixpoint uniquer_loop (seen : list Marker) (result : list Item) (seq : list Item) : list Item :=
    match seq with
    | [] => result
    | item :: seq' =>
      if in_dec marker_eq_dec (idfun item) seen then uniquer_loop seen result seq'
      else uniquer_loop (idfun item :: seen) (result ++ [item]) seq'
    end.
  Definition uniquer (seq : list Item) : list Item := uniquer_loop [] [] seq.
End Uniquer.
