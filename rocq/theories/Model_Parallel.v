(** Model of loading target build files in worker processes,
    gyp/pylib/gyp/input.py:559-665, and one after another, 379-495 and
    2981-2990.

    [load x] is what CallLoadTargetBuildFile (500-552) computes for the file
    [x]: its data and the files its targets depend on, or [None] if loading
    raised.  Simplifications: that result depends on the file alone; a worker
    process never dies without answering; KeyboardInterrupt is left out. *)
From Verif Require Import Lib Model_Value.

Section Parallel.
Context {A : Type}.
Variable load : string -> option (A * list string).

(** self.data[path] = contents *)
Definition put (x : string) (d : A) (l : list (string * A)) : list (string * A) :=
  (x, d) :: filter (fun e => negb (String.eqb (fst e) x)) l.

(** ** In parallel *)

(** Where the main thread is: in the loop holding the condition's lock; in
    wait(); notified but without the lock; in pool.join(); returned; in
    sys.exit(1); or dead of the AttributeError of pool.close() on None. *)
Inductive where_main := Holding | Waiting | Woken | Draining | Returned | Exited1 | Crashed.

(** ParallelState (559-585), the pool and the main thread. *)
Record pstate := mk_p {
  p_main : where_main;
  p_deps : list string;              (* dependencies; head = the element pop() takes *)
  p_scheduled : list string;
  p_pending : nat;
  p_error : bool;
  p_data : list (string * A);        (* data; its keys are target_build_files *)
  p_pool : bool;                     (* pool is not None *)
  p_queue : list string;             (* tasks no worker has taken *)
  p_running : list string;           (* tasks in worker processes *)
  p_results : list string;           (* finished tasks whose callback has not run *)
  p_dispatched : list string         (* log of the apply_async calls, latest first *)
}.

(** 607-617: [roots] is build_files. *)
Definition par_init (roots : list string) : pstate :=
  mk_p Holding (rev roots) roots 0 false [] false [] [] [] [].

(** 655-665: leaving the loop. *)
Definition leave (st : pstate) : pstate :=
  mk_p (if p_pool st then Draining else Crashed) (p_deps st) (p_scheduled st) (p_pending st) (p_error st) (p_data st)
       (p_pool st) (p_queue st) (p_running st) (p_results st) (p_dispatched st).

(** 621-651: one iteration of the loop. *)
Definition main_loop (st : pstate) : pstate :=
  match p_deps st, p_pending st with
  | [], 0 => leave st
  | _, _ =>
    if p_error st then leave st
    else match p_deps st with
         | [] => mk_p Waiting (p_deps st) (p_scheduled st) (p_pending st) (p_error st) (p_data st)
                      (p_pool st) (p_queue st) (p_running st) (p_results st) (p_dispatched st)
         | x :: deps => mk_p Holding deps (p_scheduled st) (S (p_pending st)) (p_error st) (p_data st)
                             true (p_queue st ++ [x]) (p_running st) (p_results st) (x :: p_dispatched st)
         end
  end.

(** 596-599 *)
Definition schedule (acc : list string * list string) (x : string) : list string * list string :=
  let '(scheduled, deps) := acc in if mem x scheduled then acc else (x :: scheduled, x :: deps).

(** 587-604: LoadTargetBuildFileCallback for the task [x], the rest of the
    finished tasks being [rest]. *)
Definition notified (m : where_main) : where_main := match m with Waiting => Woken | _ => m end.
Definition callback (x : string) (rest : list string) (st : pstate) : pstate :=
  match load x with
  | None => mk_p (notified (p_main st)) (p_deps st) (p_scheduled st) (p_pending st) true (p_data st)
                 (p_pool st) (p_queue st) (p_running st) rest (p_dispatched st)
  | Some (d, new) =>
    let '(scheduled, deps) := fold_left schedule new (p_scheduled st, p_deps st) in
    mk_p (notified (p_main st)) deps scheduled (Nat.pred (p_pending st)) (p_error st) (put x d (p_data st))
         (p_pool st) (p_queue st) (p_running st) rest (p_dispatched st)
  end.

Definition set_main (m : where_main) (st : pstate) : pstate :=
  mk_p m (p_deps st) (p_scheduled st) (p_pending st) (p_error st) (p_data st)
       (p_pool st) (p_queue st) (p_running st) (p_results st) (p_dispatched st).
Definition set_pool (queue running results : list string) (st : pstate) : pstate :=
  mk_p (p_main st) (p_deps st) (p_scheduled st) (p_pending st) (p_error st) (p_data st)
       (p_pool st) queue running results (p_dispatched st).
Definition lock_free (m : where_main) : bool := match m with Waiting | Woken | Draining => true | _ => false end.

(** The steps of the whole program, with [workers] worker processes.  Workers
    take tasks in order, finish in any order; callbacks run one at a time, in
    the order of the results, when the lock is free. *)
Inductive par_step (workers : nat) (st : pstate) : pstate -> Prop :=
| step_main : p_main st = Holding -> par_step workers st (main_loop st)
| step_reacquire : p_main st = Woken -> par_step workers st (set_main Holding st)
| step_take x queue : p_queue st = x :: queue -> length (p_running st) < workers ->
    par_step workers st (set_pool queue (x :: p_running st) (p_results st) st)
| step_finish x l1 l2 : p_running st = l1 ++ x :: l2 ->
    par_step workers st (set_pool (p_queue st) (l1 ++ l2) (p_results st ++ [x]) st)
| step_callback x rest : p_results st = x :: rest -> lock_free (p_main st) = true -> par_step workers st (callback x rest st)
| step_join : p_main st = Draining -> p_queue st = [] -> p_running st = [] -> p_results st = [] ->
    par_step workers st (set_main (if p_error st then Exited1 else Returned) st).

(** ** One after another *)

(** 379-495: LoadTargetBuildFile with load_dependencies; the state is
    (target_build_files, data). *)
Fixpoint seq_load (fuel : nat) (x : string) (st : list string * list (string * A)) : result (list string * list (string * A)) :=
  match fuel with
  | O => Exn NoFuel
  | S fuel' =>
    let '(files, data) := st in
    if mem x files then Val st
    else match load x with
         | None => Exn (GypError x)
         | Some (d, new) => rfold (fun st y => seq_load fuel' y st) new (files ++ [x], put x d data)
         end
  end.
(** 2981-2990 *)
Definition seq_load_all (fuel : nat) (roots : list string) : result (list string * list (string * A)) :=
  rfold (fun st x => seq_load fuel x st) roots ([], []).
End Parallel.
