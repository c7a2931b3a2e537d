(** Property theorems: loading build files in parallel (C22).  [wanted],
    [broken], [all_loaded], [finite_project], [reachable], [ended] are in
    Spec_Parallel.  The number of workers and the schedule are arbitrary. *)
From Verif Require Import Lib LibFacts Model_Value Model_Parallel Spec_Parallel Proof_Parallel.
Local Open Scope string_scope.

(** C22: whenever parallel loading ends, either every wanted file could be
    loaded, and exactly these are loaded, each dispatched once; or the program
    exits with failure and some wanted file cannot be loaded. *)
Theorem C22_outcome : forall (A : Type) (load : string -> option (A * list string)) roots workers st,
  NoDup roots -> roots <> []%list -> reachable load workers roots st -> ended st ->
  (p_main st = Returned /\ ~ broken load roots /\ all_loaded load roots (p_data st) /\ Permutation (p_dispatched st) (map fst (p_data st))) \/
  (p_main st = Exited1 /\ broken load roots).
Proof. intros A load roots workers st HR HN H HE. exact (par_outcome load roots workers HR st H HN HE). Qed.
Print Assumptions C22_outcome.

(** C22: at every moment, no file has been dispatched twice and none that is
    not wanted. *)
Theorem C22_once : forall (A : Type) (load : string -> option (A * list string)) roots workers st,
  NoDup roots -> reachable load workers roots st -> NoDup (p_dispatched st) /\ forall x, In x (p_dispatched st) -> wanted load roots x.
Proof. intros A load roots workers st HR H. exact (par_once load roots workers HR st H). Qed.
Print Assumptions C22_once.

(** C22: the program never hangs: as long as it has not ended some process can
    take a step, *)
Theorem C22_no_deadlock : forall (A : Type) (load : string -> option (A * list string)) roots workers st,
  NoDup roots -> 0 < workers -> reachable load workers roots st -> ended st \/ exists st', par_step load workers st st'.
Proof. intros A load roots workers st HR HW H. exact (par_progress load roots workers HR st HW H). Qed.
Print Assumptions C22_no_deadlock.

(** and no schedule goes on for ever. *)
Theorem C22_terminates : forall (A : Type) (load : string -> option (A * list string)) roots workers st,
  NoDup roots -> finite_project load roots -> reachable load workers roots st -> Acc (fun s' s => par_step load workers s s') st.
Proof. intros A load roots workers st HR HF H. exact (par_terminates load roots workers HR HF st H). Qed.
Print Assumptions C22_terminates.

(** C22: loading one after another gives the same: exactly the wanted files, or
    an error naming a wanted file that cannot be loaded.  [files] bounds the
    number of wanted files. *)
Theorem C22_sequential : forall (A : Type) (load : string -> option (A * list string)) roots files,
  (forall x, wanted load roots x -> In x files) ->
  match seq_load_all load (S (length files)) roots with
  | Val (seen, data) => ~ broken load roots /\ all_loaded load roots data /\ (forall x, In x seen <-> wanted load roots x)
  | Exn (GypError x) => wanted load roots x /\ load x = None
  | Exn _ => False
  end.
Proof. intros A load roots files HF. exact (seq_all load roots files HF). Qed.
Print Assumptions C22_sequential.

(** Hence both ways of loading agree on the data, as a map. *)
Theorem C22_same_data : forall (A : Type) (load : string -> option (A * list string)) roots data data',
  all_loaded load roots data -> all_loaded load roots data' -> Permutation data data'.
Proof. exact all_loaded_unique. Qed.
Print Assumptions C22_same_data.

(** A project in which a refers to b and c, which refer to each other, and an
    execution with two workers in which c is loaded before b. *)
Definition ex_load (x : string) : option (nat * list string) :=
  if String.eqb x "a" then Some (1, ["b"; "c"]) else if String.eqb x "b" then Some (2, ["c"; "a"]) else if String.eqb x "c" then Some (3, ["b"]) else None.
Example C22_witness : exists st, NoDup ["a"] /\ finite_project ex_load ["a"] /\ reachable ex_load 2 ["a"] st /\ ended st /\
  p_data st = [("b", 2); ("c", 3); ("a", 1)] /\ p_dispatched st = ["b"; "c"; "a"].
Proof.
  eexists. split; [repeat constructor; intros []|]. split.
  { exists ["a"; "b"; "c"]. intros x (r & [<-|[]] & H). apply clos_rt_rtn1 in H. induction H as [|y z (d & new & E & HI) _ IH]; [left; reflexivity|].
    cbn in IH. destruct IH as [<-|[<-|[<-|[]]]]; cbn in E; injection E as <- <-; cbn in *; tauto. }
  split.
  { unfold reachable. do 8 (eapply rt_trans; [apply rt_step; first [apply step_main; reflexivity|eapply step_take; [reflexivity|cbn; lia]|apply (step_finish _ _ _ "a" [] []); reflexivity|eapply step_callback; reflexivity|apply step_reacquire; reflexivity]|cbv]).
    do 3 (eapply rt_trans; [apply rt_step; first [apply step_main; reflexivity|eapply step_take; [reflexivity|cbn; lia]]|cbv]).
    eapply rt_trans; [apply rt_step; apply (step_finish _ _ _ "c" ["b"] []); reflexivity|cbv].
    eapply rt_trans; [apply rt_step; apply (step_finish _ _ _ "b" [] []); reflexivity|cbv].
    do 5 (eapply rt_trans; [apply rt_step; first [apply step_main; reflexivity|eapply step_callback; reflexivity|apply step_reacquire; reflexivity|apply step_join; reflexivity]|cbv]).
    apply rt_refl. }
  split; [left; reflexivity|]. split; reflexivity.
Qed.

(** Finding: with no build files at all the program dies of an internal error
    (pool is None) instead of returning. *)
Theorem C22_no_files_refuted : forall (A : Type) (load : string -> option (A * list string)) workers,
  exists st, reachable load workers [] st /\ p_main st = Crashed.
Proof. exact no_files_crash. Qed.
Print Assumptions C22_no_files_refuted.
