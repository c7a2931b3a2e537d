(** Property theorems: the command line (C38, C39).  [reads_as], [long_form],
    [is_command], [appended] are in Spec_Cli. *)
From Verif Require Import Lib LibFacts Model_Value Model_Cli Spec_Cli Proof_Cli.
Local Open Scope string_scope.

(** C38: the commands found are exactly the command words (short forms
    spelled out), in order, each with the words up to the next command; only
    words before the first command are dropped. *)
Theorem C38_parse : forall words, Forall (fun s => ~ In s everywhere) words ->
  exists cs, parse_argv words = map (fun c => (Word (fst c), map Word (snd c))) cs /\ reads_as (map long_form words) cs.
Proof. exact parse_spec. Qed.
Print Assumptions C38_parse.
(** and words read in one way only. *)
Theorem C38_unique : forall words cs cs', reads_as words cs -> reads_as words cs' -> cs = cs'.
Proof. exact reads_as_unique. Qed.
Print Assumptions C38_unique.
Example C38_witness : Forall (fun s => ~ In s everywhere) ["x"; "rm"; "v1"; "install"; "rebuild"; "--"; "rebuild"] /\
  parse_argv ["x"; "rm"; "v1"; "install"; "rebuild"; "--"; "rebuild"] =
  [(Word "remove", [Word "v1"]); (Word "install", []); (Word "rebuild", [Word "--"]); (Word "rebuild", [])].
Proof. split; [repeat constructor; cbn; intuition discriminate|reflexivity]. Qed.

(** Finding: an argument with the name of a property every object has is not
    passed on as it is: the command gets a function instead. *)
Theorem C38_inherited_refuted : exists words, parse_argv words = [(Word "install", [Inherited "constructor"])] /\ reads_as words [("install", ["constructor"])].
Proof. exists ["install"; "constructor"]. split; [reflexivity|]. exists []. split; [reflexivity|]. split; [constructor|]. repeat constructor; cbn; intuition discriminate. Qed.
Print Assumptions C38_inherited_refuted.

(** C39: running ends, whatever the commands do.  The commands run are the
    first ones of the queue (those given, then those appended, in the order
    they were appended); all but the last have succeeded; the exit code is 0
    exactly if all of the queue was run with success, 1 if the last command
    failed, 6 if it never came to an end. *)
Theorem C39_run : forall w denied todo, exists hist code, run_all w denied todo = Some (hist, code) /\
  (forall h c e t, hist = h ++ (c, e) :: t -> e = w h c /\ (t <> [] -> e = Resolves))%list /\
  (exists left, todo ++ appended denied [] hist = map fst hist ++ left /\ (code = 0 <-> left = [] /\ Forall (fun e => snd e = Resolves) hist))%list /\
  (code = 1 <-> exists h c, hist = h ++ [(c, Rejects)])%list /\ (code = 6 <-> exists h c, hist = h ++ [(c, Hangs)])%list /\ (code = 0 \/ code = 1 \/ code = 6).
Proof. intros w denied todo. exact (run_spec _ w denied todo [] (Nat.lt_succ_diag_r _)). Qed.
Print Assumptions C39_run.
(** On its own, rebuild runs clean, configure with the arguments of rebuild,
    and build, in this order, up to the first that fails. *)
Theorem C39_rebuild : forall w args hist code, run_all w (fun _ _ => false) [("rebuild", args)] = Some (hist, code) ->
  (exists left, [("rebuild", args); ("clean", []); ("configure", args); ("build", [])] = map fst hist ++ left /\ (code = 0 <-> left = [] /\ Forall (fun e => snd e = Resolves) hist))%list.
Proof. exact rebuild_alone. Qed.
Print Assumptions C39_rebuild.
Example C39_witness : run_all (fun _ c => if String.eqb (fst c) "build" then Rejects else Resolves) (fun _ _ => false) [("rebuild", ["x"]); ("list", [])] =
  Some ([(("rebuild", ["x"]), Resolves); (("list", []), Resolves); (("clean", []), Resolves); (("configure", ["x"]), Resolves); (("build", []), Rejects)], 1).
Proof. reflexivity. Qed.

(** Finding: commands given after rebuild are run before what rebuild stands
    for. *)
Theorem C39_rebuild_last_refuted : exists hist, run_all (fun _ _ => Resolves) (fun _ _ => false) [("rebuild", []); ("list", [])] = Some (hist, 0) /\
  before ("list", []) ("clean", []) (map fst hist).
Proof. eexists. split; [reflexivity|]. exists [("rebuild", [])], [], [("configure", []); ("build", [])]. reflexivity. Qed.
Print Assumptions C39_rebuild_last_refuted.
