(** Property theorems: the search for Python (C40).  [candidates] and
    [acceptable] are in Spec_Python. *)
From Verif Require Import Lib LibFacts Str Js Model_Python Spec_Python Proof_Python.
Local Open Scope string_scope.

(** C40: what is found is the path of the first acceptable candidate, *)
Theorem C40_first : forall programs in_range s p, find_python programs in_range s = Some p <->
  exists pre c post, candidates s = (pre ++ c :: post)%list /\ acceptable programs in_range s c p /\ forall c' p', In c' pre -> ~ acceptable programs in_range s c' p'.
Proof. exact find_python_Some. Qed.
Print Assumptions C40_first.
(** and the search fails exactly if no candidate is acceptable. *)
Theorem C40_fails : forall programs in_range s, find_python programs in_range s = None <-> forall c p, In c (candidates s) -> ~ acceptable programs in_range s c p.
Proof. exact find_python_None. Qed.
Print Assumptions C40_fails.

Definition demo_settings : settings := {| force_python := ""; config_python := "py2"; env_python := ""; win := false; py_launcher := "py.exe"; locations := [] |}.
Definition demo_programs (exec : string) (args : list string) (shell : bool) : ran :=
  if String.eqb exec "py2" then Ran false "/bin/py2" else if String.eqb exec "/bin/py2" then Ran false "2.7.1"
  else if String.eqb exec "python3" then Ran true "" else if String.eqb exec "python" then Ran false "/bin/py3 " else if String.eqb exec "/bin/py3" then Ran false "3.9.0" else Threw.
Example C40_witness : find_python demo_programs (String.eqb "3.9.0") demo_settings = Some "/bin/py3" /\ candidates demo_settings = [Command "py2"; Command "python3"; Command "python"].
Proof. split; reflexivity. Qed.

(** Finding: whether the program ended with an error is not looked at; a
    Python that fails both times is accepted if it printed a path and a
    version. *)
Theorem C40_exit_status_refuted : exists programs in_range s p, find_python programs in_range s = Some p /\
  forall exec args shell, programs exec args shell = Threw \/ exists out, programs exec args shell = Ran true out.
Proof.
  exists (fun exec _ _ => Ran true (if String.eqb exec "python3" then "/p" else "3.9.0")), (String.eqb "3.9.0"), {| force_python := ""; config_python := ""; env_python := ""; win := false; py_launcher := "py.exe"; locations := [] |}, "/p".
  split; [reflexivity|]. intros exec args shell. right. eexists. reflexivity.
Qed.
Print Assumptions C40_exit_status_refuted.
