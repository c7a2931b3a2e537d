(** C106: the environment that tools get in ninja builds on Windows. *)
From Coq Require Import NArith Lia.
From Verif Require Import Lib LibFacts Str StrFacts Model_Path Model_WinEnv Spec_WinEnv Proof_WinEnv Proof_WinEnv2 Proof_WinEnv3 Proof_WinEnv4.
Local Open Scope string_scope.

(** Without directories shared by all targets, tools for an architecture get just the needed
    variables of what "set" printed for it, in any case, with python's directory before the
    search path. *)
Theorem C106_restored : forall python archs files, clean python -> Forall (fun '(_, vars) => Forall variable vars) archs -> generate python [] (all_printed archs) = inl files ->
  length files = length archs /\ forall before arch vars after, archs = (before ++ (arch, vars) :: after)%list -> exists b e, nth_error files (length before) = Some ("environment." ++ arch, b) /\ get_env b = Some e /\
  forall name, assoc name e = wanted python vars name.
Proof.
  intros python archs files P F G. destruct (generated python P archs [] files F (Forall_nil _) G) as [L H]. split; [exact L|]. intros before arch vars after E. destruct (H before arch vars after E) as (b & e & N & R & A). exists b, e. split; [exact N|]. split; [exact R|]. intros n. rewrite A. cbn [more]. rewrite andb_false_r. reflexivity.
Qed.
Print Assumptions C106_restored.
(** Else INCLUDE has these directories first, each once, and then those that were there, for
    this architecture and those before it; other variables are as above. *)
Theorem C106_shared_first : forall python archs system files, clean python -> Forall (fun '(_, vars) => Forall variable vars) archs -> Forall clean system -> system <> [] -> generate python system (all_printed archs) = inl files ->
  forall before arch vars after, archs = (before ++ (arch, vars) :: after)%list -> exists b e, nth_error files (length before) = Some ("environment." ++ arch, b) /\ get_env b = Some e /\
  assoc "INCLUDE" e = Some (String.concat ";" (firsts (system ++ flat_map (fun '(_, vs) => included vs) (before ++ [(arch, vars)])))) /\ forall name, name <> "INCLUDE" -> assoc name e = wanted python vars name.
Proof.
  intros python archs system files P F C N G before arch vars after E. destruct (generated python P archs system files F C G) as [_ H]. destruct (H before arch vars after E) as (b & e & X & R & A). exists b, e. split; [exact X|]. split; [exact R|]. split.
  - rewrite A. destruct system as [|s system]; [congruence|]. reflexivity.
  - intros n D. rewrite A. apply String.eqb_neq in D. rewrite D. reflexivity.
Qed.
Print Assumptions C106_shared_first.
(** The files are not written just if a variable is missing that tools cannot do without. *)
Theorem C106_missing : forall python archs system, Forall (fun '(_, vars) => Forall variable vars) archs ->
  (exists e, generate python system (all_printed archs) = inr e) <-> exists arch vars name, In (arch, vars) archs /\ In name ["SYSTEMROOT"; "TEMP"; "TMP"] /\ value_of vars name = None.
Proof. exact fails. Qed.
Print Assumptions C106_missing.
(** Directories shared are those that all have; no target loses one, and none has one twice
    because of this. *)
Theorem C106_shared : forall configs all, shared configs = Some all -> NoDup all /\ (forall i, In i all <-> forall c, In c configs -> In i c) /\
  forall c, In c configs -> (forall i, In i c <-> In i (remaining all c) \/ In i all) /\ forall i, In i (remaining all c) -> ~ In i all.
Proof. exact shared_kept. Qed.
Print Assumptions C106_shared.
(** Actions get the variables of the build as well, but for those that are saved. *)
Theorem C106_action : forall environ saved, NoDup (map fst environ) -> forall n, assoc n (action_env saved environ) = match assoc n saved with Some v => Some v | None => assoc n environ end.
Proof. exact action_is. Qed.
Print Assumptions C106_action.
(** Linkers that run at the same time do not share a server for debugging symbols, if they
    are not to; nothing else changes for them. *)
Theorem C106_endpoint : forall word p1 p2 args1 args2 e1 e2 x1 x2, digits_word word -> assoc "_MSPDBSRV_ENDPOINT_" e1 = None -> assoc "_MSPDBSRV_ENDPOINT_" e2 = None -> p1 <> p2 ->
  assoc "_MSPDBSRV_ENDPOINT_" (separate word p1 args1 e1) = Some x1 -> assoc "_MSPDBSRV_ENDPOINT_" (separate word p2 args2 e2) = Some x2 -> x1 <> x2.
Proof. exact separate_apart. Qed.
Print Assumptions C106_endpoint.
Theorem C106_endpoint_only : forall word p args e n, n <> "_MSPDBSRV_ENDPOINT_" -> assoc n (separate word p args e) = assoc n e.
Proof. exact separate_other. Qed.
Print Assumptions C106_endpoint_only.
(** Each linker that is told its output has one, and no other tool. *)
Theorem C106_endpoint_given : forall word p args e, assoc "_MSPDBSRV_ENDPOINT_" e = None ->
  (assoc "_MSPDBSRV_ENDPOINT_" (separate word p args e) <> None <-> exists rest, args = "link.exe" :: rest /\ exists a, In a rest /\ names_output a).
Proof. exact separate_given. Qed.
Print Assumptions C106_endpoint_given.
Example C106_endpoint_given_witness : names_output "/Out:obj\a.dll" /\ assoc "_MSPDBSRV_ENDPOINT_" [("TMP", "t")] = None.
Proof. split; [exists "/Out:", "obj\a.dll"; repeat split; discriminate|reflexivity]. Qed.

(** ** Samples *)
Definition vars86 : list (string * string) := [("ComSpec", "C:\cmd.exe"); ("Include", "C:\vc\x86"); ("LIB", "C:\lib\x86"); ("Path", "C:\bin;C:\a=b"); ("SystemRoot", "C:\Windows"); ("TEMP", "C:\t"); ("TMP", "C:\t"); ("GOMA_dir", "g"); ("LibPathX", "no")].
Definition vars64 : list (string * string) := [("INCLUDE", "C:\vc\x64"); ("Path", "C:\bin64"); ("SystemRoot", "C:\Windows"); ("TEMP", "C:\t"); ("TMP", "C:\t")].
Definition two : list (string * list (string * string)) := [("x86", vars86); ("x64", vars64)].
Lemma two_variables : Forall (fun '(_, vars) => Forall variable vars) two.
Proof. repeat constructor; vm_compute; congruence. Qed.
Definition read (x : list (string * string) + problem) (i : nat) : option env := match x with inl l => match nth_error l i with Some (_, b) => get_env b | None => None end | inr _ => None end.
Example C106_witness : clean "C:\py" /\ Forall (fun '(_, vars) => Forall variable vars) two /\ (exists files, generate "C:\py" [] (all_printed two) = inl files) /\
  read (generate "C:\py" [] (all_printed two)) 0 = Some [("INCLUDE", "C:\vc\x86"); ("LIB", "C:\lib\x86"); ("PATH", "C:\py;C:\bin;C:\a=b"); ("SYSTEMROOT", "C:\Windows"); ("TEMP", "C:\t"); ("TMP", "C:\t"); ("GOMA_DIR", "g")] /\
  wanted "C:\py" vars86 "PATH" = Some "C:\py;C:\bin;C:\a=b" /\ wanted "C:\py" vars86 "COMSPEC" = None.
Proof. split; [repeat split; vm_compute; congruence|]. split; [exact two_variables|]. split; [eexists; vm_compute; reflexivity|]. split; [|split]; vm_compute; reflexivity. Qed.
Example C106_missing_witness : generate "C:\py" [] (all_printed [("x86", [("SystemRoot", "C:\Windows"); ("TEMP", "C:\t")])]) = inr (Required "TMP").
Proof. vm_compute. reflexivity. Qed.
Example C106_shared_witness : shared [["a"; "b"; "b"; "c"]; ["c"; "b"]] = Some ["c"; "b"] /\ remaining ["c"; "b"] ["a"; "b"; "b"; "c"] = ["a"].
Proof. split; reflexivity. Qed.
Definition ascii_word (c : ascii) : bool := let n := N_of_ascii c in (N.leb 48 n && N.leb n 57) || (N.leb 65 n && N.leb n 90) || (N.leb 97 n && N.leb n 122) || N.eqb n 95.
Example C106_endpoint_witness : digits_word ascii_word /\ separate ascii_word 42 ["link.exe"; "/nologo"; "/Out:obj\a.dll"] [("TMP", "t")] = [("TMP", "t"); ("_MSPDBSRV_ENDPOINT_", "objadll_42")].
Proof. split; [|vm_compute; reflexivity]. intros c I. repeat (destruct I as [<-|I]; [reflexivity|]). destruct I. Qed.

(** ** Findings *)
(** With directories shared by all targets, the directories in INCLUDE for x86 are searched
    for x64 as well, and before those for x64: the variable to which the ones for x86 are
    added is used again for x64 (msvs_emulation.py:1190, 1203-1207). *)
Theorem C106_leak_refuted : exists archs system e, Forall (fun '(_, vars) => Forall variable vars) archs /\ Forall clean system /\ read (generate "C:\py" system (all_printed archs)) 1 = Some e /\
  archs = [("x86", vars86); ("x64", vars64)] /\ included vars64 = ["C:\vc\x64"] /\ system = ["C:\sdk"] /\ assoc "INCLUDE" e = Some "C:\sdk;C:\vc\x86;C:\vc\x64".
Proof. exists two, ["C:\sdk"]. eexists. split; [exact two_variables|]. split; [repeat constructor; vm_compute; congruence|]. split; [vm_compute; reflexivity|]. split; [reflexivity|]. split; [reflexivity|]. split; vm_compute; reflexivity. Qed.
Print Assumptions C106_leak_refuted.
(** Shared directories are searched in the order of the last target, not of the one that is
    built: an intersection of ordered sets goes by the order of the second
    (msvs_emulation.py:178). *)
Theorem C106_order_refuted : exists configs c a b, In c configs /\ c = [a; b] /\ a <> b /\ shared configs = Some [b; a].
Proof. exists [["new"; "old"]; ["old"; "new"]], ["new"; "old"], "new", "old". split; [left; reflexivity|]. split; [reflexivity|]. split; [discriminate|reflexivity]. Qed.
Print Assumptions C106_order_refuted.
