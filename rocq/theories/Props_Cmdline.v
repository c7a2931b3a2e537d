(** C84: the arguments of actions in Visual Studio projects. *)
From Verif Require Import Lib Str Spec_Path Model_Vcxproj Spec_Vcxproj Spec_Custom Model_Cmdline Spec_Cmdline Proof_Vcxproj Proof_Vcxproj5 Proof_Cmdline Props_Vcxproj Props_Custom.
Local Open Scope string_scope.

Definition by_cmd : shell := {| cygwin := None; quote := None |}.
Definition line_of (pre : string) (cmd : list string) : string := match command_line pre (Some false) None by_cmd false true cmd with inl s => s | inr _ => "" end.
Ltac ordinary_text := let H := fresh in intros ? H; repeat (destruct H as [<-|H]; [vm_compute; reflexivity|]); destruct H.
Ltac not_bs := let r := fresh in let H := fresh in intros (r & H); apply (f_equal (fun s => rev (list_ascii_of_string s))) in H; revert H; generalize r; clear; intros r H;
  assert (X : list_ascii_of_string (r ++ "\") = (list_ascii_of_string r ++ ["\"%char])%list) by (clear; induction r as [|? r IH]; [reflexivity|]; cbn; rewrite IH; reflexivity); rewrite X, rev_app_distr in H; discriminate H.
Ltac fine := split; [ordinary_text|]; split; [first [right; relative_path | left; first [left; reflexivity | right; right; reflexivity | right; left; eexists; right; reflexivity]]|]; intros _; not_bs.

(** C84.  The command of an action that is not run by cygwin is one command for
    cmd.exe, and its program gets as many arguments as the action has: each that begins
    with a slash or a dash or has an equals sign in it (or is empty) as it is, and each
    other one as a path, with slashes, that leads to the same file from the directory of
    the project.  The program is the one that is named (type for cat), with
    backslashes. *)
Theorem C84_arguments : forall p target dirs s path setup first rest line, command_line p target dirs s path setup (first :: rest) = inl line ->
  (cygwin s = Some false \/ cygwin s = None /\ target = Some false) -> quote s <> Some false -> way p -> ordinary p -> ordinary first ->
  Forall (fun a => ordinary a /\ (option_like a \/ relative a) /\ (option_like a -> ~ exists r, a = r ++ "\")) rest ->
  exists c prog args, map simple (parts false line) = [c] /\ argv c = prog :: args /\ (first = "cat" -> prog = "type") /\ (first <> "cat" -> pieces prog = pieces first /\ has_char "/" prog = false) /\ Forall2 (passes p) rest args.
Proof. exact command_arguments. Qed.
Print Assumptions C84_arguments.
Definition words : list string := ["gen/x.py"; "--out=a & b\c.h"; "-v"; "my file.txt"; ""].
Example C84_arguments_witness : (exists line, command_line "..\..\deps" (Some false) None by_cmd false true ("python" :: words) = inl line /\
    map argv (map simple (parts false line)) = [["python"; "../../deps/gen/x.py"; "--out=a & b\c.h"; "-v"; "../../deps/my file.txt"; ""]]) /\
  way "..\..\deps" /\ ordinary "..\..\deps" /\ ordinary "python" /\ Forall (fun a => ordinary a /\ (option_like a \/ relative a) /\ (option_like a -> ~ exists r, a = r ++ "\")) words.
Proof.
  split; [eexists; split; [vm_compute; reflexivity|vm_compute; reflexivity]|]. split; [exact workshop_way|]. split; [ordinary_text|]. split; [ordinary_text|]. unfold words. repeat (apply Forall_cons; [fine|]). apply Forall_nil.
Qed.

(** An argument that is no path and no option is changed as if it were a path: an
    address loses a slash and has the way to the .gyp file put before it. *)
Theorem C84_address_refuted : ~ forall p first rest line a x y, command_line p (Some false) None by_cmd false true (first :: rest) = inl line -> way p -> ordinary p -> ordinary first -> Forall ordinary rest ->
  In a rest -> a = x ++ "://" ++ y -> exists c, In c (map simple (parts false line)) /\ In a (argv c).
Proof.
  intros H. destruct (H ".." "curl" ["https://nodejs.org/dist"] (line_of ".." ["curl"; "https://nodejs.org/dist"]) "https://nodejs.org/dist" "https" "nodejs.org/dist") as (c & I & J).
  - vm_compute. reflexivity.
  - apply climbs_way. right. intros d [<-|[]]. reflexivity.
  - ordinary_text.
  - ordinary_text.
  - apply Forall_cons; [ordinary_text|apply Forall_nil].
  - left. reflexivity.
  - reflexivity.
  - vm_compute in I. destruct I as [<-|[]]. vm_compute in J. repeat (destruct J as [J|J]; [discriminate J|]). destruct J.
Qed.
Print Assumptions C84_address_refuted.
(** An argument that ends in a backslash takes the one after it along: the double quote
    at its end is read as part of it. *)
Theorem C84_backslash_refuted : ~ forall p first rest line, command_line p (Some false) None by_cmd false true (first :: rest) = inl line -> way p -> ordinary p -> ordinary first -> Forall (fun a => ordinary a /\ option_like a) rest ->
  exists c prog, map simple (parts false line) = [c] /\ argv c = prog :: rest.
Proof.
  intros H. destruct (H ".." "tool" ["--dir=C:\x\"; "-v"] (line_of ".." ["tool"; "--dir=C:\x\"; "-v"])) as (c & g & E & F).
  - vm_compute. reflexivity.
  - apply climbs_way. right. intros d [<-|[]]. reflexivity.
  - ordinary_text.
  - ordinary_text.
  - apply Forall_cons; [split; [ordinary_text|right; right; reflexivity]|]. apply Forall_cons; [split; [ordinary_text|right; left; eexists; right; reflexivity]|apply Forall_nil].
  - vm_compute in E. injection E as <-. vm_compute in F. discriminate F.
Qed.
Print Assumptions C84_backslash_refuted.
(** Double quotes in an argument are not escaped, and so are lost; with a blank between
    them there are two arguments. *)
Theorem C84_quotes_refuted : ~ forall p first rest line, command_line p (Some false) None by_cmd false true (first :: rest) = inl line -> way p -> ordinary p -> ordinary first -> Forall option_like rest ->
  Forall (fun a => forall c, In c ["%"; "^"; "$"; "010"; "013"; "\"]%char -> has_char c a = false) rest -> exists c prog, map simple (parts false line) = [c] /\ argv c = prog :: rest.
Proof.
  intros H. destruct (H ".." "tool" ["--name=""a b"""] (line_of ".." ["tool"; "--name=""a b"""])) as (c & g & E & F).
  - vm_compute. reflexivity.
  - apply climbs_way. right. intros d [<-|[]]. reflexivity.
  - ordinary_text.
  - ordinary_text.
  - apply Forall_cons; [right; right; reflexivity|apply Forall_nil].
  - apply Forall_cons; [ordinary_text|apply Forall_nil].
  - vm_compute in E. injection E as <-. vm_compute in F. discriminate F.
Qed.
Print Assumptions C84_quotes_refuted.
(** A program that is given by its path is looked for below build, where cmd.exe runs,
    and not where the .gyp file is. *)
Theorem C84_program_refuted : ~ forall p first rest line, command_line p (Some false) None by_cmd false true (first :: rest) = inl line -> way p -> ordinary p -> ordinary first -> relative first -> has_char "/" first = true ->
  exists c prog args, map simple (parts false line) = [c] /\ argv c = prog :: args /\ forall here, leads here prog = leads (leads here p) first.
Proof.
  intros H. destruct (H ".." "tools/gen" [] (line_of ".." ["tools/gen"])) as (c & g & l & E & F & L).
  - vm_compute. reflexivity.
  - apply climbs_way. right. intros d [<-|[]]. reflexivity.
  - ordinary_text.
  - ordinary_text.
  - relative_path.
  - reflexivity.
  - vm_compute in E. injection E as <-. vm_compute in F. injection F as <- _. specialize (L ["build"]). vm_compute in L. discriminate L.
Qed.
Print Assumptions C84_program_refuted.
