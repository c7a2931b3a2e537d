(** C83: the custom builds of a Visual Studio project, for actions and copies. *)
From Verif Require Import Lib Str Spec_Path Model_Vcxproj Spec_Vcxproj Spec_Custom Proof_Vcxproj Proof_Vcxproj5 Proof_Custom3 Props_Vcxproj.
Local Open Scope string_scope.

(** A .gyp file in a subdirectory, with two actions that begin with the same input,
    another, and copies. *)
Definition act (i o : list string) (l : string) : action := {| inputs := i; outputs := o; as_sources := false; message := "m"; line := l |}.
Definition workshop : project :=
  {| prefix := "..\..\deps"; gyp_file := "deps.gyp"; build_file := "deps/deps.gyp"; standalone := false; list_excluded := true; toolset := "target";
     sources := ["a.cc"]; sources_excluded := [];
     actions := [act ["gen.py"; "t.in"] ["gen/t.h"] "python gen.py t.in"; act ["u.in"] ["gen/u.h"] "gen u.in & tidy gen/u.h"; act ["gen.py"; "v.in"] ["gen/v.h"] "python gen.py v.in"];
     copies := [ {| destination := "out"; files := ["lib/x.dll"; "gen.py"] |} ]; rules := []; configurations := configurations sample |}.
Lemma workshop_way : way (prefix workshop).
Proof. right. split; [eexists; reflexivity|]. split; [intros [H|[H|[H|[]]]]; discriminate H|]. repeat split; repeat constructor. Qed.
Lemma workshop_plain : plain_project workshop.
Proof. repeat split; repeat (apply Forall_cons; [repeat split; repeat constructor|]); apply Forall_nil. Qed.

(** C83.  The actions and copies of a target are each done once: a project has one
    custom build for each file that is the first input of an action (the .gyp file, for
    one without inputs) or is copied.  It runs, in this order, the commands of the
    actions that begin with that file, and one that copies it for each directory it is
    copied to; MSBuild runs it again for a change of any input of those actions, and
    expects every output of them, and for a target without copies expects no other. *)
Theorem C83_once : forall macros p items customs, generate macros p = inl (items, customs) -> macros_kept macros -> way (prefix p) -> plain_project p ->
  exists ks, NoDup ks /\ (forall a, In a (actions p) -> In (first p a) ks) /\ (forall f, In f (copied p) -> In f ks) /\ Forall2 (custom_for p) ks customs.
Proof. exact once. Qed.
Print Assumptions C83_once.
Example C83_once_witness : (exists items a b c, generate no_macros workshop = inl (items, [a; b; c]) /\
    attached_to a = "..\..\deps\gen.py" /\ commands a = ["python gen.py t.in"; "python gen.py v.in"; "mkdir ""..\..\deps\out"" 2>nul & set ERRORLEVEL=0 & copy /Y ""..\..\deps\gen.py"" ""..\..\deps\out\gen.py"""] /\
    reads (additional_inputs a) = ["..\..\deps\t.in"; "..\..\deps\v.in"] /\ attached_to c = "..\..\deps\lib\x.dll") /\
  macros_kept no_macros /\ way (prefix workshop) /\ plain_project workshop.
Proof. split; [do 4 eexists; split; [vm_compute; reflexivity|vm_compute; repeat split]|]. split; [intros s _; reflexivity|]. split; [exact workshop_way|exact workshop_plain]. Qed.
(** ... and its commands are run one after the other, up to the first that fails, with
    the exit code of that as its own.  This is so if no command makes a variable of the
    name ERRORLEVEL. *)
Theorem C83_order : forall macros p items customs c W tool (st : state W), generate macros p = inl (items, customs) -> macros_kept macros -> way (prefix p) -> plain_project p ->
  In c customs -> Forall no_variable (commands c) -> variable st = None ->
  run_batch W tool (lines (unescape (command c))) st = one_by_one W tool (commands c) st.
Proof. exact order. Qed.
Print Assumptions C83_order.
Example C83_order_witness : exists items a b c, generate no_macros workshop = inl (items, [a; b; c]) /\ macros_kept no_macros /\ way (prefix workshop) /\ plain_project workshop /\
  In b [a; b; c] /\ Forall no_variable (commands b) /\ commands b = ["gen u.in & tidy gen/u.h"].
Proof.
  do 4 eexists. split; [vm_compute; reflexivity|]. split; [intros s _; reflexivity|]. split; [exact workshop_way|]. split; [exact workshop_plain|]. split; [right; left; reflexivity|]. match goal with |- Forall _ ?x /\ _ => replace x with ["gen u.in & tidy gen/u.h"] by (vm_compute; reflexivity) end. split; [|reflexivity].
  apply Forall_cons; [|apply Forall_nil]. split; [exists "gen u.in ", [" tidy gen/u.h"]; split; [vm_compute; reflexivity|vm_compute; discriminate]|]. intros c v [<-|[<-|[]]] H; vm_compute in H; discriminate H.
Qed.

(** A program for the disk that only writes down what was run, and where; copies fail. *)
Definition note (c : string) (here : list string) (w : list (string * list string)) : list (string * list string) * nat :=
  ((w ++ [(c, here)])%list, match after "copy " c with Some _ => 1 | None => 0 end).
Definition fresh (here : list string) : state (list (string * list string)) := {| disk := []; directory := here; level := 0; variable := None |}.

(** The failure of a copy goes unnoticed: each copy sets a variable ERRORLEVEL, whose
    value is what the check after it sees, so that what comes after it is run too.
    Here, the same file is copied to two directories. *)
Definition two_copies : project := addon [] [] [] [ {| destination := "a"; files := ["x.dll"] |}; {| destination := "b"; files := ["x.dll"] |} ] [].
Theorem C83_copy_failure_refuted : ~ forall macros p items customs c W tool (st : state W), generate macros p = inl (items, customs) -> macros_kept macros -> way (prefix p) -> plain_project p ->
  In c customs -> variable st = None -> run_batch W tool (lines (unescape (command c))) st = one_by_one W tool (commands c) st.
Proof.
  intros H. assert (PP : plain_project two_copies) by (repeat split; repeat (apply Forall_cons; [repeat split; repeat constructor|]); apply Forall_nil).
  assert (E : exists items c, generate no_macros two_copies = inl (items, [c]) /\ disk (run_batch _ note (lines (unescape (command c))) (fresh [])) <> disk (one_by_one _ note (commands c) (fresh []))).
  { do 2 eexists. split; [vm_compute; reflexivity|]. vm_compute. discriminate. }
  destruct E as (items & c & G & N). apply N. f_equal. apply (H no_macros two_copies items [c] c); [exact G|intros s _; reflexivity|apply climbs_way; right; intros d [<-|[]]; reflexivity|exact PP|left; reflexivity|reflexivity].
Qed.
Print Assumptions C83_copy_failure_refuted.

(** A custom build, run in [here], has xcopy copy [s] to [t], both seen from [there]. *)
Definition xcopies (c : custom) (here there : list string) (s t : string) : Prop :=
  In ("xcopy /e /f /y """ ++ s ++ """ """ ++ t ++ """", there) (disk (run_batch _ note (lines (unescape (command c))) (fresh here))).
(** A directory next to the .gyp file that is to be copied is not found: it is looked
    for in the directory of the project, build. *)
Definition copied_directory (d : string) : project := addon [] [] [] [ {| destination := "out"; files := [d ++ "/"] |} ] [].
Theorem C83_directory_refuted : ~ forall macros p items customs c d here there s t, generate macros p = inl (items, customs) -> macros_kept macros -> way (prefix p) -> plain_project p ->
  In c customs -> copied p = [d ++ "/"] -> xcopies c here there s t -> leads there s = leads (leads here (prefix p)) d.
Proof.
  intros H. assert (PP : plain_project (copied_directory "src")) by (repeat split; repeat (apply Forall_cons; [repeat split; repeat constructor|]); apply Forall_nil).
  assert (E : exists items c, generate no_macros (copied_directory "src") = inl (items, [c]) /\ xcopies c ["build"] ["build"] "src" "..\out\src\").
  { do 2 eexists. split; [vm_compute; reflexivity|]. unfold xcopies. vm_compute. tauto. }
  destruct E as (items & c & G & N). assert (Q : leads ["build"] "src" = leads (leads ["build"] "..") "src"); [|vm_compute in Q; discriminate Q].
  apply (H no_macros (copied_directory "src") items [c] c "src" ["build"] ["build"] "src" "..\out\src\"); [exact G|intros s _; reflexivity|apply climbs_way; right; intros d [<-|[]]; reflexivity|exact PP|left; reflexivity|reflexivity|exact N].
Qed.
Print Assumptions C83_directory_refuted.
(** One that is further down is found, but is copied to another place than the
    destination: the path of the destination is meant for the directory of the project,
    and is used below another. *)
Theorem C83_directory_place_refuted : ~ forall macros p items customs c d e here there s t, generate macros p = inl (items, customs) -> macros_kept macros -> way (prefix p) -> plain_project p ->
  In c customs -> copying p = [(e, d ++ "/")] -> xcopies c here there s t -> exists below, leads there t = (below ++ leads (leads here (prefix p)) e)%list.
Proof.
  intros H. assert (PP : plain_project (copied_directory "a/b/src")) by (repeat split; repeat (apply Forall_cons; [repeat split; repeat constructor|]); apply Forall_nil).
  assert (E : exists items c, generate no_macros (copied_directory "a/b/src") = inl (items, [c]) /\ xcopies c ["build"] ["b"; "a"] "src" "..\out\src\").
  { do 2 eexists. split; [vm_compute; reflexivity|]. unfold xcopies. vm_compute. tauto. }
  destruct E as (items & c & G & N). assert (Q : exists r, leads ["b"; "a"] "..\out\src\" = (r ++ leads (leads ["build"] "..") "out")%list).
  { apply (H no_macros (copied_directory "a/b/src") items [c] c "a/b/src" "out" ["build"] ["b"; "a"] "src" "..\out\src\"); [exact G|intros s _; reflexivity|apply climbs_way; right; intros d [<-|[]]; reflexivity|exact PP|left; reflexivity|reflexivity|exact N]. }
  destruct Q as (r & Q). apply (f_equal (@rev string)) in Q. rewrite rev_app_distr in Q. vm_compute in Q. discriminate Q.
Qed.
Print Assumptions C83_directory_place_refuted.
(** An action with no inputs is to be attached to the .gyp file, but for one in a
    subdirectory it is attached to a file that is not there, deps/deps/deps.gyp below. *)
Definition inputless : project :=
  {| prefix := "..\..\deps"; gyp_file := "deps.gyp"; build_file := "deps/deps.gyp"; standalone := false; list_excluded := true; toolset := "target";
     sources := ["a.cc"]; sources_excluded := []; actions := [act [] ["gen/t.h"] "gen"]; copies := []; rules := []; configurations := configurations sample |}.
Theorem C83_no_inputs_refuted : ~ forall macros p items customs a, generate macros p = inl (items, customs) -> macros_kept macros -> way (prefix p) -> plain_project p -> gyp_name (gyp_file p) -> In a (actions p) -> inputs a = [] ->
  exists c, In c customs /\ leads_to p (attached_to c) (gyp_file p).
Proof.
  intros H. assert (PP : plain_project inputless) by (repeat split; repeat (apply Forall_cons; [repeat split; repeat constructor|]); apply Forall_nil).
  assert (E : exists items c, generate no_macros inputless = inl (items, [c]) /\ attached_to c = "..\..\deps\deps\deps.gyp").
  { do 2 eexists. split; [vm_compute; reflexivity|vm_compute; reflexivity]. }
  destruct E as (items & c & G & N). destruct (H no_macros inputless items [c] (act [] ["gen/t.h"] "gen") G) as (c' & [<-|[]] & L).
  - intros s _; reflexivity.
  - exact workshop_way.
  - exact PP.
  - exists "deps"; split; [reflexivity|]; split; [reflexivity|]; split; [reflexivity|relative_path].
  - left. reflexivity.
  - reflexivity.
  - specialize (L ["build"; "top"]). rewrite N in L. vm_compute in L. discriminate L.
Qed.
Print Assumptions C83_no_inputs_refuted.
(** Two actions that begin with the same file in two spellings have a custom build each
    for it, not one for both as those that spell it alike have. *)
Theorem C83_spelling_refuted : ~ forall macros p items pre a mid b post, generate macros p = inl (items, (pre ++ a :: mid ++ b :: post)%list) -> macros_kept macros -> way (prefix p) -> plain_project p -> attached_to a <> attached_to b.
Proof.
  intros H. set (p := addon [] [] [act ["t.in"] ["t.h"] "gen"; act ["./t.in"] ["u.h"] "gen2"] [] []). assert (PP : plain_project p) by (repeat split; repeat (apply Forall_cons; [repeat split; repeat constructor|]); apply Forall_nil).
  assert (E : exists items a b, generate no_macros p = inl (items, [a; b]) /\ attached_to a = attached_to b).
  { do 3 eexists. split; [vm_compute; reflexivity|vm_compute; reflexivity]. }
  destruct E as (items & a & b & G & N). revert N. apply (H no_macros p items [] a [] b []); [exact G|intros s _; reflexivity|apply climbs_way; right; intros d [<-|[]]; reflexivity|exact PP].
Qed.
Print Assumptions C83_spelling_refuted.
