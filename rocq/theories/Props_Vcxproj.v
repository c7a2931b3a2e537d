(** C82: what a Visual Studio project compiles. *)
From Verif Require Import Lib Str Spec_Path Model_Vcxproj Spec_Vcxproj Proof_Vcxproj Proof_Vcxproj4 Proof_Vcxproj5.
Local Open Scope string_scope.

(** The project of an addon, below build as node-gyp has it. *)
Definition plain_config (n : string) : config := {| config_name := n; platform := "x64"; precompiled := [""; ""] |}.
Definition addon (srcs excl : list string) (acts : list action) (cps : list copy) (rs : list rule) : project :=
  {| prefix := ".."; gyp_file := "binding.gyp"; build_file := "binding.gyp"; standalone := false; list_excluded := true; toolset := "target";
     sources := srcs; sources_excluded := excl; actions := acts; copies := cps; rules := rs; configurations := [plain_config "Debug"; plain_config "Release"] |}.
Definition generator : action := {| inputs := ["gen.py"; "t.in"]; outputs := ["gen/t.cc"]; as_sources := true; message := "m"; line := "python gen.py" |}.
Definition sample : project :=
  addon ["src/a.cc"; "src/./b.C"; "../shared/c.cpp"; "src/a.h"; "res.rc"] ["src/mac.cc"] [generator] [ {| destination := "out"; files := ["x.dll"] |} ] [].
(** The same for a .gyp file in a subdirectory. *)
Definition sample_below : project :=
  {| prefix := "..\..\deps"; gyp_file := "deps.gyp"; build_file := "deps/deps.gyp"; standalone := false; list_excluded := true; toolset := "target";
     sources := sources sample; sources_excluded := sources_excluded sample; actions := actions sample; copies := copies sample; rules := []; configurations := configurations sample |}.
Definition no_macros (s : string) : string := s.

Ltac relative_path := apply relative_iff; split; [discriminate|]; split; [reflexivity|]; split; reflexivity.
Ltac not_taken := let i := fresh in let S := fresh in let T := fresh in let E := fresh in let H := fresh in
  intros (i & _ & S & T); assert (H : leads [] i <> leads [] i) by
    (intros _; specialize (S []); destruct T as [T|[(E & T)|(E & T)]]; [|destruct T as [[T|[]] U]; subst; destruct U as [U|[U _]]; [|discriminate U]|destruct T as [[T|[]] U]; subst];
     repeat (match goal with K : In _ _ |- _ => destruct K as [K|K]; [subst; vm_compute in S; discriminate S|] | K : In _ [] |- _ => destruct K end)); exact (H eq_refl).

(** C82.  Each C or C++ source of a target, and each one an action makes for it, is
    compiled: if no rule takes it, and it is not named in the target as excluded or as
    the input of an action or a copy, there is exactly one item for it in the project,
    in the group of files to compile, not excluded, and read by MSBuild as that very
    file. *)
Theorem C82_compiled : forall macros p items customs s, generate macros p = inl (items, customs) -> way (prefix p) -> Forall (fun r => rule_as_sources r = false) (rules p) ->
  configurations p <> [] -> gyp_name (gyp_file p) -> meant p s -> relative s -> literal s -> source_file s -> no_rule p s -> one_spelling p s -> ~ taken p s ->
  exists pre it post, items = (pre ++ it :: post)%list /\ element it = "ClCompile" /\ excluded it = false /\
    (exists f, reads (include it) = [f] /\ forall here, leads here f = leads (leads here (prefix p)) s) /\
    forall it', In it' (pre ++ post) -> relative (include it') -> ~ same_file (include it') (include it).
Proof. intros macros p items customs s G C R. exact (compiled macros p items customs G C R s). Qed.
Print Assumptions C82_compiled.
Example C82_compiled_witness : (exists items customs, generate no_macros sample_below = inl (items, customs)) /\ way (prefix sample_below) /\ Forall (fun r => rule_as_sources r = false) (rules sample_below) /\ configurations sample_below <> [] /\ gyp_name (gyp_file sample_below) /\
  meant sample_below "src/./b.C" /\ relative "src/./b.C" /\ literal "src/./b.C" /\ source_file "src/./b.C" /\ no_rule sample_below "src/./b.C" /\ one_spelling sample_below "src/./b.C" /\ ~ taken sample_below "src/./b.C".
Proof.
  split; [eexists; eexists; vm_compute; reflexivity|]. split.
  { right. split; [eexists; reflexivity|]. split; [intros [H|[H|[H|[]]]]; discriminate H|]. repeat split; repeat constructor. }
  split; [constructor|]. split; [discriminate|]. split; [exists "deps"; split; [reflexivity|]; split; [reflexivity|]; split; [reflexivity|relative_path]|]. split; [left; right; left; reflexivity|]. split; [relative_path|].
  split; [repeat split; repeat constructor|]. split.
  { exists ".C", ".c". split; [exists "src/./", "b", "C"; split; [reflexivity|]; split; [right; exists "src/."; left; reflexivity|]; split; [intros c [<-|[<-|[]]]; split; reflexivity|]; split; [reflexivity|]; split; [exists "b"%char; split; [discriminate|reflexivity]|reflexivity]|]. split; [|left; reflexivity].
    constructor; [constructor|]. constructor; [apply letter_upper; [reflexivity|vm_compute; split; discriminate]|constructor]. }
  split; [intros r e l []|]. split.
  - intros x X S. specialize (S []). destruct X as [->|[X|(a & [<-|[]] & _ & X)]]; [vm_compute in S; discriminate S| |]; repeat (destruct X as [<-|X]; [try (vm_compute in S; discriminate S); intros here; reflexivity|]); destruct X.
  - not_taken.
Qed.
(** ... where a source is named in one way only if no path leads down again into the
    directory of the .gyp file, as from the top directory none does. *)
Theorem C82_spelling : forall p s, climbs (prefix p) -> way (prefix p) /\ one_spelling p s.
Proof. intros p s C. split; [exact (climbs_way _ C)|exact (climbs_one p s C)]. Qed.
Print Assumptions C82_spelling.
Example C82_spelling_witness : climbs (prefix sample).
Proof. right; intros c [<-|[]]; reflexivity. Qed.
(** ... and of the sources of a macro-free project nothing else is compiled. *)
Theorem C82_only : forall macros p items customs it, generate macros p = inl (items, customs) -> way (prefix p) -> rules p = [] -> no_precompiled p -> gyp_name (gyp_file p) -> Forall (fun c => ~ In "" (files c)) (copies p) ->
  In it items -> element it = "ClCompile" -> excluded it = false -> relative (include it) ->
  exists s, meant p s /\ ~ taken p s /\ forall here, leads here (include it) = leads (leads here (prefix p)) s.
Proof. exact only. Qed.
Print Assumptions C82_only.
Example C82_only_witness : exists items customs it, generate no_macros sample_below = inl (items, customs) /\ way (prefix sample_below) /\ rules sample_below = [] /\ no_precompiled sample_below /\ gyp_name (gyp_file sample_below) /\ Forall (fun c => ~ In "" (files c)) (copies sample_below) /\
  In it items /\ element it = "ClCompile" /\ excluded it = false /\ relative (include it) /\ include it = "..\..\deps\gen\t.cc".
Proof.
  eexists. eexists. exists {| element := "ClCompile"; include := "..\..\deps\gen\t.cc"; excluded := false; object_name := Some "$(IntDir)\deps\gen\t.obj" |}.
  split; [vm_compute; reflexivity|]. split.
  { right. split; [eexists; reflexivity|]. split; [intros [H|[H|[H|[]]]]; discriminate H|]. repeat split; repeat constructor. }
  split; [reflexivity|]. split; [repeat constructor|]. split; [exists "deps"; split; [reflexivity|]; split; [reflexivity|]; split; [reflexivity|relative_path]|]. split; [constructor; [intros [H|[]]; discriminate H|constructor]|]. split; [vm_compute; tauto|]. split; [reflexivity|]. split; [reflexivity|]. split; [relative_path|reflexivity].
Qed.
(** Two files below the directory of the .gyp file that are compiled to one object are
    the same but for the extension. *)
Theorem C82_objects : forall macros p items customs a b o s t e e', generate macros p = inl (items, customs) -> way (prefix p) ->
  In a items -> In b items -> relative (include a) -> relative (include b) -> object_name a = Some o -> object_name b = Some o ->
  relative s -> below s -> has_extension s e -> (forall here, leads here (include a) = leads (leads here (prefix p)) s) ->
  relative t -> below t -> has_extension t e' -> (forall here, leads here (include b) = leads (leads here (prefix p)) t) ->
  exists stem, same_file s (stem ++ e) /\ same_file t (stem ++ e').
Proof. exact objects. Qed.
Print Assumptions C82_objects.
Definition twins : project := addon ["src/a.cc"; "src/a.c"; "b.cc"] [] [] [] [].
Example C82_objects_witness : exists items customs a b, generate no_macros twins = inl (items, customs) /\ In a items /\ In b items /\ a <> b /\ relative (include a) /\ relative (include b) /\
  object_name a = Some "$(IntDir)\src\a.obj" /\ object_name b = Some "$(IntDir)\src\a.obj" /\ relative "src/a.cc" /\ below "src/a.cc" /\ has_extension "src/a.cc" ".cc" /\ (forall here, leads here (include a) = leads (leads here "..") "src/a.cc").
Proof.
  eexists. eexists. exists {| element := "ClCompile"; include := "..\src\a.cc"; excluded := false; object_name := Some "$(IntDir)\src\a.obj" |}, {| element := "ClCompile"; include := "..\src\a.c"; excluded := false; object_name := Some "$(IntDir)\src\a.obj" |}.
  split; [vm_compute; reflexivity|]. split; [vm_compute; tauto|]. split; [vm_compute; tauto|]. split; [discriminate|]. split; [relative_path|]. split; [relative_path|]. split; [reflexivity|]. split; [reflexivity|]. split; [relative_path|]. split; [intros [H|[H|[]]]; discriminate|]. split; [|reflexivity].
  exists "src/", "a", "cc"; split; [reflexivity|]; split; [right; exists "src"; left; reflexivity|]; split; [intros c [<-|[<-|[]]]; split; reflexivity|]; split; [reflexivity|]; split; [exists "a"%char; split; [discriminate|reflexivity]|reflexivity].
Qed.
(** With no precompiled headers, the project of a .gyp file is always written if it is
    below another directory, as in node-gyp it is below build. *)
Theorem C82_written : forall macros p, way (prefix p) -> prefix p <> "" -> standalone p = false -> list_excluded p = true -> gyp_name (gyp_file p) -> no_precompiled p ->
  exists items customs, generate macros p = inl (items, customs).
Proof. exact written. Qed.
Print Assumptions C82_written.
Example C82_written_witness : way (prefix sample) /\ prefix sample <> "" /\ standalone sample = false /\ list_excluded sample = true /\ gyp_name (gyp_file sample) /\ no_precompiled sample.
Proof.
  split; [apply climbs_way; right; intros c [<-|[]]; reflexivity|]. split; [discriminate|]. split; [reflexivity|]. split; [reflexivity|]. split; [|repeat constructor]. exists "binding". split; [reflexivity|]. split; [reflexivity|]. split; [reflexivity|relative_path].
Qed.

(** A source of a .gyp file in a subdirectory that is listed twice, once by way of the
    directory above, is compiled twice. *)
Definition twice : project :=
  {| prefix := "..\..\deps"; gyp_file := "deps.gyp"; build_file := "deps/deps.gyp"; standalone := false; list_excluded := true; toolset := "target";
     sources := ["a.cc"; "../deps/a.cc"]; sources_excluded := []; actions := []; copies := []; rules := []; configurations := [plain_config "Debug"; plain_config "Release"] |}.
Theorem C82_twice_refuted : ~ forall macros p items customs pre a mid b post, generate macros p = inl (items, customs) -> way (prefix p) -> rules p = [] -> gyp_name (gyp_file p) ->
  items = (pre ++ a :: mid ++ b :: post)%list -> element a = "ClCompile" -> element b = "ClCompile" -> excluded a = false -> excluded b = false -> ~ same_file (include a) (include b).
Proof.
  intros H. eapply (H no_macros twice _ _ [_] _ [] _ _).
  - vm_compute; reflexivity.
  - right. split; [eexists; reflexivity|]. split; [intros [K|[K|[K|[]]]]; discriminate K|]. repeat split; repeat constructor.
  - reflexivity.
  - exists "deps"; split; [reflexivity|]; split; [reflexivity|]; split; [reflexivity|relative_path].
  - cbn [app]. reflexivity.
  - reflexivity.
  - reflexivity.
  - reflexivity.
  - reflexivity.
  - intros here. reflexivity.
Qed.
Print Assumptions C82_twice_refuted.

(** A source that is also an input of an action is not compiled on Windows, while make
    compiles it: it is put among the excluded files, and one that is the first input
    is an item of a custom build only. *)
Definition both : project := addon ["a.cc"; "b.cc"] [] [ {| inputs := ["b.cc"; "a.cc"]; outputs := ["report.txt"]; as_sources := false; message := "m"; line := "lint" |} ] [] [].
Theorem C82_input_refuted : ~ forall macros p items customs s, generate macros p = inl (items, customs) -> climbs (prefix p) -> rules p = [] -> configurations p <> [] -> gyp_name (gyp_file p) ->
  In s (sources p) -> ~ In s (sources_excluded p) -> relative s -> literal s -> source_file s ->
  exists it, In it items /\ element it = "ClCompile" /\ excluded it = false /\ forall here, leads here (include it) = leads (leads here (prefix p)) s.
Proof.
  intros H. destruct (H no_macros both _ _ "a.cc" ltac:(vm_compute; reflexivity)) as (it & I & E & X & L).
  - right; intros c [<-|[]]; reflexivity.
  - reflexivity.
  - discriminate.
  - exists "binding"; split; [reflexivity|]; split; [reflexivity|]; split; [reflexivity|relative_path].
  - left; reflexivity.
  - intros [].
  - relative_path.
  - repeat split; repeat constructor.
  - exists ".cc", ".cc". split; [exists "", "a", "cc"; split; [reflexivity|]; split; [left; reflexivity|]; split; [intros c [<-|[<-|[]]]; split; reflexivity|]; split; [reflexivity|]; split; [exists "a"%char; split; [discriminate|reflexivity]|reflexivity]|]. split; [repeat (constructor; [constructor|]); constructor|right; left; reflexivity].
  - repeat (destruct I as [I|I]; [subst it; try discriminate E; try discriminate X|]). destruct I.
Qed.
Print Assumptions C82_input_refuted.
(** The files that a rule makes to be compiled are looked for in the wrong place: the
    way up to the directory of the .gyp file is put before their names three times. *)
Definition grammar : rule := {| rule_name := "parser"; extension := "y"; has_action := true; rule_sources := ["p.y"]; rule_inputs := []; rule_outputs := ["gen/p.cc"]; rule_as_sources := true |}.
Definition ruled : project := addon ["p.y"; "a.cc"] [] [] [] [grammar].
Theorem C82_rule_outputs_refuted : ~ forall macros p items customs r o, generate macros p = inl (items, customs) -> climbs (prefix p) -> configurations p <> [] -> gyp_name (gyp_file p) ->
  In r (rules p) -> rule_as_sources r = true -> rule_sources r <> [] -> incl (rule_sources r) (sources p) -> In o (rule_outputs r) -> relative o -> literal o -> source_file o -> no_rule p o -> ~ taken p o ->
  exists it, In it items /\ element it = "ClCompile" /\ forall here, leads here (include it) = leads (leads here (prefix p)) o.
Proof.
  intros H. destruct (H no_macros ruled _ _ grammar "gen/p.cc" ltac:(vm_compute; reflexivity)) as (it & I & E & L).
  - right; intros c [<-|[]]; reflexivity.
  - discriminate.
  - exists "binding"; split; [reflexivity|]; split; [reflexivity|]; split; [reflexivity|relative_path].
  - left; reflexivity.
  - reflexivity.
  - discriminate.
  - intros x [<-|[]]. left. reflexivity.
  - left; reflexivity.
  - relative_path.
  - repeat split; repeat constructor.
  - exists ".cc", ".cc". split; [exists "gen/", "p", "cc"; split; [reflexivity|]; split; [right; exists "gen"; left; reflexivity|]; split; [intros c [<-|[<-|[]]]; split; reflexivity|]; split; [reflexivity|]; split; [exists "p"%char; split; [discriminate|reflexivity]|reflexivity]|]. split; [repeat (constructor; [constructor|]); constructor|right; left; reflexivity].
  - intros r e l [<-|[]] X W. cbn. assert (EE : e = ".cc") by (apply (extension_unique "gen/p.cc" e ".cc" X); exists "gen/", "p", "cc"; split; [reflexivity|]; split; [right; exists "gen"; left; reflexivity|]; split; [intros c [<-|[<-|[]]]; split; reflexivity|]; split; [reflexivity|]; split; [exists "p"%char; split; [discriminate|reflexivity]|reflexivity]). subst e.
    split; intros ->; repeat (match goal with K : same_word _ _ |- _ => inversion K; clear K; subst end).
  - intros (i & _ & _ & T). destruct T as [[]|[(a & [] & _)|(c & [] & _)]].
  - repeat (destruct I as [I|I]; [subst it; try discriminate E; specialize (L ["build"; "top"; "home"; "root"]); vm_compute in L; discriminate L|]). destruct I.
Qed.
Print Assumptions C82_rule_outputs_refuted.
(** Files of the same name in the directory above the .gyp file and in its own are
    compiled to one object. *)
Definition above : project := addon ["a.cc"; "../a.cc"] [] [] [] [].
Theorem C82_same_object_refuted : ~ forall macros p items customs a b o, generate macros p = inl (items, customs) -> climbs (prefix p) -> rules p = [] ->
  In a items -> In b items -> element a = "ClCompile" -> element b = "ClCompile" -> excluded a = false -> excluded b = false -> object_name a = Some o -> object_name b = Some o -> has_extension (include a) ".cc" -> has_extension (include b) ".cc" -> same_file (include a) (include b).
Proof.
  intros H. assert (S : same_file "..\a.cc" "..\..\a.cc").
  { apply (H no_macros above _ _ {| element := "ClCompile"; include := "..\a.cc"; excluded := false; object_name := Some "$(IntDir)\a.obj" |} {| element := "ClCompile"; include := "..\..\a.cc"; excluded := false; object_name := Some "$(IntDir)\a.obj" |} "$(IntDir)\a.obj" ltac:(vm_compute; reflexivity)); try reflexivity.
    - right; intros c [<-|[]]; reflexivity.
    - vm_compute; tauto.
    - vm_compute; tauto.
    - exists "..\", "a", "cc"; split; [reflexivity|]; split; [right; exists ".."; right; reflexivity|]; split; [intros c [<-|[<-|[]]]; split; reflexivity|]; split; [reflexivity|]; split; [exists "a"%char; split; [discriminate|reflexivity]|reflexivity].
    - exists "..\..\", "a", "cc"; split; [reflexivity|]; split; [right; exists "..\.."; right; reflexivity|]; split; [intros c [<-|[<-|[]]]; split; reflexivity|]; split; [reflexivity|]; split; [exists "a"%char; split; [discriminate|reflexivity]|reflexivity]. }
  specialize (S ["build"; "top"]). vm_compute in S. discriminate S.
Qed.
Print Assumptions C82_same_object_refuted.
(** If an excluded file is the precompiled source of one configuration and not of
    another, gyp stops with a TypeError: the configuration's condition is asked for
    with an argument too few. *)
Definition headers : project :=
  {| prefix := ".."; gyp_file := "binding.gyp"; build_file := "binding.gyp"; standalone := false; list_excluded := true; toolset := "target"; sources := ["a.cc"]; sources_excluded := ["pre.cc"]; actions := []; copies := []; rules := [];
     configurations := [plain_config "Debug"; {| config_name := "Release"; platform := "x64"; precompiled := ["pre.h"; "pre.cc"] |}] |}.
Theorem C82_precompiled_refuted : ~ forall macros p, climbs (prefix p) -> prefix p <> "" -> standalone p = false -> list_excluded p = true -> gyp_name (gyp_file p) -> exists items customs, generate macros p = inl (items, customs).
Proof.
  intros H. destruct (H no_macros headers) as (items & customs & E).
  - right; intros c [<-|[]]; reflexivity.
  - discriminate.
  - reflexivity.
  - reflexivity.
  - exists "binding"; split; [reflexivity|]; split; [reflexivity|]; split; [reflexivity|relative_path].
  - vm_compute in E. discriminate E.
Qed.
Print Assumptions C82_precompiled_refuted.
(** A file whose name has a percent sign and two hexadecimal digits in it is written as
    it is, and read as another. *)
Definition percent : project := addon ["a%41.cc"] [] [] [] [].
Theorem C82_escape_refuted : ~ forall macros p items customs it f, generate macros p = inl (items, customs) -> climbs (prefix p) -> rules p = [] -> no_precompiled p -> (forall s, In s (sources p) -> relative s) ->
  In it items -> element it = "ClCompile" -> In f (reads (include it)) -> exists s, In s (sources p) /\ forall here, leads here f = leads (leads here (prefix p)) s.
Proof.
  intros H. destruct (H no_macros percent _ _ {| element := "ClCompile"; include := "..\a%41.cc"; excluded := false; object_name := Some "$(IntDir)\a%41.obj" |} "..\aA.cc" ltac:(vm_compute; reflexivity)) as (s & I & L).
  - right; intros c [<-|[]]; reflexivity.
  - reflexivity.
  - repeat constructor.
  - intros s [<-|[]]. relative_path.
  - vm_compute; tauto.
  - reflexivity.
  - vm_compute; tauto.
  - destruct I as [<-|[]]. specialize (L []). vm_compute in L. discriminate L.
Qed.
Print Assumptions C82_escape_refuted.
(** A rule for files with an extension in capital letters never gets any: that of the
    file is compared in small letters, that of the rule as it is. *)
Definition capital : rule := {| rule_name := "parser"; extension := "Y"; has_action := true; rule_sources := ["p.Y"]; rule_inputs := []; rule_outputs := []; rule_as_sources := false |}.
Definition shouting : project := addon ["p.Y"; "a.cc"] [] [] [] [capital].
Theorem C82_rule_case_refuted : ~ forall macros p items customs r s, generate macros p = inl (items, customs) -> climbs (prefix p) -> rules p = [r] -> In s (rule_sources r) -> In s (sources p) -> has_extension s ("." ++ extension r) ->
  exists it, In it items /\ element it = rule_name r /\ forall here, leads here (include it) = leads (leads here (prefix p)) s.
Proof.
  intros H. destruct (H no_macros shouting _ _ capital "p.Y" ltac:(vm_compute; reflexivity)) as (it & I & E & L).
  - right; intros c [<-|[]]; reflexivity.
  - reflexivity.
  - left; reflexivity.
  - left; reflexivity.
  - exists "", "p", "Y"; split; [reflexivity|]; split; [left; reflexivity|]; split; [intros c [<-|[<-|[]]]; split; reflexivity|]; split; [reflexivity|]; split; [exists "p"%char; split; [discriminate|reflexivity]|reflexivity].
  - repeat (destruct I as [I|I]; [subst it; discriminate E|]). destruct I.
Qed.
Print Assumptions C82_rule_case_refuted.
