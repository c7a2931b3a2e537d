(** C105: which targets a target's dependencies stand for. *)
From Verif Require Import Lib LibFacts Str StrFacts Model_Graph Model_Names Model_Path Model_TargetDeps Spec_Names Spec_Path Spec_TargetDeps.
From Verif Require Import Proof_TargetDeps4.
Local Open Scope string_scope.

(** A dependency NAME is the target of that name in the same file and for the same toolset;
    FILE:NAME is that of the file that is there seen from the directory of the file it is
    written in; #TOOLSET is heeded if the generator knows more than one toolset. *)
Theorem C105_written : forall cwd multiple file own pf n s, place_ok cwd -> file <> "" -> pf <> "" -> no_colon n -> no_hash n -> plain_toolset s ->
  let meant := meant (plain_realpath cwd) multiple file own in
  meant n = (file, n, own) /\ meant (n ++ "#" ++ s) = (file, n, if multiple then s else own) /\
  exists f, locate cwd f = locate (locate cwd (dirname file)) pf /\ meant (pf ++ ":" ++ n) = (f, n, own) /\ meant (pf ++ ":" ++ n ++ "#" ++ s) = (f, n, if multiple then s else own).
Proof. exact written_means. Qed.
Print Assumptions C105_written.
(** Each list of each target becomes the list of targets it stands for, in the order in
    which they first appear, without those that are left out. *)
Theorem C105_dependencies : forall realpath multiple data targets r, loaded data targets -> resolve realpath multiple data targets = inl r ->
  Forall2 (fun x y => fst y = fst x /\ forall key, section key -> lists (snd y) key =
    match lists (snd x) key with None => None | Some _ => Some (firsts (filter (kept realpath multiple targets (fst x) (snd x) key) (stands_for realpath multiple data (fst x) (snd x) key))) end) targets r.
Proof. intros realpath multiple data targets r L R. exact (proj1 (outcome_all realpath multiple data targets L r R)). Qed.
Print Assumptions C105_dependencies.
(** Left out are the target itself, if it is to be, dependencies that are only linked with,
    if nothing is linked, and those that are excluded; nothing is there twice. *)
Theorem C105_kept : forall realpath multiple data targets, loaded data targets -> forall r t d', resolve realpath multiple data targets = inl r -> In (t, d') r ->
  exists d, In (t, d) targets /\ forall key, section key -> (lists d' key = None <-> lists d key = None) /\ forall l, lists d' key = Some l -> NoDup l /\
  forall x, In x l <-> In x (stands_for realpath multiple data t d key) /\ (prune_self d = true -> x <> t) /\ (kind d = Some "none" -> forall e, assoc x targets = Some e -> link_only e = false) /\ ~ In x (excluded realpath multiple t d key).
Proof. exact kept_all. Qed.
Print Assumptions C105_kept.
(** Loading fails just if some target's lists are refused. *)
Theorem C105_refused : forall realpath multiple data targets, loaded data targets ->
  (exists e, resolve realpath multiple data targets = inr e) <-> exists t d, In (t, d) targets /\ refused realpath multiple data targets t d.
Proof. exact refused_any. Qed.
Print Assumptions C105_refused.
(** If no dependency is excluded, whatever's settings are exported is a dependency. *)
Theorem C105_exported : forall realpath multiple data targets, loaded data targets -> forall r t d', resolve realpath multiple data targets = inl r -> In (t, d') r ->
  (forall d l, In (t, d) targets -> lists d "dependencies!" = Some l -> l = []) ->
  forall l x, lists d' "export_dependent_settings" = Some l -> In x l -> exists l', lists d' "dependencies" = Some l' /\ In x l'.
Proof. exact exported. Qed.
Print Assumptions C105_exported.

(** ** Samples *)
Definition named (l : list (string * list item)) (k : string) : option (list item) := assoc k l.
Definition plain (k : string) (ls : list (string * list item)) : target item := {| toolset := "target"; kind := Some k; prune_self := true; link_only := false; lists := named ls |}.
Definition files : build_data :=
  [("a/a.gyp", [{| ti_name := "app"; ti_toolset := "target"; ti_suppress := false |}; {| ti_name := "gen"; ti_toolset := "target"; ti_suppress := false |}]);
   ("b/b.gyp", [{| ti_name := "x"; ti_toolset := "target"; ti_suppress := false |}; {| ti_name := "y"; ti_toolset := "target"; ti_suppress := false |}; {| ti_name := "test"; ti_toolset := "target"; ti_suppress := true |}])].
Definition all (app : target item) : list (string * target item) :=
  [("a/a.gyp:app#target", app); ("a/a.gyp:gen#target", plain "none" []); ("b/b.gyp:x#target", {| toolset := "target"; kind := Some "static_library"; prune_self := true; link_only := true; lists := named [] |});
   ("b/b.gyp:y#target", plain "static_library" []); ("b/b.gyp:test#target", plain "executable" [])].
Definition here : string -> string := plain_realpath ["w"].
Lemma all_loaded : forall app, toolset app = "target" -> loaded files (all app).
Proof.
  intros app T. split.
  - intros f tis ti [E|[E|[]]] I; injection E as <- <-; repeat (destruct I as [<-|I]; [repeat split; try reflexivity; discriminate|]); destruct I.
  - intros t d [E|[E|[E|[E|[E|[]]]]]]; injection E as <- <-.
    + exists "a/a.gyp". eexists _, _. split; [left; reflexivity|]. split; [left; reflexivity|]. split; [reflexivity|exact T].
    + exists "a/a.gyp". eexists _, _. split; [left; reflexivity|]. split; [right; left; reflexivity|]. split; reflexivity.
    + exists "b/b.gyp". eexists _, _. split; [right; left; reflexivity|]. split; [left; reflexivity|]. split; reflexivity.
    + exists "b/b.gyp". eexists _, _. split; [right; left; reflexivity|]. split; [right; left; reflexivity|]. split; reflexivity.
    + exists "b/b.gyp". eexists _, _. split; [right; left; reflexivity|]. split; [right; right; left; reflexivity|]. split; reflexivity.
Qed.
(** What the first target's lists become, if nothing fails. *)
Definition first_list (x : list (string * target string) + problem) (key : string) : option (list string) := match x with inl ((_, d) :: _) => lists d key | _ => None end.
Definition app_lists : list (string * list item) :=
  [("dependencies", [Word "app"; Word "gen"; Word "../b/b.gyp:*"; Word "../b/b.gyp:y"; Word "../a/a.gyp:gen"; Word "../b/b.gyp:test"]); ("dependencies!", [Word "../b/b.gyp:test#target"]); ("export_dependent_settings", [Word "../b/../b/b.gyp:*"])].
Example C105_witness : loaded files (all (plain "executable" app_lists)) /\
  (exists r, resolve here true files (all (plain "executable" app_lists)) = inl r) /\
  first_list (resolve here true files (all (plain "executable" app_lists))) "dependencies" = Some ["a/a.gyp:gen#target"; "b/b.gyp:x#target"; "b/b.gyp:y#target"] /\
  first_list (resolve here true files (all (plain "executable" app_lists))) "export_dependent_settings" = Some ["b/b.gyp:x#target"; "b/b.gyp:y#target"] /\
  first_list (resolve here true files (all (plain "none" app_lists))) "dependencies" = Some ["a/a.gyp:gen#target"; "b/b.gyp:y#target"].
Proof. split; [apply all_loaded; reflexivity|]. split; [eexists; vm_compute; reflexivity|]. split; [|split]; vm_compute; reflexivity. Qed.
Example C105_refused_witness : refused here true files (all (plain "executable" [("dependencies", [Word "*"])])) "a/a.gyp:app#target" (plain "executable" [("dependencies", [Word "*"])]).
Proof. apply (wild _ _ _ _ _ _ "dependencies" [Word "*"] "*" "a/a.gyp" "*" "target"); [left; reflexivity|reflexivity|left; reflexivity|reflexivity|left; reflexivity|left; reflexivity]. Qed.

(** ** Findings *)
(** Dependencies cannot be filtered by regular expressions ("dependencies/"): an item of
    such a list is a list of an action and a pattern, but QualifyDependencies parses every
    item of it as the name of a target (input.py:1479-1491), which fails with an
    AttributeError as a list has no rsplit (common.py:63); if it were a name, it would be
    no such list when it is used (input.py:2601-2604). *)
Theorem C105_regex_refuted : forall realpath multiple data targets t d l l', loaded data targets -> In (t, d) targets -> lists d "dependencies" = Some l -> lists d "dependencies/" = Some l' -> l' <> [] ->
  exists e, resolve realpath multiple data targets = inr e.
Proof. intros realpath multiple data targets t d l l' LD I L L' N. apply (C105_refused realpath multiple data targets LD). exists t, d. split; [exact I|]. exact (regex _ _ _ _ _ _ "dependencies" l l' (or_introl eq_refl) L L' N). Qed.
Print Assumptions C105_regex_refuted.
(** All targets of a file but one cannot be had: to exclude a target that only a wildcard
    stands for is refused as it is not in the dependencies (input.py:1500-1513), which are
    expanded only later; and to exclude the wildcard excludes nothing, as excluded names are
    not expanded (input.py:1535). *)
Theorem C105_exclude_wildcard_refuted : forall app1 app2, app1 = plain "executable" [("dependencies", [Word "../b/b.gyp:*"]); ("dependencies!", [Word "../b/b.gyp:x"])] -> app2 = plain "executable" [("dependencies", [Word "../b/b.gyp:*"]); ("dependencies!", [Word "../b/b.gyp:*"])] ->
  loaded files (all app1) /\ loaded files (all app2) /\ resolve here true files (all app1) = inr (NotDependency "b/b.gyp:x#target" "dependencies!" "a/a.gyp:app#target") /\
  first_list (resolve here true files (all app2)) "dependencies" = Some ["b/b.gyp:x#target"; "b/b.gyp:y#target"].
Proof. intros app1 app2 -> ->. split; [apply all_loaded; reflexivity|]. split; [apply all_loaded; reflexivity|]. split; vm_compute; reflexivity. Qed.
Print Assumptions C105_exclude_wildcard_refuted.
(** The settings of an excluded dependency are still exported: that they are those of a
    dependency is looked at before dependencies are excluded (input.py:1500-1513, 3009-3022). *)
Theorem C105_excluded_exported_refuted : exists app, loaded files (all app) /\ first_list (resolve here true files (all app)) "export_dependent_settings" = Some ["b/b.gyp:x#target"] /\ first_list (resolve here true files (all app)) "dependencies" = Some [].
Proof. exists (plain "executable" [("dependencies", [Word "../b/b.gyp:x"]); ("dependencies!", [Word "../b/b.gyp:x"]); ("export_dependent_settings", [Word "../b/b.gyp:x"])]). split; [apply all_loaded; reflexivity|]. split; vm_compute; reflexivity. Qed.
Print Assumptions C105_excluded_exported_refuted.
(** An excluded dependency need not exist, but must if the target is of type none: there
    dependencies are looked up before any is excluded, and a missing one is a bare KeyError
    (input.py:1645-1649). *)
Theorem C105_excluded_none_refuted : exists ls, loaded files (all (plain "executable" ls)) /\ loaded files (all (plain "none" ls)) /\ first_list (resolve here true files (all (plain "executable" ls))) "dependencies" = Some [] /\
  resolve here true files (all (plain "none" ls)) = inr (Missing "b/b.gyp:gone#target").
Proof. exists [("dependencies", [Word "../b/b.gyp:gone"]); ("dependencies!", [Word "../b/b.gyp:gone"])]. split; [apply all_loaded; reflexivity|]. split; [apply all_loaded; reflexivity|]. split; vm_compute; reflexivity. Qed.
Print Assumptions C105_excluded_none_refuted.
