From Verif Require Import Lib LibFacts Str StrFacts Model_Names Model_Path Model_Graph Model_Release Model_Quote Model_Writer Model_Remake Model_Suffix Spec_Path Spec_Remake Spec_Suffix Proof_Graph Proof_Suffix Proof_Release3 Proof_Writer Proof_Writer3.
Local Open Scope string_scope.

Definition mixed (file name dir : string) (srcs : list string) : target := {| qualified := file ++ ":" ++ name ++ "#target"; target_name := name; type := Executable; toolset := "target"; path := dir; dependencies := []; sources := srcs;
  actions := []; rules := []; copies := []; product_prefix := None; product_name := None; product_extension := None; product_dir := None; standalone := false |}.
Definition addon : target := mixed "binding.gyp" "addon" "" ["src/a.c"; "src/b.cc"; "$(obj)/gen/c.cpp"; "$(obj).$(TOOLSET)/$(TARGET)/geni/d.s"].
Definition tool_target : target := mixed "deps/tool.gyp" "tool" "deps" ["../src/a.c"].
Definition listed_extensions (t : target) : list string := unify (used_extensions t).
Definition on_disk (l : list string) (f : string) : bool := existsb (String.eqb f) l.
Lemma one_toolset : forall ts, ts <> [] -> Forall (fun t => toolset t = "target") ts -> forall w, In w ["target"] <-> exists u, In u ts /\ toolset u = w.
Proof.
  intros ts N F w. split.
  - intros [<-|[]]. destruct ts as [|t ts]; [congruence|]. exists t. split; [left; reflexivity|]. inversion F. assumption.
  - intros (u & U & <-). rewrite Forall_forall in F. rewrite (F u U). left. reflexivity.
Qed.
Lemma listed_ok : forall ts u, In u ts -> forall e, In e (listed_extensions u) <-> In e (used_extensions u).
Proof. intros ts u _ e. apply unify_in. Qed.
Definition fit_list (ts : list target) (x : string) : list string :=
  flat_map (fun u => flat_map (fun g => match after_prefix g x with Some r => match before_o r with Some s =>
    flat_map (fun d => map (fun e => d ++ s ++ fst e) languages) ["$(srcdir)/"; "$(obj)." ++ toolset u ++ "/"; "$(obj)/"] | None => [] end | None => [] end)
    ["$(obj)." ++ toolset u ++ "/"; "$(obj)." ++ toolset u ++ "/" ++ target_name u ++ "/"]) ts.
Lemma fits_listed : forall ts x k, fits ts x k -> In k (fit_list ts x).
Proof.
  intros ts x k (u & s & d & e & c & U & X & D & L & ->). apply in_flat_map. exists u. split; [exact U|].
  assert (G : exists g, In g ["$(obj)." ++ toolset u ++ "/"; "$(obj)." ++ toolset u ++ "/" ++ target_name u ++ "/"] /\ x = g ++ s ++ ".o").
  { destruct X as [-> | ->]; [exists ("$(obj)." ++ toolset u ++ "/")|exists ("$(obj)." ++ toolset u ++ "/" ++ target_name u ++ "/")]; (split; [cbn [In]; auto|rewrite !append_assoc; reflexivity]). }
  destruct G as (g & G & ->). apply in_flat_map. exists g. split; [exact G|].
  assert (A : after_prefix g (g ++ s ++ ".o") = Some (s ++ ".o")) by (apply after_prefix_Some; reflexivity). assert (B : before_o (s ++ ".o") = Some s) by (apply before_o_iff; reflexivity). rewrite A, B.
  apply in_flat_map. exists d. split; [destruct D as [-> | [-> | ->]]; cbn; auto|]. apply in_map_iff. exists (e, c). auto.
Qed.
Lemma disk_only : forall l ts x f, forallb (fun k => negb (on_disk (fit_list ts x) k) || String.eqb k f) l = true -> forall k, on_disk l k = true -> fits ts x k -> k = f.
Proof.
  intros l ts x f H k D F. unfold on_disk in D. apply existsb_exists in D. destruct D as (k' & D & E). apply String.eqb_eq in E. subst k'. rewrite forallb_forall in H. specialize (H k D).
  apply orb_true_iff in H. destruct H as [H|H]; [|apply String.eqb_eq, H]. apply negb_true_iff in H. apply fits_listed in F.
  assert (T : on_disk (fit_list ts x) k = true) by (unfold on_disk; apply existsb_exists; exists k; split; [exact F|apply String.eqb_refl]). congruence.
Qed.
Definition ts2 : list target := [addon; tool_target].
Definition disk : list string := ["$(srcdir)/src/a.c"; "$(srcdir)/src/a.h"; "$(srcdir)/src/b.cc"; "$(obj)/gen/c.cpp"; "$(obj).target/addon/geni/d.s"; "$(srcdir)/c.cpp"; "$(obj).target/addon/src/a.o"].
Lemma plain_char : forall n c b, n = String c b -> has_char "/" n = false -> has_char "$" n = false -> c <> "."%char -> plain_name n.
Proof. intros n c b -> A B N. split; [exact A|]. split; [exact B|]. exists "", c, b. auto. Qed.
Lemma plain_addon : plain_names addon.
Proof. repeat split; discriminate || reflexivity. Qed.
Lemma plain_tool : plain_names tool_target.
Proof. repeat split; discriminate || reflexivity. Qed.
Lemma source_a : plain_source "src/a.c" ".c" "cc".
Proof. split; [cbn; auto|]. exists "src/", "a". split; [split; [reflexivity|right; exists "src"; reflexivity]|]. split; [apply (plain_char "a" "a" ""); reflexivity || discriminate|]. left. split; [discriminate|reflexivity]. Qed.
Lemma source_c : plain_source "$(obj)/gen/c.cpp" ".cpp" "cxx".
Proof. split; [cbn; auto|]. exists "gen/", "c". split; [split; [reflexivity|right; exists "gen"; reflexivity]|]. split; [apply (plain_char "c" "c" ""); reflexivity || discriminate|]. right. left. reflexivity. Qed.
Lemma source_d : plain_source "$(obj).$(TOOLSET)/$(TARGET)/geni/d.s" ".s" "cc".
Proof. split; [cbn; auto 10|]. exists "geni/", "d". split; [split; [reflexivity|right; exists "geni"; reflexivity]|]. split; [apply (plain_char "d" "d" ""); reflexivity || discriminate|]. right. right. reflexivity. Qed.
Lemma source_up : plain_source "../src/a.c" ".c" "cc".
Proof. split; [cbn; auto|]. exists "../src/", "a". split; [split; [reflexivity|right; exists "../src"; reflexivity]|]. split; [apply (plain_char "a" "a" ""); reflexivity || discriminate|]. left. split; [discriminate|reflexivity]. Qed.
Lemma toolsets_ok : forall w, In w ["target"] <-> exists u, In u ts2 /\ toolset u = w.
Proof. apply one_toolset; [discriminate|repeat constructor]. Qed.

(** ** What goes wrong *)
Definition hidden : target := mixed "binding.gyp" "addon" "" ["a.c"; "b.cc"].
Lemma hidden_twin : ~ (forall toolsets ts order available t s e c f,
  (forall w, In w toolsets <-> exists u, In u ts /\ toolset u = w) -> (forall u, In u ts -> forall e, In e (order u) <-> In e (used_extensions u)) ->
  In t ts -> plain_names t -> plain_source s e c -> source_of t s -> source_at t s f c -> available f = true -> chosen available (patterns toolsets ts order) (object_of t s) = Some (f, c)).
Proof.
  intros H. specialize (H ["target"] [hidden] (fun _ => [".cc"; ".c"]) (on_disk ["$(srcdir)/a.c"; "$(srcdir)/a.cc"; "$(srcdir)/b.cc"]) hidden "a.c" ".c" "cc" "$(srcdir)/a.c").
  assert (N : plain_name "a") by (apply (plain_char "a" "a" ""); reflexivity || discriminate).
  assert (E : chosen (on_disk ["$(srcdir)/a.c"; "$(srcdir)/a.cc"; "$(srcdir)/b.cc"]) (patterns ["target"] [hidden] (fun _ => [".cc"; ".c"])) (object_of hidden "a.c") = Some ("$(srcdir)/a.cc", "cxx")) by (vm_compute; reflexivity).
  rewrite E in H. enough (Some ("$(srcdir)/a.cc", "cxx") = Some ("$(srcdir)/a.c", "cc")) by discriminate. apply H.
  - apply one_toolset; [discriminate|repeat constructor].
  - intros u [<-|[]] e. vm_compute. tauto.
  - left. reflexivity.
  - repeat split; discriminate || reflexivity.
  - split; [cbn; auto|]. exists "", "a". split; [split; [reflexivity|left; reflexivity]|]. split; [exact N|]. left. split; [discriminate|reflexivity].
  - apply own_source. left. reflexivity.
  - apply (in_tree hidden "" "a" ".c" "cc" "a.c"); [split; [reflexivity|left; reflexivity]|discriminate|exact N|cbn; auto|discriminate|reflexivity].
  - reflexivity.
Qed.
Lemma no_rule : forall t s f, toolset t = "target" -> plain_names t -> In s (sources t) -> (exists b e c, s = b ++ e /\ In (e, c) languages) -> input t s = f -> chosen (on_disk [f]) (patterns ["target"] [t] listed_extensions) (object_of t s) = None ->
  ~ (forall toolsets ts order available t s, (forall w, In w toolsets <-> exists u, In u ts /\ toolset u = w) -> (forall u, In u ts -> forall e, In e (order u) <-> In e (used_extensions u)) ->
       In t ts -> plain_names t -> source_of t s -> (exists b e c, s = b ++ e /\ In (e, c) languages) -> available (input t s) = true -> chosen available (patterns toolsets ts order) (object_of t s) <> None).
Proof.
  intros t s f T P I L E N H. apply (H ["target"] [t] listed_extensions (on_disk [f]) t s); [apply one_toolset; [discriminate|repeat constructor; exact T]|apply listed_ok|left; reflexivity|exact P|apply own_source, I|exact L| |exact N].
  rewrite E. unfold on_disk. cbn. rewrite String.eqb_refl. reflexivity.
Qed.
Definition far_away : target := mixed "binding.gyp" "addon" "" ["/usr/src/a.c"].
Definition in_product : target := mixed "binding.gyp" "addon" "" ["$(builddir)/gen/a.c"].
Lemma twin_objects : ~ (forall t t' s s' e c e' c', plain_names t -> plain_names t' -> plain_source s e c -> plain_source s' e' c' -> qualified t <> qualified t' -> object_of t s <> object_of t' s').
Proof.
  intros H. apply (H (mixed "a/a.gyp" "lib" "a" ["../src/a.c"]) (mixed "b/b.gyp" "lib" "b" ["../src/a.c"]) "../src/a.c" "../src/a.c" ".c" "cc" ".c" "cc").
  1, 2: repeat split; discriminate || reflexivity. 1, 2: exact source_up. - discriminate. - vm_compute. reflexivity.
Qed.
Lemma same_base : ~ (forall t s s' e c e' c', plain_names t -> plain_source s e c -> plain_source s' e' c' -> s <> s' -> object_of t s <> object_of t s').
Proof.
  intros H. apply (H addon "src/a.c" "src/a.cc" ".c" "cc" ".cc" "cxx"); [exact plain_addon|exact source_a| |discriminate|vm_compute; reflexivity].
  split; [cbn; auto|]. exists "src/", "a". split; [split; [reflexivity|right; exists "src"; reflexivity]|]. split; [apply (plain_char "a" "a" ""); reflexivity || discriminate|]. left. split; [discriminate|reflexivity].
Qed.
Lemma generated_twin : ~ (forall t s s' e c e' c' f f' k, plain_names t -> plain_source s e c -> plain_source s' e' c' -> source_at t s (f ++ e) k -> source_at t s' (f' ++ e') k -> f <> f' -> object_of t s <> object_of t s').
Proof.
  intros H. apply (H addon "gen/c.cpp" "$(obj)/gen/c.cpp" ".cpp" "cxx" ".cpp" "cxx" "$(srcdir)/gen/c" "$(obj)/gen/c" "cxx"); [exact plain_addon| |exact source_c| | |discriminate|vm_compute; reflexivity].
  - split; [cbn; auto|]. exists "gen/", "c". split; [split; [reflexivity|right; exists "gen"; reflexivity]|]. split; [apply (plain_char "c" "c" ""); reflexivity || discriminate|]. left. split; [discriminate|reflexivity].
  - apply (in_tree addon "gen/" "c" ".cpp" "cxx" "gen/c.cpp"); [split; [reflexivity|right; exists "gen"; reflexivity]|discriminate|apply (plain_char "c" "c" ""); reflexivity || discriminate|cbn; auto|discriminate|reflexivity].
  - apply (shared addon "gen/" "c" ".cpp" "cxx"); [split; [reflexivity|right; exists "gen"; reflexivity]|apply (plain_char "c" "c" ""); reflexivity || discriminate|cbn; auto].
Qed.
Definition prebuilt : target := mixed "sub/sub.gyp" "addon" "sub" ["a.c"; "blob.o"].
Lemma objects_elsewhere : ~ (forall sha1 needed ts rs t s, NoDup (map qualified ts) -> makefile sha1 needed ts = Some rs -> In t ts -> type t = Executable -> In s (sources t) -> linkable s = true -> feeds rs (binary t) (input t s)).
Proof.
  intros H. assert (M : exists rs, makefile id_sha everything [prebuilt] = Some rs /\ ~ In (input prebuilt "blob.o") (flat_map needs rs)).
  { eexists. split; [vm_compute; reflexivity|]. vm_compute. intuition discriminate. }
  destruct M as (rs & M & N). specialize (H id_sha everything [prebuilt] rs prebuilt "blob.o"). apply N.
  assert (F : feeds rs (binary prebuilt) (input prebuilt "blob.o")).
  { apply H; [repeat constructor; intros []|exact M|left; reflexivity|reflexivity|right; left; reflexivity|reflexivity]. }
  destruct F as (r & R & _ & F). apply in_flat_map. exists r. auto.
Qed.
