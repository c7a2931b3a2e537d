(** Proofs about flags on macOS: from the settings of targets to the commands. *)
From Verif Require Import Lib Str StrFacts LibFacts Model_Path Model_Memo Spec_Quote Model_Quote Proof_Quote Model_Writer Proof_Suffix Proof_Parts Model_Flags Spec_Flags Proof_Flags Proof_Flags2 Proof_Flags3 Proof_Flags4 Proof_Flags5 Proof_Flags6 Proof_Flags7.
From Verif Require Import Model_FlagsMac Spec_FlagsMac Proof_FlagsMac Proof_FlagsMac2 Proof_FlagsMac3.
From Verif Require Model_Xcode Spec_Xcode Proof_Xcode Proof_Xcode2 Proof_Xcode4.
Local Open Scope string_scope.

Lemma map_some_in : forall A B (f : A -> option B) l r y, map_some f l = Some r -> In y r -> exists x, In x l /\ f x = Some y.
Proof.
  intros A B f. induction l as [|a l IH]; intros r y E I; cbn [map_some] in E; [injection E as <-; destruct I|].
  destruct (f a) as [b|] eqn:Ea; [|discriminate]. destruct (map_some f l) as [r'|] eqn:El; [|discriminate]. injection E as <-. destruct I as [<-|I].
  - exists a. split; [left; reflexivity|exact Ea].
  - destruct (IH r' y eq_refl I) as (x & I' & Ex). exists x. split; [right; exact I'|exact Ex].
Qed.
Lemma map_some_cut : forall A B (f : A -> option B) a x b r, map_some f (a ++ x :: b)%list = Some r -> exists ra y rb, r = (ra ++ y :: rb)%list /\ f x = Some y /\ map_some f b = Some rb.
Proof.
  intros A B f. induction a as [|z a IH]; intros x b r E; cbn [app map_some] in E.
  - destruct (f x) as [y|] eqn:Ex; [|discriminate]. destruct (map_some f b) as [rb|] eqn:Eb; [|discriminate]. injection E as <-. exists [], y, rb. auto.
  - destruct (f z) as [w|]; [|discriminate]. destruct (map_some f (a ++ x :: b)%list) as [r'|] eqn:Er; [|discriminate]. injection E as <-. destruct (IH x b r' Er) as (ra & y & rb & -> & Ex & Eb). exists (w :: ra), y, rb. auto.
Qed.
Lemma map_some_assoc : forall (f : settings -> option config) l r, map_some (fun nc : string * settings => match f (snd nc) with Some c => Some (fst nc, c) | None => None end) l = Some r ->
  map fst r = map fst l /\ forall b s, assoc b l = Some s -> exists c, f s = Some c /\ assoc b r = Some c.
Proof.
  intros f. induction l as [|[n s] l IH]; intros r E; cbn [map_some fst snd] in E.
  - injection E as <-. split; [reflexivity|discriminate].
  - destruct (f s) as [c|] eqn:Ef; [|discriminate]. destruct (map_some _ l) as [r'|] eqn:El; [|discriminate]. injection E as <-. destruct (IH r' eq_refl) as [M H]. split; [cbn [map fst]; rewrite M; reflexivity|].
    intros b s' A. cbn [assoc] in A |- *. destruct (String.eqb b n); [injection A as <-; exists c; auto|exact (H b s' A)].
Qed.

Lemma project_at : forall m before p after ls, all_lines m (before ++ p :: after)%list = Some ls ->
  exists bs t rest, ls = lines_of (bs ++ t :: rest) /\ prepare m p = Some t /\ forall u, In u rest -> exists q, In q after /\ prepare m q = Some u.
Proof.
  intros m before p after ls E. unfold all_lines in E. destruct (map_some (prepare m) (before ++ p :: after)%list) as [ts|] eqn:M; [|discriminate]. injection E as <-.
  destruct (map_some_cut _ _ _ _ _ _ _ M) as (bs & t & rest & -> & P & R). exists bs, t, rest. split; [reflexivity|]. split; [exact P|]. intros u I. exact (map_some_in _ _ _ _ _ _ R I).
Qed.
Lemma prepared : forall m p t, prepare m p = Some t -> target_of t = project_target p /\ output_binary p = Some (binary_of t) /\ map fst (configs t) = map fst (settings_of p) /\
  (forall b s, assoc b (settings_of p) = Some s -> exists c, prepare_config m p s = Some c /\ assoc b (configs t) = Some c) /\
  (type (project_target p) <> None_ -> Model_Xcode.adjust_libraries m (spec_of p) (uniquer string string string_dec (fun x => x) (project_libraries p)) = Some (libraries t)).
Proof.
  intros m p t E. unfold prepare in E. destruct (output_binary p) as [b|]; [|discriminate]. destruct (map_some _ (settings_of p)) as [cs|] eqn:M; [|discriminate].
  destruct (match type (project_target p) with None_ => Some [] | _ => _ end) as [libs|] eqn:L; [|discriminate]. injection E as <-. cbn [target_of binary_of configs libraries].
  destruct (map_some_assoc (prepare_config m p) _ _ M) as [K H]. split; [reflexivity|]. split; [reflexivity|]. split; [exact K|]. split; [exact H|].
  intros N. destruct (type (project_target p)); try exact L. contradiction.
Qed.
Lemma apart_after : forall m f after rest, (forall q, In q after -> ~ In f (objects (project_target q)) /\ (type (project_target q) = None_ \/ output_binary q <> Some f)) ->
  (forall u, In u rest -> exists q, In q after /\ prepare m q = Some u) -> forall u, In u rest -> ~ In f (objects (target_of u)) /\ (type (target_of u) = None_ \/ f <> binary_of u).
Proof.
  intros m f after rest H R u I. destruct (R u I) as (q & Iq & P). destruct (prepared m q u P) as (-> & O & _). destruct (H q Iq) as [A B]. split; [exact A|]. destruct B as [B|B]; [left; exact B|right]. intros ->. apply B. exact O.
Qed.
Lemma config_parts : forall m p s c, prepare_config m p s = Some c ->
  defines c = own_defines s /\ include_dirs c = own_include_dirs s /\ library_dirs c = own_library_dirs s /\
  cflags_c c = Model_Xcode.get_cflags_c m (xcode_config s) /\ cflags_cc c = Model_Xcode.get_cflags_cc m (xcode_config s) /\ cflags_objc c = Model_Xcode.get_cflags_objc (xcode_config s) /\ cflags_objcc c = Model_Xcode.get_cflags_objcc (xcode_config s) /\
  libtoolflags c = Model_Xcode.get_libtoolflags (xcode_config s) /\
  (all_sources (project_target p) <> [] -> Model_Xcode.get_cflags m (xcode_config s) = Some (cflags c)) /\
  (type (project_target p) <> None_ -> Model_Xcode.get_ldflags m (spec_of p) (xcode_config s) "$(builddir)" (fun f => sourceify (absolutify (project_target p) f)) = Some (ldflags c)).
Proof.
  intros m p s c E. unfold prepare_config in E. destruct (match all_sources (project_target p) with [] => Some [] | _ => _ end) as [fl|] eqn:F; [|discriminate].
  destruct (match type (project_target p) with None_ => Some [] | _ => _ end) as [ld|] eqn:L; [|discriminate]. injection E as <-. cbn [defines include_dirs library_dirs cflags_c cflags_cc cflags_objc cflags_objcc libtoolflags cflags ldflags].
  repeat (split; [reflexivity|]). split.
  - intros N. destruct (all_sources (project_target p)); [contradiction|exact F].
  - intros N. destruct (type (project_target p)); try exact L. contradiction.
Qed.

Theorem compiled_mac : forall m vars before p after ls b s flags fc fcc fo foo wf wc wcc wo woo incs f out src dep depw ts,
  all_lines m (before ++ p :: after)%list = Some ls -> lookup_in vars "BUILDTYPE" = Some b -> assoc b (settings_of p) = Some s -> set_apart b (map fst (settings_of p)) ->
  ts = toolset (project_target p) -> In ts ["target"; "host"] ->
  Spec_Xcode.proper (Model_Xcode.xcode (xcode_config s)) -> Spec_Xcode.plain_dirs (xcode_config s) ->
  Forall plain_define (own_defines s) -> Forall2 (include_at (lookup_in vars) (project_target p)) (own_include_dirs s) incs ->
  Spec_Xcode.compile_words m (xcode_config s) flags -> all_give (lookup_in vars) flags wf ->
  Spec_Xcode.c_words (Model_Xcode.xcode (xcode_config s)) fc -> all_give (lookup_in vars) fc wc ->
  Spec_Xcode.cxx_words (Model_Xcode.xcode (xcode_config s)) fcc -> all_give (lookup_in vars) fcc wcc ->
  Spec_Xcode.switched (Model_Xcode.xcode (xcode_config s)) Spec_Xcode.objc_switches fo -> all_give (lookup_in vars) fo wo ->
  Spec_Xcode.switched (Model_Xcode.xcode (xcode_config s)) (Spec_Xcode.objc_switches ++ Spec_Xcode.objcc_switches) foo -> all_give (lookup_in vars) foo woo ->
  In f (objects (project_target p)) -> (forall q, In q after -> ~ In f (objects (project_target q)) /\ (type (project_target q) = None_ \/ output_binary q <> Some f)) ->
  safe out -> safe src -> sh_arguments dep = Some depw ->
  let common := (map (append "-D") (own_defines s) ++ map (append "-I") incs ++ wf)%list in
  let run := command_words (read_lines (vars, []) ls) f [("@", out); ("<", src); ("DEPFLAGS", dep)] in
  (forall cc ccw ex exw, lookup_in vars ("CC." ++ ts) = Some cc -> sh_arguments cc = Some ccw -> lookup_in vars ("CFLAGS." ++ ts) = Some ex -> sh_arguments ex = Some exw ->
    run cmd_cc = Some (ccw ++ map literal (["-o"; out; src] ++ common ++ wc) ++ depw ++ exw ++ [literal "-c"])%list) /\
  (forall cc ccw ex exw, lookup_in vars ("CXX." ++ ts) = Some cc -> sh_arguments cc = Some ccw -> lookup_in vars ("CXXFLAGS." ++ ts) = Some ex -> sh_arguments ex = Some exw ->
    run cmd_cxx = Some (ccw ++ map literal (["-o"; out; src] ++ common ++ wcc) ++ depw ++ exw ++ [literal "-c"])%list) /\
  (forall cc ccw, lookup_in vars ("CC." ++ ts) = Some cc -> sh_arguments cc = Some ccw -> run cmd_objc = Some (ccw ++ map literal (common ++ wc ++ wo) ++ depw ++ map literal ["-c"; "-o"; out; src])%list) /\
  (forall cc ccw, lookup_in vars ("CXX." ++ ts) = Some cc -> sh_arguments cc = Some ccw -> run cmd_objcxx = Some (ccw ++ map literal (common ++ wcc ++ woo) ++ depw ++ map literal ["-c"; "-o"; out; src])%list).
Proof.
  intros m vars before p after ls b s flags fc fcc fo foo wf wc wcc wo woo incs f out src dep depw ts E Hb Hs Ha -> Ht P PD Hd Hi F1 G1 F2 G2 F3 G3 F4 G4 F5 G5 Hf Hafter So Ss Wd. cbv zeta.
  destruct (project_at m before p after ls E) as (bs & t & rest & -> & Pt & R). destruct (prepared m p t Pt) as (Et & _ & K & H & _). destruct (H b s Hs) as (c & Ec & Ac).
  destruct (config_parts m p s c Ec) as (D1 & D2 & _ & D4 & D5 & D6 & D7 & _ & D9 & _).
  assert (Ns : all_sources (project_target p) <> []) by (intros X; unfold objects, compiled in Hf; rewrite X in Hf; destruct Hf).
  pose proof (proj2 (Proof_Xcode2.compile_iff m (xcode_config s) flags P PD) F1) as X1. rewrite (D9 Ns) in X1. injection X1 as <-.
  apply (proj2 (Proof_Xcode2.c_iff m (xcode_config s) fc P)) in F2. apply (proj2 (Proof_Xcode2.cxx_iff m (xcode_config s) fcc P)) in F3. apply (proj2 (Proof_Xcode2.objc_iff (xcode_config s) fo P)) in F4. apply (proj2 (Proof_Xcode2.objcc_iff (xcode_config s) foo P)) in F5.
  rewrite <- D4 in F2. rewrite <- D5 in F3. rewrite <- D6 in F4. rewrite <- D7 in F5. subst fc fcc fo foo. rewrite <- Et in *. rewrite <- K in Ha. rewrite <- D1 in *. rewrite <- D2 in Hi.
  pose proof (apart_after m f after rest) as A. rewrite ?Et in A. specialize (A Hafter R).
  pose proof (compiled_c vars t b c incs wf wc wcc wo woo bs rest f out src dep depw Hb Ac Ha Ht Hd Hi G1 G2 G3 G4 G5 Hf A So Ss Wd) as CC. pose proof (compiled_objc vars t b c incs wf wc wcc wo woo bs rest f out src dep depw Hb Ac Ha Ht Hd Hi G1 G2 G3 G4 G5 Hf A So Ss Wd) as CO.
  split; [|split; [|split]].
  - intros cc ccw ex exw V1 W1 V2 W2. refine (CC "GYP_CFLAGS" _ wc "CC." "CFLAGS." cc ccw ex exw _ _ _ V1 W1 V2 W2); [left; reflexivity|left; reflexivity|left; reflexivity].
  - intros cc ccw ex exw V1 W1 V2 W2. refine (CC "GYP_CXXFLAGS" _ wcc "CXX." "CXXFLAGS." cc ccw ex exw _ _ _ V1 W1 V2 W2); [right; left; reflexivity|right; left; reflexivity|right; left; reflexivity].
  - intros cc ccw V1 W1. refine (CO "GYP_OBJCFLAGS" _ (wc ++ wo)%list "CC." cc ccw _ _ V1 W1); [right; right; left; reflexivity|left; reflexivity].
  - intros cc ccw V1 W1. refine (CO "GYP_OBJCXXFLAGS" _ (wcc ++ woo)%list "CXX." cc ccw _ _ V1 W1); [right; right; right; left; reflexivity|right; left; reflexivity].
Qed.

Theorem linked_project : forall m vars before p after ls b s flags lf given root named wl wt libs f out inputs inw ld ldw more morew text words ts,
  all_lines m (before ++ p :: after)%list = Some ls -> lookup_in vars "BUILDTYPE" = Some b -> assoc b (settings_of p) = Some s ->
  ts = toolset (project_target p) -> In ts ["target"; "host"] -> output_binary p = Some f ->
  Spec_Xcode.proper (Model_Xcode.xcode (xcode_config s)) -> Spec_Xcode.plain_dirs (xcode_config s) ->
  Spec_Xcode.link_words m (spec_of p) (xcode_config s) "$(builddir)" (fun g => sourceify (absolutify (project_target p) g)) flags -> all_give (lookup_in vars) (flags ++ map (append "-L") (own_library_dirs s)) wl ->
  Spec_Xcode.lists (Model_Xcode.xcode (xcode_config s)) "OTHER_LDFLAGS" lf -> all_give (lookup_in vars) lf wt ->
  once_each [] (project_libraries p) given -> Spec_Xcode.common_root m (spec_of p) root -> Forall2 (Spec_Xcode.linked_as m root) given named -> all_give (lookup_in vars) named libs ->
  (forall q, In q after -> ~ In f (objects (project_target q)) /\ (type (project_target q) = None_ \/ output_binary q <> Some f)) ->
  safe out -> sh_arguments inputs = Some inw -> lookup_in vars ("LINK." ++ ts) = Some ld -> sh_arguments ld = Some ldw -> lookup_in vars ("LDFLAGS." ++ ts) = Some more -> sh_arguments more = Some morew ->
  link_command (type (project_target p)) = Some text -> mac_link_words (type (project_target p)) ldw morew inw out wl wt libs = Some words ->
  command_words (read_lines (vars, []) ls) f [("@", out); ("LD_INPUTS", inputs); ("INPUTS", inputs)] text = Some words.
Proof.
  intros m vars before p after ls b s flags lf given root named wl wt libs f out inputs inw ld ldw more morew text words ts E Hb Hs -> Ht Ob P PD F1 G1 F2 G2 Og Cr Ln G3 Hafter So Wi V1 W1 V2 W2 Et Ew.
  destruct (project_at m before p after ls E) as (bs & t & rest & -> & Pt & R). destruct (prepared m p t Pt) as (Tt & Bt & _ & H & L). destruct (H b s Hs) as (c & Ec & Ac).
  destruct (config_parts m p s c Ec) as (_ & _ & D3 & _ & _ & _ & _ & D8 & _ & D10).
  assert (Ny : type (project_target p) <> None_) by (intros X; rewrite X in Et; discriminate Et).
  rewrite (Proof_Xcode4.link_eq m (spec_of p) (xcode_config s) "$(builddir)" _ flags P PD F1) in D10. specialize (D10 Ny). injection D10 as ->.
  apply (Proof_Xcode.lists_iff _ _ _ P) in F2; [|apply Proof_Xcode.is_listed; reflexivity].
  assert (F : f = binary_of t) by congruence. subst f.
  assert (Eg : libraries t = named). { specialize (L Ny). unfold uniquer in L. rewrite (once_uniquer _ _ _ Og []) in L. cbn [app] in L. rewrite (Proof_Xcode4.libraries_eq m (spec_of p) root given named Cr Ln) in L. injection L as ->. reflexivity. }
  rewrite <- Tt in Et, Ew, Ny. rewrite <- Tt in Ht. rewrite <- Tt in V1, V2.
  refine (linked_mac vars t b c wl wt libs bs rest Hb Ac Ht Ny _ _ _ _ out inputs ld more text inw ldw morew words So Wi V1 W1 V2 W2 Et Ew).
  - rewrite D3. exact G1.
  - rewrite D8. unfold Model_Xcode.get_libtoolflags. subst lf. exact G2.
  - rewrite Eg. exact G3.
  - exact (apart_after m (binary_of t) after rest Hafter R).
Qed.

(** ** The files that are made *)
Lemma objects_iff : forall t f, In f (objects t) <-> exists s e, In s (sources t ++ extra_sources t)%list /\ In e [".c"; ".cc"; ".cpp"; ".cxx"; ".s"; ".S"; ".m"; ".mm"] /\ (exists a, s = a ++ e) /\ f = object_of t s.
Proof.
  intros t f. unfold objects, compiled, all_sources. rewrite in_map_iff. split.
  - intros (s & <- & S). apply filter_In in S. destruct S as [S C]. exists s. unfold compilable, Model_Writer.compilable in C. rewrite !orb_true_iff, existsb_exists in C.
    destruct C as [[((e & k) & I & C)|C]|C]; apply Proof_Flags5.ends_iff in C.
    + exists e. split; [exact S|]. split; [|split; [exact C|reflexivity]]. cbn in I. cbn. decompose [or] I; try contradiction; match goal with H : _ = (e, k) |- _ => injection H as <- <- end; tauto.
    + exists ".m". split; [exact S|]. split; [cbn; tauto|]. split; [exact C|reflexivity].
    + exists ".mm". split; [exact S|]. split; [cbn; tauto|]. split; [exact C|reflexivity].
  - intros (s & e & S & I & A & ->). exists s. split; [reflexivity|]. apply filter_In. split; [exact S|]. apply (proj2 (Proof_Flags5.ends_iff e s)) in A. unfold compilable, Model_Writer.compilable. rewrite !orb_true_iff, existsb_exists.
    assert (X : forall k, In (e, k) extensions -> exists x, In x extensions /\ Model_Writer.ends_with (fst x) s = true) by (intros k K; exists (e, k); split; [exact K|exact A]).
    cbn in I. decompose [or] I; subst; try contradiction; try (left; right; exact A); try (right; exact A); left; left; first [apply (X "cc"); cbn; tauto | apply (X "cxx"); cbn; tauto].
Qed.
Lemma binary_at : forall p b, type (project_target p) <> None_ -> Model_Xcode.product (spec_of p) = Some b ->
  output_binary p = Some (expand (project_target p) (path_join (match product_dir (project_target p) with Some d => d | None => if orb (match type (project_target p) with Executable => true | _ => false end) (String.eqb (toolset (project_target p)) "target") then "$(builddir)" else path_join ("$(obj)." ++ toolset (project_target p)) (path (project_target p)) end) b)).
Proof. intros p b N B. unfold output_binary. rewrite B. destruct (type (project_target p)); try contradiction; destruct (product_dir (project_target p)); try reflexivity; cbn [orb]; reflexivity. Qed.
