(** Proofs about the objects ninja makes of sources. *)
From Coq Require Import Lia.
From Verif Require Proof_Quote Proof_Ninja Proof_Vs Proof_Flags5.
From Verif Require Import Lib Str LibFacts StrFacts Model_Names Model_Path Spec_Path Proof_Path Proof_Path2 Proof_Suffix Model_Writer Model_NinjaBuild Spec_NinjaBuild Proof_NinjaBuild Proof_NinjaBuild3 Spec_NinjaObject.
Local Open Scope string_scope.

(** ** texts *)
Lemma dots_not : forall n c, has_char c n = true -> c <> "."%char -> only_dots n = false.
Proof.
  induction n as [|a n IH]; intros c H N; [discriminate|]. cbn [only_dots has_char] in *. destruct (Ascii.eqb_spec a c) as [->|X]; [rewrite (proj2 (Ascii.eqb_neq c ".") N); reflexivity|]. rewrite (IH c H N). apply andb_false_r.
Qed.
Lemma splitext_is : forall d n e, (d = "" \/ exists p, d = p ++ "/") -> has_char "/" n = false -> only_dots n = false -> has_char "." e = false -> has_char "/" e = false -> splitext (d ++ n ++ "." ++ e) = (d ++ n, "." ++ e).
Proof.
  intros d n e D N X E S. unfold splitext. assert (B : has_char "/" (n ++ "." ++ e) = false) by (rewrite has_char_app, N; cbn; exact S).
  assert (R : rsplit1 "." (n ++ "." ++ e) = Some (n, e)) by (apply rsplit1_Some; split; [reflexivity|exact E]).
  destruct D as [->|(p & ->)].
  - change ("" ++ n ++ "." ++ e) with (n ++ "." ++ e). rewrite (proj2 (rsplit1_None "/" _) B), R, X. reflexivity.
  - assert (Y : rsplit1 "/" ((p ++ "/") ++ n ++ "." ++ e) = Some (p, n ++ "." ++ e)) by (apply rsplit1_Some; split; [rewrite append_assoc; reflexivity|exact B]). rewrite Y, R, X. rewrite append_assoc. reflexivity.
Qed.
Lemma rstrip_app : forall s, exists l, rstrip slash s ++ l = s /\ all_slashes l = true.
Proof.
  induction s as [|a s (l & E & L)]; [exists ""; split; reflexivity|]. cbn [rstrip]. destruct (rstrip slash s) as [|b r] eqn:R.
  - cbn [append] in E. subst l. destruct (Ascii.eqb a slash) eqn:A; [exists (String a s); split; [reflexivity|cbn [all_slashes]; rewrite A, L; reflexivity]|exists s; split; [reflexivity|exact L]].
  - exists l. split; [rewrite <- E; reflexivity|exact L].
Qed.
Lemma locate_slashes : forall here l p, all_slashes l = true -> p <> "" -> locate here (p ++ l) = locate here p.
Proof.
  intros here. induction l as [|a l IH]; intros p L N; [rewrite append_nil_r; reflexivity|]. cbn [all_slashes] in L. apply andb_true_iff in L. destruct L as (A & L). apply Ascii.eqb_eq in A. subst a.
  change (String slash l) with ("/" ++ l). rewrite <- append_assoc, IH; [|exact L|destruct p; discriminate]. apply locate_trailing. exact N.
Qed.
Lemma split_is : forall d n, (d = "" \/ exists p, d = p ++ "/") -> isabs d = false -> has_char "/" n = false ->
  snd (path_split (d ++ n)) = n /\ isabs (fst (path_split (d ++ n))) = false /\ forall here, locate here (fst (path_split (d ++ n))) = locate here d.
Proof.
  intros d n D A N. unfold path_split. destruct D as [->|(p & ->)].
  - change ("" ++ n) with n. rewrite (proj2 (rsplit1_None slash n) N). split; [reflexivity|]. split; reflexivity.
  - assert (Y : rsplit1 slash ((p ++ "/") ++ n) = Some (p, n)) by (apply rsplit1_Some; split; [rewrite append_assoc; reflexivity|exact N]). rewrite Y. cbn [snd fst]. split; [reflexivity|].
    destruct p as [|c p]; [discriminate A|]. change (String slash "") with "/". assert (C : Ascii.eqb c slash = false) by exact A.
    replace (all_slashes (String c p ++ "/")) with false by (cbn [append all_slashes]; rewrite C; reflexivity).
    destruct (rstrip_app (String c p ++ "/")) as (l & E & L). destruct (rstrip slash (String c p ++ "/")) as [|c' r] eqn:R.
    + cbn [append] in E. subst l. cbn [all_slashes] in L. rewrite C in L. discriminate L.
    + split; [cbn [append] in E; injection E as -> _; exact A|]. intros here. rewrite <- E. symmetry. apply locate_slashes; [exact L|discriminate].
Qed.

(** ** where paths lead *)
Lemma locate_name : forall here n, name_ok n -> locate here n = (n :: here)%list.
Proof.
  intros here n N. unfold locate. assert (S := proj1 N). rewrite (split_char_none slash n S). replace (isabs n) with false; [apply (step_name here n N)|]. destruct n as [|c n]; [reflexivity|]. apply Proof_Quote.has_char_false in S. symmetry. apply Ascii.eqb_neq. exact (proj1 S).
Qed.
Lemma locate_nil : forall here, locate here "" = here.
Proof. reflexivity. Qed.
Lemma dotted_ok : forall a b, has_char "/" a = false -> has_char "/" b = false -> (exists c, has_char c b = true /\ c <> "."%char) -> name_ok (a ++ b).
Proof.
  intros a b A B (c & C & N). assert (H : has_char c (a ++ b) = true) by (rewrite has_char_app, C; apply orb_true_r). split; [rewrite has_char_app; change slash with "/"%char; rewrite A, B; reflexivity|].
  assert (X : Ascii.eqb "." c = false) by (apply Ascii.eqb_neq; congruence).
  split; [intros E; rewrite E in H; discriminate H|]. split; intros E; rewrite E in H; cbn [has_char] in H; rewrite !X in H; discriminate H.
Qed.
Lemma obj_dir_ok : forall t, regular t -> name_ok (obj_dir t).
Proof.
  intros t (_ & _ & _ & _ & R & _). unfold obj_dir. destruct (String.eqb (toolset t) "target"); [repeat split; discriminate|]. change ("obj." ++ toolset t) with (String "o" ("bj." ++ toolset t)).
  split; [cbn [has_char append]; exact R|]. repeat split; discriminate.
Qed.
Lemma join_locate : forall a b c d here, locate here (path_join_list [a; b; c; d]) = locate (locate (locate (locate here a) b) c) d.
Proof. intros a b c d here. unfold path_join_list. cbn [fold_left]. rewrite !locate_join. reflexivity. Qed.
Lemma int_dir_place : forall t here, regular t -> locate here (int_dir t) = generated t here.
Proof.
  intros t here R. unfold int_dir, generated, objects. rewrite locate_normpath, join_locate, locate_nil, (locate_name here (obj_dir t) (obj_dir_ok t R)). apply locate_name. apply dotted_ok; [exact (proj1 R)|reflexivity|exists "g"%char; split; [reflexivity|discriminate]].
Qed.
Lemma has_join : forall c a b, c <> slash -> has_char c a = false -> has_char c b = false -> has_char c (path_join a b) = false.
Proof. exact has_char_path_join. Qed.
Lemma int_dir_clear : forall t, regular t -> has_char "$" (int_dir t) = false.
Proof.
  intros t (_ & N & P & _ & _ & T). unfold int_dir. apply has_char_normpath; [discriminate|discriminate|]. unfold path_join_list. cbn [fold_left]. repeat apply has_char_path_join; try discriminate; try reflexivity; [|exact P|rewrite has_char_app, N; reflexivity].
  unfold obj_dir. destruct (String.eqb (toolset t) "target"); [reflexivity|]. rewrite has_char_app, T. reflexivity.
Qed.
Lemma special_place : forall s t o r, regular t -> has_char "$" r = false ->
  special s t ((match o with In_tree => "" | In_product_dir => "$!PRODUCT_DIR/" | In_intermediate_dir => "$!INTERMEDIATE_DIR/" end) ++ r) = (match o with In_intermediate_dir => int_dir t ++ "/" | _ => "" end) ++ r.
Proof.
  intros s t o r R N. unfold special. destruct o.
  - cbn [append]. rewrite (replace_none "!PRODUCT_DIR/"), (replace_none "!PRODUCT_DIR\"), (replace_none "!PRODUCT_DIR"), (replace_none "!INTERMEDIATE_DIR"), (replace_none "|CONFIGURATION_NAME") by exact N. reflexivity.
  - rewrite (replace_hit "$" "!PRODUCT_DIR/"), (replace_none "!PRODUCT_DIR/") by exact N. cbn [append]. rewrite (replace_none "!PRODUCT_DIR\"), (replace_none "!PRODUCT_DIR"), (replace_none "!INTERMEDIATE_DIR"), (replace_none "|CONFIGURATION_NAME") by exact N. reflexivity.
  - assert (S : forall p, In p ["!PRODUCT_DIR/"; "!PRODUCT_DIR\"; "!PRODUCT_DIR"] -> forall b, replace (String "$" p) b ("$!INTERMEDIATE_DIR/" ++ r) = "$!INTERMEDIATE_DIR/" ++ r).
    { intros p P b. transitivity ("$!INTERMEDIATE_DIR/" ++ replace (String "$" p) b r); [|rewrite (replace_none p b r N); reflexivity]. destruct P as [<-|[<-|[<-|[]]]]; reflexivity. }
    rewrite !S by (cbn; tauto). change ("$!INTERMEDIATE_DIR/" ++ r) with ("$!INTERMEDIATE_DIR" ++ ("/" ++ r)). rewrite (replace_hit "$" "!INTERMEDIATE_DIR"), (replace_none "!INTERMEDIATE_DIR") by exact N.
    rewrite (replace_none "|CONFIGURATION_NAME"); [rewrite append_assoc; reflexivity|]. rewrite has_char_app, (int_dir_clear t R). exact N.
Qed.
Lemma normpath_relative : forall p, isabs p = false -> isabs (normpath p) = false.
Proof.
  intros p Ha. unfold normpath. destruct p as [|x p]; [reflexivity|]. set (q := String x p) in *.
  assert (Hi : initial_slashes q = "") by (unfold initial_slashes, q in *; cbn [isabs] in Ha; rewrite Ha; reflexivity). rewrite Hi, Ha. cbn [append].
  assert (Hp := norm_comps_props false (split_char slash q) [] (split_char_no_char slash q) (fun c H => match H with end)).
  assert (He : isabs (String.concat "/" (rev (norm_comps false [] (split_char slash q)))) = false).
  { apply concat_not_abs. intros c Hc. apply in_rev in Hc. destruct (Hp c Hc) as [A [B _]]. split; assumption. }
  change sep with "/". destruct (String.concat "/" (rev (norm_comps false [] (split_char slash q)))); [reflexivity|exact He].
Qed.
Lemma join_relative : forall a b, isabs a = false -> isabs b = false -> isabs (path_join a b) = false.
Proof. intros a b A B. unfold path_join. rewrite B. destruct a as [|c a]; [exact B|]. destruct (String.eqb (String c a) "" || ends_slash (String c a)); exact A. Qed.
Lemma not_abs : forall n, has_char "/" n = false -> isabs n = false.
Proof. intros [|c n] H; [reflexivity|]. apply Proof_Quote.has_char_false in H. apply Ascii.eqb_neq. exact (proj1 H). Qed.
Lemma int_dir_relative : forall t, regular t -> isabs (int_dir t) = false.
Proof.
  intros t (N & _ & _ & P & T & _). unfold int_dir. apply normpath_relative. unfold path_join_list. cbn [fold_left]. repeat apply join_relative; try reflexivity; [|exact P|apply not_abs; rewrite has_char_app, N; reflexivity].
  unfold obj_dir. destruct (String.eqb (toolset t) "target"); reflexivity.
Qed.
Lemma locate_dir : forall here d n, (d = "" \/ exists p, d = p ++ "/") -> isabs n = false -> locate here (d ++ n) = locate (locate here d) n.
Proof.
  intros here d n D N. rewrite <- locate_join. f_equal. unfold path_join. rewrite N. destruct D as [->|(p & ->)]; [reflexivity|]. rewrite ends_slash_app, orb_true_r. reflexivity.
Qed.

(** ** a source and its object *)
Definition start (t : target) (o : origin) : string := match o with In_intermediate_dir => int_dir t ++ "/" | _ => "" end.
Lemma start_dir : forall t o d, d = "" \/ (exists p, d = p ++ "/") -> start t o ++ d = "" \/ exists p, start t o ++ d = p ++ "/".
Proof. intros t o d [->|(p & ->)]; [|right; exists (start t o ++ p); rewrite append_assoc; reflexivity]. destruct o; try (left; reflexivity). right. exists (int_dir t). cbn [start]. rewrite append_nil_r. reflexivity. Qed.
Lemma start_rel : forall t o d, regular t -> isabs d = false -> isabs (start t o ++ d) = false.
Proof. intros t o d R D. destruct o; try exact D. cbn [start]. rewrite append_assoc, isabs_app. assert (A := int_dir_relative t R). assert (N := normpath_nonempty (path_join_list [obj_dir t; path t; ""; target_name t ++ ".gen"])). fold (int_dir t) in N. destruct (int_dir t); [contradiction|exact A]. Qed.
Lemma start_place : forall t o d here, regular t -> isabs d = false -> locate here (start t o ++ d) = locate (match o with In_intermediate_dir => generated t here | _ => here end) d.
Proof.
  intros t o d here R D. destruct o; try reflexivity. cbn [start]. rewrite (locate_dir here (int_dir t ++ "/") d); [|right; exists (int_dir t); reflexivity|exact D]. rewrite locate_trailing, int_dir_place; [reflexivity|exact R|]. apply normpath_nonempty.
Qed.
Lemma text_split : forall f, proper f -> splitext (text f) = ((match from f with In_tree => "" | In_product_dir => "$!PRODUCT_DIR/" | In_intermediate_dir => "$!INTERMEDIATE_DIR/" end) ++ dir f ++ stem f, "." ++ ext f).
Proof.
  intros f (D & _ & _ & _ & S & (c & C & CN) & _ & E1 & E2). unfold text. set (p := match from f with In_tree => "" | In_product_dir => "$!PRODUCT_DIR/" | In_intermediate_dir => "$!INTERMEDIATE_DIR/" end).
  rewrite <- append_assoc. rewrite splitext_is; [rewrite append_assoc; reflexivity| |exact S|exact (dots_not _ c C CN)|exact E1|exact E2].
  destruct D as [->|(q & ->)]; [|right; exists (p ++ q); rewrite append_assoc; reflexivity]. rewrite append_nil_r. destruct (from f); [left; reflexivity|right; exists "$!PRODUCT_DIR"; reflexivity|right; exists "$!INTERMEDIATE_DIR"; reflexivity].
Qed.
Lemma object_is : forall s t f, regular t -> proper f -> exists o, unique s t (fst (splitext (text f)) ++ ".o") true = Some o /\ forall build, locate build o = object_place t build f.
Proof.
  intros s t f R P. rewrite (text_split f P). destruct P as (D & DA & D1 & S1 & S & _ & _ & _ & _). cbn [fst]. unfold unique.
  assert (N1 : has_char "$" (dir f ++ stem f ++ ".o") = false) by (rewrite !has_char_app, D1, S1; reflexivity).
  assert (N2 : has_char "/" (stem f ++ ".o") = false) by (rewrite has_char_app, S; reflexivity).
  rewrite !append_assoc. rewrite (special_place s t (from f) _ R N1). fold (start t (from f)). rewrite <- (append_assoc (start t (from f))).
  destruct (split_is (start t (from f) ++ dir f) (stem f ++ ".o") (start_dir t (from f) (dir f) D) (start_rel t (from f) (dir f) R DA) N2) as (A & B & C).
  assert (PF : String.prefix "$" ((start t (from f) ++ dir f) ++ stem f ++ ".o") = false).
  { destruct (String.prefix "$" ((start t (from f) ++ dir f) ++ stem f ++ ".o")) eqn:X; [|reflexivity]. apply Proof_Vs.prefix_iff in X. destruct X as (r & X). assert (Y : has_char "$" ((start t (from f) ++ dir f) ++ stem f ++ ".o") = false).
    { rewrite append_assoc, has_char_app, N1, orb_false_r. destruct (from f); try reflexivity. cbn [start]. rewrite has_char_app, (int_dir_clear t R). reflexivity. }
    rewrite X in Y. discriminate Y. }
  rewrite PF. destruct (path_split ((start t (from f) ++ dir f) ++ stem f ++ ".o")) as [d b] eqn:E. cbn [fst snd] in A, B, C. subst b. rewrite B. eexists. split; [reflexivity|].
  intros build. rewrite locate_normpath, join_locate, (locate_name build (obj_dir t) (obj_dir_ok t R)), C.
  rewrite locate_name; [|apply dotted_ok; [exact (proj1 R)|cbn; exact N2|exists "o"%char; split; [rewrite !has_char_app; cbn; apply orb_true_r|discriminate]]].
  unfold object_place. rewrite (start_place t (from f) (dir f) _ R DA). unfold objects. reflexivity.
Qed.
Lemma source_is : forall s t f, regular t -> proper f -> exists i, to_ninja s t (text f) = Some i /\ forall build, locate build i = source_place s t build f.
Proof.
  intros s t f R P. assert (P' := P). destruct P' as (D & DA & D1 & S1 & S & (c & C & CN) & E0 & E1 & E2).
  assert (N1 : has_char "$" (dir f ++ stem f ++ "." ++ ext f) = false) by (rewrite !has_char_app, D1, S1; exact E0).
  assert (N2 : has_char "/" (stem f ++ "." ++ ext f) = false) by (rewrite !has_char_app, S; exact E2).
  assert (NO : name_ok (stem f ++ "." ++ ext f)).
  { split; [exact N2|]. assert (H : has_char c (stem f ++ "." ++ ext f) = true) by (rewrite has_char_app, C; reflexivity). assert (X : Ascii.eqb "." c = false) by (apply Ascii.eqb_neq; congruence).
    split; [intros E; rewrite E in H; discriminate H|]. split; intros E; rewrite E in H; cbn [has_char] in H; rewrite !X in H; discriminate H. }
  assert (PL : forall here, locate here (start t (from f) ++ dir f ++ stem f ++ "." ++ ext f) = ((stem f ++ "." ++ ext f)%string :: locate (match from f with In_intermediate_dir => generated t here | _ => here end) (dir f))%list).
  { intros here. rewrite <- append_assoc, (locate_dir here); [|exact (start_dir t (from f) (dir f) D)|exact (not_abs _ N2)]. rewrite (locate_name _ _ NO), (start_place t (from f) (dir f) here R DA). reflexivity. }
  unfold to_ninja. destruct (from f) eqn:F.
  - unfold text. rewrite F. cbn [append]. set (x := dir f ++ stem f ++ String "." (ext f)) in *.
    assert (PF : String.prefix "$!" x = false). { destruct (String.prefix "$!" x) eqn:X; [|reflexivity]. apply Proof_Vs.prefix_iff in X. destruct X as (r & X). change (has_char "$" x = false) in N1. rewrite X in N1. discriminate N1. }
    assert (CO : contains "$|" x = false). { destruct (contains "$|" x) eqn:X; [|reflexivity]. apply Proof_Flags5.contains_iff in X. destruct X as (a & r & X). change (has_char "$" x = false) in N1. rewrite X, has_char_app in N1. cbn in N1. rewrite orb_true_r in N1. discriminate N1. }
    rewrite PF, CO. change (has_char "$" x = false) in N1. rewrite N1. eexists. split; [reflexivity|]. intros build. rewrite locate_normpath, locate_join. unfold build_to_base. rewrite locate_join. unfold source_place. rewrite F. exact (PL _).
  - assert (SP := special_place s t In_product_dir (dir f ++ stem f ++ "." ++ ext f) R N1). unfold text. rewrite F. change (String.prefix "$!" ("$!PRODUCT_DIR/" ++ dir f ++ stem f ++ "." ++ ext f)) with true. cbv iota. rewrite SP. eexists. split; [reflexivity|].
    intros build. unfold source_place. rewrite F. exact (PL build).
  - assert (SP := special_place s t In_intermediate_dir (dir f ++ stem f ++ "." ++ ext f) R N1). unfold text. rewrite F. change (String.prefix "$!" ("$!INTERMEDIATE_DIR/" ++ dir f ++ stem f ++ "." ++ ext f)) with true. cbv iota. rewrite SP. eexists. split; [reflexivity|].
    intros build. unfold source_place. rewrite F. exact (PL build).
Qed.
Lemma compiler_is : forall f c, proper f -> compiled_by (ext f) c -> compiler (text f) = Some c.
Proof.
  intros f c P C. unfold compiler. rewrite (text_split f P). cbn [snd]. unfold compiled_by in C. repeat (destruct C as [C|C]; [injection C as <- <-; reflexivity|]). contradiction.
Qed.
Lemma spec_edge : forall s outputs t we wo f c i o, write_spec s outputs t = Some (we, wo) -> In f (all_sources t) -> compiler f = Some c -> to_ninja s t f = Some i -> unique s t (fst (splitext f) ++ ".o") true = Some o ->
  exists e, In e we /\ outs e = [o] /\ command e = c /\ ins e = [i] /\ implicit e = [].
Proof.
  intros s outputs t we wo f c i o H I C TN U. unfold write_spec in H.
  destruct (traverse preaction_input (deps_of outputs t)) as [pre|] eqn:EP; cbn [bind] in H; [|discriminate].
  destruct (collapse s t "actions_depends" (flat_map filled pre) None) as [[ade ad]|] eqn:EA; cbn [bind fst snd] in H; [|discriminate].
  destruct (collapse s t "compile_depends" (flat_map filled (map precompile_input (deps_of outputs t))) None) as [[cde cd]|] eqn:EC; cbn [bind fst snd] in H; [|discriminate].
  destruct (write_generated s t ad) as [[ge gen]|] eqn:EG; cbn [bind fst snd] in H; [|discriminate].
  destruct (traverse (write_source s t (or_ gen cd)) (all_sources t)) as [objs|] eqn:EO; cbn [bind] in H; [|discriminate].
  destruct (traverse (to_ninja s t) (filter (ends_with ".o") (all_sources t))) as [given|] eqn:EV; cbn [bind] in H; [|discriminate].
  assert (X : exists e, In e (concat objs) /\ outs e = [o] /\ command e = c /\ ins e = [i] /\ implicit e = []).
  { destruct (traverse_in _ _ _ EO f I) as (l & L1 & L2). unfold write_source in L1. rewrite C, TN in L1. cbn [bind] in L1. rewrite U in L1. cbn [bind] in L1. injection L1 as <-.
    exists (statement [o] c [i] [] (as_list (or_ gen cd))). split; [apply in_concat; eexists; split; [exact L2|left; reflexivity]|]. repeat split. }
  destruct X as (e & E1 & E2). exists e. split; [|exact E2].
  assert (Y : forall l, In e ((ade ++ cde ++ ge ++ concat objs) ++ l)%list) by (intros l; apply in_or_app; left; apply in_or_app; right; apply in_or_app; right; apply in_or_app; right; exact E1).
  destruct (match (flat_map outs (concat objs) ++ given)%list with [] => match gen with Some _ => false | None => match ad with Some _ => false | None => true end end | _ :: _ => false end) in H.
  - injection H as <- <-. specialize (Y []). rewrite app_nil_r in Y. exact Y.
  - destruct (write_target s outputs t _ _ _) as [[[es b] k]|] in H; cbn [bind] in H; [|discriminate]. injection H as <- <-. apply Y.
Qed.
Lemma built_edge : forall s needed ts es t f c, build_ninja s needed ts = Some es -> In t ts -> In (text f) (all_sources t) -> regular t -> proper f -> compiled_by (ext f) c ->
  exists e i o, In e es /\ outs e = [o] /\ command e = c /\ ins e = [i] /\ implicit e = [] /\ forall build, locate build i = source_place s t build f /\ locate build o = object_place t build f.
Proof.
  intros s needed ts es t f c B I F R P C. destruct (opened s needed ts es B) as (r & l & W & IN & _). apply in_split in I. destruct I as (l1 & l2 & ->).
  destruct (write_all_split s l1 [] t l2 r l W) as (r1 & lr1 & [we wo] & lr2 & _ & WS & WI & _).
  destruct (source_is s t f R P) as (i & I1 & I2). destruct (object_is s t f R P) as (o & O1 & O2).
  destruct (spec_edge s _ t we wo (text f) c i o WS F (compiler_is f c P C) I1 O1) as (e & E1 & E2 & E3 & E4 & E5). exists e, i, o. split; [apply IN, WI; exact E1|]. split; [exact E2|]. split; [exact E3|]. split; [exact E4|]. split; [exact E5|]. intros build. split; [apply I2|apply O2].
Qed.
(** ** one object for one source *)
Lemma append_inj_r' : forall a b c, a ++ c = b ++ c -> a = b.
Proof.
  intros a b c E. assert (L : String.length a = String.length b) by (apply (f_equal String.length) in E; rewrite !Proof_Ninja.len_app in E; lia). revert b L E. induction a as [|x a IH]; intros [|y b] L E; try discriminate L; [reflexivity|].
  cbn [append] in E. injection E as -> E. f_equal. apply IH; [injection L as L; exact L|exact E].
Qed.
Lemma locate_down : forall p here, down p -> locate here p = (locate [] p ++ here)%list.
Proof. intros p here (A & D). unfold locate. rewrite A. exact (walk_down_app (split_char slash p) [] here D). Qed.
Lemma objects_down : forall t here, down (path t) -> objects t here = (locate [] (path t) ++ obj_dir t :: here)%list.
Proof. intros t here D. unfold objects. apply locate_down. exact D. Qed.
Lemma same_toolset : forall t t', obj_dir t = obj_dir t' -> toolset t = toolset t'.
Proof.
  intros t t' E. unfold obj_dir in E. destruct (String.eqb_spec (toolset t) "target") as [->|N], (String.eqb_spec (toolset t') "target") as [->|N']; try reflexivity; try discriminate E. injection E as E. exact E.
Qed.
Lemma same_object : forall t t' f f' build, down (path t) -> down (path t') -> down (dir f) -> down (dir f') ->
  from f <> In_intermediate_dir -> from f' <> In_intermediate_dir -> object_place t build f = object_place t' build f' ->
  toolset t = toolset t' /\ target_name t ++ "." ++ stem f = target_name t' ++ "." ++ stem f' /\ forall here, locate (locate here (path t)) (dir f) = locate (locate here (path t')) (dir f').
Proof.
  intros t t' f f' build P P' D D' F F' E. unfold object_place in E.
  replace (match from f with In_intermediate_dir => generated t (objects t build) | _ => objects t build end) with (objects t build) in E by (destruct (from f); [reflexivity|reflexivity|contradiction]).
  replace (match from f' with In_intermediate_dir => generated t' (objects t' build) | _ => objects t' build end) with (objects t' build) in E by (destruct (from f'); [reflexivity|reflexivity|contradiction]).
  rewrite (locate_down (dir f) _ D), (locate_down (dir f') _ D'), (objects_down t build P), (objects_down t' build P') in E. injection E as E1 E2.
  rewrite !app_assoc in E2. change (obj_dir t :: build)%list with ([obj_dir t] ++ build)%list in E2. change (obj_dir t' :: build)%list with ([obj_dir t'] ++ build)%list in E2. rewrite !(app_assoc _ [_] build) in E2. apply app_inv_tail in E2. apply app_inj_tail in E2. destruct E2 as (E2 & E3).
  split; [exact (same_toolset t t' E3)|]. split.
  - apply (append_inj_r' _ _ ".o"). rewrite !append_assoc. exact E1.
  - intros here. rewrite (locate_down (path t) here P), (locate_down (path t') here P'), (locate_down (dir f) _ D), (locate_down (dir f') _ D'), !app_assoc, E2. reflexivity.
Qed.

Lemma same_source : forall t f f' build, down (dir f) -> down (dir f') -> from f = from f' -> object_place t build f = object_place t build f' ->
  stem f = stem f' /\ forall here, locate here (dir f) = locate here (dir f').
Proof.
  intros t f f' build D D' F E. unfold object_place in E. rewrite <- F in E. rewrite (locate_down (dir f) _ D), (locate_down (dir f') _ D') in E. injection E as E1 E2. apply app_inv_tail in E2. split.
  - apply append_inj_l in E1. injection E1 as E1. exact (append_inj_r' _ _ _ E1).
  - intros here. rewrite (locate_down (dir f) _ D), (locate_down (dir f') _ D'), E2. reflexivity.
Qed.
Lemma dotless_inj : forall a b c d, has_char "." a = false -> has_char "." c = false -> a ++ "." ++ b = c ++ "." ++ d -> a = c /\ b = d.
Proof.
  induction a as [|x a IH]; intros b c d A C E; destruct c as [|y c]; cbn [append] in E.
  - injection E as E. split; [reflexivity|exact E].
  - injection E as <- _. apply Proof_Quote.has_char_false in C. destruct (proj1 C eq_refl).
  - injection E as -> _. apply Proof_Quote.has_char_false in A. destruct (proj1 A eq_refl).
  - injection E as -> E. apply Proof_Quote.has_char_false in A. apply Proof_Quote.has_char_false in C. destruct (IH b c d (proj2 A) (proj2 C) E) as (-> & ->). split; reflexivity.
Qed.
(** ** inside the build directory *)
Lemma object_inside : forall t build f, down (path t) -> down (dir f) -> exists l, object_place t build f = (l ++ build)%list /\ l <> [].
Proof.
  intros t build f P D. unfold object_place. rewrite (locate_down (dir f) _ D). destruct (from f); unfold generated; rewrite ?(objects_down t _ P).
  1,2: exists ((target_name t ++ "." ++ stem f ++ ".o")%string :: (locate [] (dir f) ++ locate [] (path t) ++ [obj_dir t]))%list; (split; [cbn [app]; rewrite <- !app_assoc; reflexivity|discriminate]).
  exists ((target_name t ++ "." ++ stem f ++ ".o")%string :: (locate [] (dir f) ++ (target_name t ++ ".gen")%string :: (locate [] (path t) ++ obj_dir t :: (locate [] (path t) ++ [obj_dir t]))))%list. split; [|discriminate].
  cbn [app]. rewrite <- !app_assoc. cbn [app]. rewrite <- !app_assoc. cbn [app]. rewrite <- !app_assoc. reflexivity.
Qed.
(** ** examples *)
Definition plain_target (n p : string) : target := {| qualified := append p (append "/binding.gyp:" (append n "#target")); target_name := n; type := Static_library; toolset := "target"; path := p;
  dependencies := []; sources := ["src/addon.cc"; "$!INTERMEDIATE_DIR/names.c"]; actions := []; rules := []; copies := []; product_prefix := None; product_name := None; product_extension := None; product_dir := None; standalone := false |}.
Definition addon_cc : file := {| from := In_tree; dir := "src/"; stem := "addon"; ext := "cc" |}.
Definition names_c : file := {| from := In_intermediate_dir; dir := ""; stem := "names"; ext := "c" |}.
Definition object_setup : setup := {| to_top := "../.."; config_name := "Release"; md5 := fun s => "0f" |}.
Lemma plain_regular : forall n p, has_char "/" n = false -> has_char "$" n = false -> has_char "$" p = false -> isabs p = false -> regular (plain_target n p).
Proof. intros n p A B C D. repeat split; assumption. Qed.
Lemma addon_proper : proper addon_cc.
Proof. split; [right; exists "src"; reflexivity|]. repeat split. exists "n"%char. split; [reflexivity|discriminate]. Qed.
Lemma names_proper : proper names_c.
Proof. split; [left; reflexivity|]. repeat split. exists "n"%char. split; [reflexivity|discriminate]. Qed.
Lemma down_list : forall p, isabs p = false -> forallb (fun c => negb (String.eqb c "..")) (split_char "/" p) = true -> down p.
Proof. intros p A H. split; [exact A|]. intros c C E. rewrite forallb_forall in H. specialize (H c C). subst c. discriminate H. Qed.
