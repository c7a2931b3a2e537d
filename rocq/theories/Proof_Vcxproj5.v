(** Only what is meant is compiled, the names of objects, and that there is a project
    at all. *)
From Coq Require Import Permutation.
From Verif Require Import Lib LibFacts Str StrFacts Model_Path Spec_Path Proof_Path Proof_Path2 Model_Vcxproj Spec_Vcxproj Proof_Vcxproj Proof_Vcxproj2 Proof_Vcxproj3 Proof_Vcxproj4.
From Verif Require Proof_Make Model_Writer Model_Build Proof_Build Proof_Suffix.
Local Open Scope string_scope.

Definition compiles (f : string) : Prop := In (Model_Build.to_lower (snd (nt_splitext f))) [".cc"; ".cpp"; ".c"; ".cxx"; ".mm"].
Lemma type_compiles : forall p f g, rules p = [] -> source_type p f = (g, "ClCompile") -> compiles f.
Proof.
  intros p f g R. unfold source_type, compiles. set (ext := Model_Build.to_lower _). unfold extension_to_rule, handling_rules. rewrite R. cbn [filter map rev assoc].
  destruct (mem ext [".cc"; ".cpp"; ".c"; ".cxx"; ".mm"]) eqn:M; [intros _; apply mem_In; exact M|]. destruct (mem ext [".h"; ".hxx"]); [discriminate|]. destruct (String.eqb ext ".rc"); [discriminate|]. destruct (mem ext [".s"; ".asm"]).
  { destruct (mem _ _ && _)%bool; discriminate. }
  destruct (String.eqb ext ".idl"); [discriminate|]. destruct (mem f _); discriminate.
Qed.
Lemma group_compiles : forall p f el, source_type p f = (G_compile, el) -> compiles f.
Proof.
  intros p f el. unfold source_type, compiles. set (ext := Model_Build.to_lower _). destruct (extension_to_rule p ext); [discriminate|].
  destruct (mem ext [".cc"; ".cpp"; ".c"; ".cxx"; ".mm"]) eqn:M; [intros _; apply mem_In; exact M|]. destruct (mem ext [".h"; ".hxx"]); [discriminate|]. destruct (String.eqb ext ".rc"); [discriminate|]. destruct (mem ext [".s"; ".asm"]); [discriminate|].
  destruct (String.eqb ext ".idl"); [discriminate|]. destruct (mem f _); discriminate.
Qed.
Lemma not_compiles : forall f, Model_Build.to_lower (snd (nt_splitext f)) = "" \/ Model_Build.to_lower (snd (nt_splitext f)) = ".gyp" -> ~ compiles f.
Proof. intros f [E|E] C; unfold compiles in C; rewrite E in C; cbn [In] in C; repeat (destruct C as [C|C]; [discriminate|]); exact C. Qed.

(** ** directories above *)
Lemma canon_ups : forall k, canon (repeat ".." k) = repeat ".." k.
Proof.
  intros k. unfold canon. rewrite <- (rev_repeat ".." k) at 2. f_equal. assert (G : forall k j, norm_comps false (repeat ".." j) (repeat ".." k) = repeat ".." (k + j)).
  { clear. induction k as [|k IH]; intros j; [reflexivity|]. cbn [repeat norm_comps]. change (String.eqb ".." "") with false. change (String.eqb ".." dot) with false. change (String.eqb ".." dotdot) with true. cbn [orb negb]. destruct j as [|j]; cbn [repeat].
    - etransitivity; [exact (IH 1)|f_equal; lia].
    - change (String.eqb ".." dotdot) with true. cbn iota. etransitivity; [exact (IH (S (S j)))|f_equal; lia]. }
  etransitivity; [exact (G k 0)|f_equal; lia].
Qed.
Lemma canon_id : forall k names, (forall c, In c names -> c <> "" /\ c <> "." /\ c <> "..") -> canon (repeat ".." k ++ names) = (repeat ".." k ++ names)%list.
Proof.
  intros k names. induction names as [|x m IH] using rev_ind; intros H; [rewrite app_nil_r; apply canon_ups|]. rewrite app_assoc. destruct (H x) as (A & B & C); [apply in_or_app; right; left; reflexivity|]. rewrite canon_snoc by assumption. rewrite IH; [reflexivity|]. intros c I. apply H. apply in_or_app. left. exact I.
Qed.
Lemma canon_names : forall l names, (forall c, In c names -> c <> "" /\ c <> "." /\ c <> "..") -> canon (l ++ names) = (canon l ++ names)%list.
Proof.
  intros l names. induction names as [|x m IH] using rev_ind; intros H; [rewrite !app_nil_r; reflexivity|]. rewrite !app_assoc. destruct (H x) as (A & B & C); [apply in_or_app; right; left; reflexivity|]. rewrite canon_snoc by assumption. rewrite IH; [reflexivity|]. intros c I. apply H. apply in_or_app. left. exact I.
Qed.
Lemma canon_climb : forall l, exists m, canon (".." :: l) = ".." :: m.
Proof.
  intros l. unfold canon. assert (G : forall l acc, exists r, norm_comps false (acc ++ [".."]) l = (r ++ [".."])%list).
  { clear. induction l as [|c l IH]; intros acc; [exists acc; reflexivity|]. cbn [norm_comps]. destruct (_ || _)%bool; [apply IH|]. destruct (_ || _)%bool eqn:E; [exact (IH (c :: acc))|]. destruct acc as [|a acc]; [|cbn [app tl]; apply IH]. cbn [app] in E. apply orb_false_iff in E. destruct E as [_ E]. exfalso. revert E. cbn [negb orb andb]. vm_compute. discriminate. }
  destruct (G l []) as (r & E). exists (rev r). change (norm_comps false [] (".." :: l)) with (norm_comps false ([] ++ [".."]) l). rewrite E, rev_app_distr. reflexivity.
Qed.
Lemma dot_compiles : ~ compiles ".".
Proof. apply not_compiles. left. reflexivity. Qed.
Lemma gyp_fix : forall p g, way p -> gyp_name g -> movable g /\ exists l, canon (pieces p ++ pieces g) = (l ++ [g])%list /\ (p <> "" -> exists l', l = ".." :: l').
Proof.
  intros p g C (n & E & G1 & G2 & G3). split; [apply relative_movable; exact G3|]. rewrite (pieces_none g G1 G2). assert (U : g <> "" /\ g <> "." /\ g <> "..") by (subst g; split; [|split]; intros Q; apply (f_equal String.length) in Q; rewrite slen_app in Q; cbn in Q; lia). destruct U as (U1 & U2 & U3).
  rewrite canon_snoc by assumption. exists (canon (pieces p)). split; [reflexivity|]. intros N. destruct C as [->|((l & P) & _)]; [contradiction|]. rewrite P. apply canon_climb.
Qed.
Lemma gyp_not : forall p g, way p -> gyp_name g -> ~ compiles (fix_path p g).
Proof.
  intros p g C H. destruct (gyp_fix p g C H) as (M & l & E & _). rewrite (fix_movable p g C M), E. destruct H as (n & -> & G1 & G2 & _). apply not_compiles.
  assert (Q : forall m y, show (m ++ [y]) = join_bs (m ++ [y])) by (intros [|z m] y; reflexivity). rewrite Q. rewrite join_snoc. unfold nt_splitext. assert (R : rsplit1 "." (n ++ ".gyp") = Some (n, "gyp")) by (apply rsplit1_Some; split; reflexivity).
  destruct l as [|a l]; [rewrite (rsplit_none _ G1 G2)|rewrite (rsplit_app _ "\" _ eq_refl G1 G2)]; rewrite R; (destruct (Model_Writer.only_dots n); [left|right]; reflexivity).
Qed.

(** ** where an item comes from *)
Lemma item_origin : forall cm p items customs it, generate cm p = inl (items, customs) -> In it items ->
  exists g y, item_of p (rest p) (include it) = inl (g, it) /\ ~ In (include it) (keys p) /\ In y (s2 p) /\ include it = normalized_source (fix_path (prefix p) y).
Proof.
  intros cm p items customs it G I. destruct (generate_items cm p items customs G) as (l & gi & PL & FI & PI & _). apply (Permutation_in it PI) in I. apply in_map_iff in I. destruct I as ([g x] & E & I). cbn [snd] in E. subst x.
  assert (Z : exists f, In f (filter (fun s => negb (mem s (keys p))) l) /\ item_of p (rest p) f = inl (g, it)).
  { clear - FI I. induction FI as [|f y fl gl H K IH]; [destruct I|]. destruct I as [->|I]; [exists f; split; [left; reflexivity|exact H]|destruct (IH I) as (f' & A & B); exists f'; split; [right; exact A|exact B]]. }
  destruct Z as (f & J & H). pose proof (item_include _ _ _ _ _ H) as E. subst f. apply filter_In in J. destruct J as [J K]. apply negb_true_iff in K. apply (Permutation_in _ PL) in J. apply (proj1 (in_flat_map _ _ _)) in J. destruct J as (y & J & Q).
  exists g, y. split; [exact H|]. split; [apply mem_false; exact K|]. split; [exact J|]. unfold kept in Q. destruct (mem (normalized_source (fix_path (prefix p) y)) (fully p)); [destruct (list_excluded p); [|destruct Q]|]; destruct Q as [Q|[]]; auto.
Qed.
Lemma excluded_all : forall p f, no_precompiled p -> f <> "." -> In f (rest p) -> excluded_in p (rest p) f = configurations p.
Proof.
  intros p f N D I. unfold excluded_in. rewrite (proj2 (mem_In _ _) I). clear I. unfold no_precompiled in N. induction (configurations p) as [|c l IH]; [reflexivity|]. inversion N as [|? ? N1 N2]; subst. cbn [filter]. rewrite N1. cbn [map].
  assert (E : fix_path (prefix p) "" = ".") by (unfold fix_path; change (String.eqb "" "") with true; cbn [negb]; rewrite andb_false_r; reflexivity). rewrite E. assert (X : mem f ["."; "."] = false) by (apply mem_false; intros [Q|[Q|[]]]; congruence). rewrite X. cbn [negb]. rewrite (IH N2). reflexivity.
Qed.
Lemma only : forall cm p items customs it, generate cm p = inl (items, customs) -> way (prefix p) -> rules p = [] -> no_precompiled p -> gyp_name (gyp_file p) -> Forall (fun c => ~ In "" (files c)) (copies p) ->
  In it items -> element it = "ClCompile" -> excluded it = false -> relative (include it) ->
  exists s, meant p s /\ ~ taken p s /\ forall here, leads here (include it) = leads (leads here (prefix p)) s.
Proof.
  intros cm p items customs it G C R NP GN CP I EL EX RI. destruct (item_origin _ _ _ _ _ G I) as (g & y & H & NK & IS & E). set (f := include it) in *.
  assert (CF : compiles f). { unfold item_of in H. destruct (source_type p f) as [g' el] eqn:ST. assert (el = "ClCompile") by (destruct (Nat.eqb _ _); [injection H as _ H; rewrite <- H in EL; exact EL|destruct (excluded_in p (rest p) f); [injection H as _ H; rewrite <- H in EL; exact EL|discriminate]]). subst el. exact (type_compiles p f g' R ST). }
  assert (FD : f <> ".") by (intros Q; rewrite Q in CF; exact (dot_compiles CF)).
  destruct (entry _ y f C RI (eq_sym E)) as [Q|[My Fy]]; [contradiction|].
  assert (NE : ~ In f (map (fix_path (prefix p)) (e2 p))).
  { intros Q. assert (J : In f (rest p)) by (apply filter_In; split; [exact Q|]; apply mem_false in NK; rewrite NK; reflexivity). unfold item_of in H. rewrite (excluded_all p f NP FD J), Nat.eqb_refl in H. destruct (source_type p f). injection H as _ H. rewrite <- H in EX. discriminate EX. }
  assert (K : forall k, fix_path (prefix p) k = f -> ~ In k (map fst (attached p))) by (intros k Q J; apply NK; unfold keys; rewrite <- Q; apply in_map; exact J).
  assert (NI : forall z, fix_path (prefix p) z = f -> ~ In z (e2 p)) by (intros z Q J; apply NE; rewrite <- Q; apply in_map; exact J).
  apply s2_sets in IS; [|rewrite R; constructor]. destruct IS as [(x & -> & GV)|[[_ ->]|IX]].
  - destruct (norm_back x My) as (Bx & Dx & Nx & Sx).
    assert (PL : forall i, local i -> same_place p i x -> fix_path (prefix p) i = f /\ fix_path (prefix p) (normalized_source i) = f).
    { intros i Li Si. apply local_movable in Li. assert (Fi : fix_path (prefix p) i = f) by (rewrite <- Fy; apply fix_same; [exact C|exact Li|exact My|]; intros here; rewrite Si; apply Sx). split; [exact Fi|].
      assert (Mi : movable (normalized_source i)).
      { pose proof Li as (Ni & Di & Bi). rewrite (normalized_bare i Bi Di). destruct (show_start (pieces i) (pieces_no_sep i)) as (S1 & S2). split; [exact S1|]. split; [apply has_show; [discriminate|discriminate|]; intros z Iz; exact (pieces_char "$" i z Iz Di)|]. split; [exact S2|].
        intros a r Q. assert (HC : has_char ":" (show (canon (pieces i))) = true) by (rewrite Q; cbn [has_char]; destruct (Ascii.eqb a ":"); reflexivity).
        destruct (canon_shape (pieces i)) as (k & n & CS & O). assert (HN : existsb (has_char ":") n = true).
        { rewrite CS in HC. unfold show in HC. destruct (repeat ".." k ++ n)%list eqn:Z; [discriminate HC|]. rewrite <- Z in HC. rewrite has_join in HC by discriminate. rewrite existsb_app in HC. apply orb_true_iff in HC. destruct HC as [HC|HC]; [|exact HC]. apply existsb_exists in HC. destruct HC as (z & Iz & Hz). apply repeat_spec in Iz. subst z. discriminate Hz. }
        assert (CF' : canon (pieces (prefix p) ++ pieces i) = (canon (pieces (prefix p) ++ repeat ".." k) ++ n)%list).
        { rewrite <- canon_names by (intros c J; apply O; exact J). rewrite <- app_assoc. rewrite <- CS. apply canon_eq; [|intros here; rewrite !walk_app, walk_canon; reflexivity]. intros z [Iz|Iz] ->; [apply all_pieces_ok in Iz; destruct Iz as [_ Iz]; discriminate Iz|]. apply in_app_or in Iz. destruct Iz as [Iz|Iz]; [apply pieces_no_sep in Iz; destruct Iz as [_ Iz]; discriminate Iz|]. destruct (canon_ok _ (pieces_no_sep i) _ Iz) as (_ & Z & _). discriminate Z. }
        assert (HF : has_char ":" f = true). { rewrite <- Fi, (fix_movable _ _ C Li), CF'. unfold show. destruct (canon (pieces (prefix p) ++ repeat ".." k) ++ n)%list eqn:Z; [apply app_eq_nil in Z; destruct Z as [_ ->]; discriminate HN|]. rewrite <- Z, has_join by discriminate. rewrite existsb_app, HN. apply orb_true_r. }
        destruct RI as [_ RI]. fold f in RI. congruence. }
      rewrite <- Fi. apply fix_same; [exact C|exact Mi|exact Li|]. intros here. destruct (norm_back i Mi) as (_ & _ & _ & Z). symmetry. apply Z. }
    destruct GV as [MT|[(a & Ia & Ix)|(c & Ic & Ix)]].
    + exists x. split; [exact MT|]. split.
      * intros (i & Li & Si & W). destruct (PL i Li Si) as (Fi & Fn). destruct W as [W|[(a & Ia & [W|[W ->]])|(c & Ic & W)]].
        -- apply (NI i Fi). apply e2_all; [exact R|left; exact W].
        -- apply (NI _ Fn). apply e2_all; [exact R|]. right. exists a, i. auto.
        -- apply (K _ Fi). apply attached_keys. left. exists a. auto.
        -- apply (K _ Fi). apply attached_keys. right. exists c. auto.
      * intros here. rewrite <- Fy, leads_fix by assumption. symmetry. apply Sx.
    + exfalso. apply (NI _ Fy). apply e2_all; [exact R|]. right. exists a, x. auto.
    + exfalso. assert (Nx' : x <> "") by (intros ->; rewrite Forall_forall in CP; exact (CP c Ic Ix)). assert (Mx : movable x) by (split; [|split]; assumption). destruct (PL x (proj2 (local_movable x) Mx)) as (Fx & _); [intros here; reflexivity|]. apply (K _ Fx). apply attached_keys. right. exists c. auto.
  - exfalso. rewrite <- Fy in CF. exact (gyp_not _ _ C GN CF).
  - exfalso. apply (NI _ Fy). apply e2_all; [exact R|left; exact IX].
Qed.

(** ** the names of objects *)
Lemma compiles_parts : forall k names, (forall c, In c names -> c <> "" /\ c <> "." /\ c <> ".." /\ has_char "/" c = false /\ has_char "\" c = false) -> compiles (show (repeat ".." k ++ names)) ->
  exists m n x, names = (m ++ [(n ++ "." ++ x)%string])%list /\ nt_splitext (show (repeat ".." k ++ names)) = (join_bs (repeat ".." k ++ m ++ [n]), "." ++ x) /\ Model_Writer.only_dots n = false /\ has_char "." x = false.
Proof.
  intros k names O C. assert (Q : forall m y, show (m ++ [y]) = join_bs (m ++ [y])) by (intros [|z m] y; reflexivity). destruct (exists_last (l := repeat ".." k ++ names)%list) as (m0 & y & E).
  { intros E. rewrite E in C. exact (dot_compiles C). }
  rewrite E, Q in C. assert (Sy : has_char "/" y = false /\ has_char "\" y = false).
  { assert (I : In y (repeat ".." k ++ names)) by (rewrite E; apply in_or_app; right; left; reflexivity). apply in_app_or in I. destruct I as [I|I]; [apply repeat_spec in I; subst y; split; reflexivity|apply O; exact I]. }
  destruct Sy as [S1 S2]. assert (P : nt_splitext (join_bs (m0 ++ [y])) = match rsplit1 "." y with Some (r, e) => if Model_Writer.only_dots r then (join_bs (m0 ++ [y]), "") else (join_bs (m0 ++ [r]), "." ++ e) | None => (join_bs (m0 ++ [y]), "") end).
  { unfold nt_splitext. rewrite !join_snoc. destruct m0 as [|a m0]; [rewrite (rsplit_none _ S1 S2); destruct (rsplit1 "." y) as [[r e]|]; reflexivity|]. rewrite (rsplit_app _ "\" _ eq_refl S1 S2). destruct (rsplit1 "." y) as [[r e]|]; [|reflexivity]. rewrite join_snoc, append_assoc. reflexivity. }
  destruct (rsplit1 "." y) as [[n x]|] eqn:RS; [|exfalso; apply (not_compiles (join_bs (m0 ++ [y]))); [left; rewrite P; reflexivity|exact C]]. destruct (Model_Writer.only_dots n) eqn:D; [exfalso; apply (not_compiles (join_bs (m0 ++ [y]))); [left; rewrite P; reflexivity|exact C]|].
  apply rsplit1_Some in RS. destruct RS as [-> X]. destruct names as [|z names] using rev_ind.
  - exfalso. rewrite app_nil_r in E. assert (I : In (n ++ String "." x) (repeat ".." k)) by (rewrite E; apply in_or_app; right; left; reflexivity). apply repeat_spec in I. destruct (dots_name n x D) as (_ & _ & N). exact (N I).
  - clear IHnames. rewrite app_assoc in E. apply app_inj_tail in E. destruct E as [<- ->]. exists names, n, x. split; [reflexivity|]. split; [|split; assumption]. rewrite app_assoc, Q, P. rewrite app_assoc. reflexivity.
Qed.
Fixpoint ups (k : nat) (s : string) : string := match k with O => s | S k => "..\" ++ ups k s end.
Lemma join_ups : forall k l, l <> [] -> join_bs (repeat ".." k ++ l) = ups k (join_bs l).
Proof.
  induction k as [|k IH]; intros l N; [reflexivity|]. cbn [repeat app ups]. rewrite join_cons, (IH l N). destruct (repeat ".." k ++ l)%list eqn:E; [|reflexivity]. destruct l; [contradiction|]. destruct k; discriminate E.
Qed.
Lemma skip_none : forall fuel s, (forall r, s <> "..\" ++ r) -> skip_ups fuel s = s.
Proof.
  intros [|fuel] s N; [reflexivity|]. cbn [skip_ups]. destruct s as [|a [|b [|c s]]]; try reflexivity. destruct (Ascii.eqb_spec a ".") as [->|]; [|reflexivity]. destruct (Ascii.eqb_spec b ".") as [->|]; [|reflexivity]. destruct (Ascii.eqb_spec c "\") as [->|]; [|reflexivity]. exfalso. exact (N s eq_refl).
Qed.
Lemma skip_ups_all : forall k fuel s, k <= fuel -> (forall r, s <> "..\" ++ r) -> skip_ups fuel (ups k s) = s.
Proof.
  induction k as [|k IH]; intros fuel s L N; [apply skip_none; exact N|]. destruct fuel as [|fuel]; [lia|]. cbn [ups append skip_ups]. change (Ascii.eqb "." ".") with true. change (Ascii.eqb "\" "\") with true. cbn [andb]. apply IH; [lia|exact N].
Qed.
Lemma ups_length : forall k s, k <= String.length (ups k s).
Proof. induction k as [|k IH]; intros s; [lia|]. cbn [ups]. rewrite slen_app. specialize (IH s). cbn [String.length]. lia. Qed.
Lemma object_of : forall k l f x, l <> [] -> (forall c, In c l -> c <> ".." /\ c <> "" /\ has_char "/" c = false /\ has_char "\" c = false /\ has_char "$" c = false) ->
  nt_splitext f = (join_bs (repeat ".." k ++ l), x) -> (forall m n, l = (m ++ [n])%list -> n ++ ".obj" <> "..") -> exists m n, l = (m ++ [n])%list /\ object_file f = "$(IntDir)\" ++ join_bs (m ++ [(n ++ ".obj")%string]).
Proof.
  intros k l f x N O E D. destruct (exists_last N) as (m & n & ->). exists m, n. split; [reflexivity|]. unfold object_file. rewrite E. cbn [fst].
  assert (J : join_bs (repeat ".." k ++ m ++ [n]) ++ ".obj" = ups k (join_bs (m ++ [(n ++ ".obj")%string]))).
  { rewrite <- join_ups by (destruct m; discriminate). rewrite !app_assoc, !join_snoc. destruct (repeat ".." k ++ m)%list; [reflexivity|]. rewrite append_assoc. reflexivity. }
  rewrite J. set (t := join_bs (m ++ [(n ++ ".obj")%string])). assert (S : forall c, In c (m ++ [(n ++ ".obj")%string]) -> has_char "/" c = false /\ has_char "\" c = false).
  { intros c I. apply in_app_or in I. destruct I as [I|[<-|[]]]; [destruct (O c) as (_ & _ & A & B & _); [apply in_or_app; auto|auto]|]. destruct (O n) as (_ & _ & A & B & _); [apply in_or_app; right; left; reflexivity|]. rewrite !has_char_app, A, B. split; reflexivity. }
  assert (T : forall r, t <> "..\" ++ r).
  { intros r Q. assert (P : pieces t = (m ++ [(n ++ ".obj")%string])%list) by (apply pieces_join; [destruct m; discriminate|exact S]). rewrite Q in P. change ("..\" ++ r) with (".." ++ String "\" r) in P. rewrite pieces_sep in P by reflexivity. change (pieces "..") with [".."] in P. cbn [app] in P. destruct m as [|c m]; cbn [app] in P; injection P as P _; [exact (D [] n eq_refl (eq_sym P))|]. destruct (O c (or_introl eq_refl)) as (A & _). congruence. }
  f_equal. destruct k as [|k].
  - cbn [ups]. destruct (String.prefix "..\" t) eqn:P; [apply Proof_Make.prefix_split in P; destruct P as (r & P); exfalso; exact (T r P)|]. destruct (String.prefix "$(" t) eqn:P'; [|reflexivity]. exfalso. apply Proof_Make.prefix_split in P'. destruct P' as (r & P'). assert (K : has_char "$" t = true) by (rewrite P'; reflexivity).
    unfold t in K. rewrite has_join in K by discriminate. apply existsb_exists in K. destruct K as (c & I & K). apply in_app_or in I. destruct I as [I|[<-|[]]]; [destruct (O c) as (_ & _ & _ & _ & B); [apply in_or_app; auto|congruence]|]. rewrite has_char_app in K. destruct (O n) as (_ & _ & _ & _ & B); [apply in_or_app; right; left; reflexivity|]. rewrite B in K. discriminate K.
  - assert (P : String.prefix "..\" (ups (Datatypes.S k) t) = true) by (cbn [ups]; apply Proof_Suffix.prefix_app). rewrite P. apply skip_ups_all; [apply ups_length|exact T].
Qed.
Lemma item_object : forall p e f g it o, item_of p e f = inl (g, it) -> object_name it = Some o -> compiles f /\ o = object_file f.
Proof.
  intros p e f g it o. unfold item_of. destruct (source_type p f) as [g' el] eqn:ST. intros H OB. assert (X : (match g' with G_compile => if nt_isabs f then None else Some (object_file f) | _ => None end) = Some o) by (destruct (Nat.eqb _ _); [injection H as _ H; rewrite <- H in OB; exact OB|destruct (excluded_in p e f); [injection H as _ H; rewrite <- H in OB; exact OB|discriminate]]).
  destruct g'; try discriminate. destruct (nt_isabs f); [discriminate|]. injection X as <-. split; [|reflexivity]. exact (group_compiles p f el ST).
Qed.
Lemma below_names : forall s, below s -> exists n, canon (pieces s) = n /\ forall c, In c n -> In c (pieces s) /\ c <> "" /\ c <> "." /\ c <> "..".
Proof.
  intros s B. destruct (canon_shape (pieces s)) as (k & n & E & O). destruct k as [|k]; [exists n; auto|]. exfalso. apply B. assert (I : In ".." (canon (pieces s))) by (rewrite E; left; reflexivity). unfold canon in I. apply in_rev in I. apply norm_comps_subset in I. destruct I as [[]|I]. exact I.
Qed.
Lemma below_canon : forall l, ~ In ".." l -> forall c, In c (canon l) -> In c l /\ c <> "" /\ c <> "." /\ c <> "..".
Proof.
  intros l B. destruct (canon_shape l) as (k & n & E & O). destruct k as [|k]; [rewrite E; exact O|]. exfalso. apply B. assert (I : In ".." (canon l)) by (rewrite E; left; reflexivity). unfold canon in I. apply in_rev in I. apply norm_comps_subset in I. destruct I as [[]|I]. exact I.
Qed.
Lemma object_parts : forall cm p items customs it o s e, generate cm p = inl (items, customs) -> way (prefix p) -> In it items -> relative (include it) -> object_name it = Some o ->
  relative s -> below s -> has_extension s e -> (forall here, leads here (include it) = leads (leads here (prefix p)) s) ->
  exists k ds m n, canon (pieces (prefix p)) = (repeat ".." k ++ ds)%list /\ (forall c, In c ds -> c <> "" /\ c <> "." /\ c <> "..") /\ o = "$(IntDir)\" ++ join_bs (ds ++ m ++ [(n ++ ".obj")%string]) /\
    (forall c, In c (ds ++ m ++ [(n ++ ".obj")%string]) -> has_char "/" c = false /\ has_char "\" c = false) /\ same_file s (join_bs (m ++ [n]) ++ e).
Proof.
  intros cm p items customs it o s e G C I RI OB RS B HE L. destruct (item_origin _ _ _ _ _ G I) as (g & y & H & _ & _ & E). set (f := include it) in *. destruct (item_object _ _ _ _ _ _ H OB) as (CF & ->). pose proof (relative_movable s RS) as M.
  destruct (extension_pieces s e HE) as (ms & n & x & PS & -> & D & X & SEP). destruct (dots_name n x D) as (N1 & N2 & N3).
  assert (BM : forall c, In c (canon ms) -> In c ms /\ c <> "" /\ c <> "." /\ c <> "..") by (apply below_canon; intros J; apply B; rewrite PS; apply in_or_app; left; exact J).
  destruct (canon_shape (pieces (prefix p))) as (k & ds & CP & DO). set (names := (ds ++ canon ms ++ [(n ++ "." ++ x)%string])%list).
  assert (NN : forall c, In c names -> c <> "" /\ c <> "." /\ c <> ".." /\ has_char "/" c = false /\ has_char "\" c = false).
  { intros c J. unfold names in J. apply in_app_or in J. destruct J as [J|J]; [destruct (DO c J) as (J' & ?); apply pieces_no_sep in J'; tauto|]. apply in_app_or in J. destruct J as [J|[<-|[]]].
    - destruct (BM c J) as (J' & ?). assert (J2 : In c (pieces s)) by (rewrite PS; apply in_or_app; left; exact J'). apply pieces_no_sep in J2. tauto.
    - pose proof (SEP "/"%char eq_refl). pose proof (SEP "\"%char eq_refl). auto. }
  assert (F : f = show (repeat ".." k ++ names)).
  { rewrite E in *. destruct (norm_back _ (relative_movable _ RI)) as (_ & _ & F & _). rewrite F in *. f_equal. set (u := pieces (fix_path (prefix p) y)) in *. rewrite <- (canon_id k names) by (intros c J; destruct (NN c J) as (? & ? & ? & _); auto). apply canon_eq.
    - intros z [Iz|Iz] ->; [apply pieces_no_sep in Iz; destruct Iz as [_ Iz]; discriminate Iz|]. apply in_app_or in Iz. destruct Iz as [Iz|Iz]; [apply repeat_spec in Iz; discriminate Iz|]. destruct (NN _ Iz) as (_ & _ & _ & _ & Q). discriminate Q.
    - intros here. specialize (L here). rewrite (walk_pieces_show here u (pieces_no_sep _)) in L. rewrite L. unfold leads, names. rewrite app_assoc, <- CP, PS, !walk_app, !walk_canon. reflexivity. }
  rewrite F in CF. destruct (compiles_parts k names NN CF) as (m0 & n0 & x0 & EQ & SP & D0 & X0). rewrite <- F in SP.
  unfold names in EQ. rewrite app_assoc in EQ. apply app_inj_tail in EQ. destruct EQ as [EM EN].
  assert (n0 = n). { assert (Q : rsplit1 "." (n ++ "." ++ x) = Some (n, x)) by (apply rsplit1_Some; split; [reflexivity|exact X]). assert (Q' : rsplit1 "." (n0 ++ "." ++ x0) = Some (n0, x0)) by (apply rsplit1_Some; split; [reflexivity|exact X0]). rewrite EN in Q. congruence. } subst n0 m0.
  assert (DP : has_char "$" (prefix p) = false) by (destruct C as [->|(_ & _ & Z & _)]; [reflexivity|exact Z]).
  assert (OK : forall c, In c ((ds ++ canon ms) ++ [n]) -> c <> ".." /\ c <> "" /\ has_char "/" c = false /\ has_char "\" c = false /\ has_char "$" c = false).
  { intros c J. apply in_app_or in J. destruct J as [J|[<-|[]]].
    - assert (J' : In c names) by (unfold names; rewrite app_assoc; apply in_or_app; left; exact J). destruct (NN c J') as (A1 & A2 & A3 & A4 & A5). assert (DC : has_char "$" c = false); [|auto]. apply in_app_or in J. destruct J as [J|J].
      + apply (pieces_char "$" (prefix p)); [apply DO; exact J|exact DP].
      + apply (pieces_char "$" s); [|apply RS]. rewrite PS. apply in_or_app. left. apply BM. exact J.
    - assert (J' : In (n ++ "." ++ x) names) by (unfold names; apply in_or_app; right; apply in_or_app; right; left; reflexivity). destruct (NN _ J') as (_ & _ & _ & A4 & A5). assert (DS : has_char "$" (n ++ "." ++ x) = false) by (apply (pieces_char "$" s); [rewrite PS; apply in_or_app; right; left; reflexivity|apply RS]). rewrite !has_char_app in A4, A5, DS. apply orb_false_iff in A4, A5, DS. split; [intros ->; discriminate D|]. split; [intros ->; discriminate D|]. tauto. }
  destruct (object_of k ((ds ++ canon ms) ++ [n]) f ("." ++ x0)) as (m' & n' & EQ' & OF).
  { destruct (ds ++ canon ms)%list; discriminate. }
  { exact OK. }
  { exact SP. }
  { intros m' n' _ Q. apply (f_equal String.length) in Q. rewrite slen_app in Q. cbn in Q. lia. }
  apply app_inj_tail in EQ'. destruct EQ' as [<- <-]. exists k, ds, (canon ms), n. split; [exact CP|]. split; [intros c J; apply DO; exact J|]. split; [rewrite app_assoc; exact OF|]. split.
  - intros c J. rewrite app_assoc in J. apply in_app_or in J. destruct J as [J|[<-|[]]]; [destruct (OK c) as (_ & _ & A & B' & _); [apply in_or_app; auto|auto]|]. destruct (OK n) as (_ & _ & A & B' & _); [apply in_or_app; right; left; reflexivity|]. rewrite !has_char_app, A, B'. split; reflexivity.
  - assert (JX : join_bs (canon ms ++ [n]) ++ "." ++ x = join_bs (canon ms ++ [(n ++ "." ++ x)%string])) by (rewrite !join_snoc; destruct (canon ms); [reflexivity|]; rewrite append_assoc; reflexivity).
    assert (PN : pieces (join_bs (canon ms ++ [(n ++ "." ++ x)%string])) = (canon ms ++ [(n ++ "." ++ x)%string])%list) by (apply pieces_join; [destruct (canon ms); discriminate|intros c J; apply NN; unfold names; apply in_or_app; right; exact J]).
    intros here. rewrite JX. unfold leads. rewrite PN, PS, !walk_app, walk_canon. reflexivity.
Qed.
Lemma shape_unique : forall k ds k' ds', (forall c, In c ds -> c <> "" /\ c <> "." /\ c <> "..") -> (forall c, In c ds' -> c <> "" /\ c <> "." /\ c <> "..") -> (repeat ".." k ++ ds)%list = (repeat ".." k' ++ ds')%list -> ds = ds'.
Proof.
  induction k as [|k IH]; intros ds [|k'] ds' O O' E; cbn [repeat app] in E.
  - exact E.
  - exfalso. rewrite E in O. destruct (O ".." (or_introl eq_refl)) as (_ & _ & N). exact (N eq_refl).
  - exfalso. rewrite <- E in O'. destruct (O' ".." (or_introl eq_refl)) as (_ & _ & N). exact (N eq_refl).
  - injection E as E. exact (IH ds k' ds' O O' E).
Qed.
Lemma objects : forall cm p items customs a b o s t e e', generate cm p = inl (items, customs) -> way (prefix p) -> In a items -> In b items -> relative (include a) -> relative (include b) -> object_name a = Some o -> object_name b = Some o ->
  relative s -> below s -> has_extension s e -> (forall here, leads here (include a) = leads (leads here (prefix p)) s) ->
  relative t -> below t -> has_extension t e' -> (forall here, leads here (include b) = leads (leads here (prefix p)) t) ->
  exists stem, same_file s (stem ++ e) /\ same_file t (stem ++ e').
Proof.
  intros cm p items customs a b o s t e e' G C A B RA RB OA OB RS BS XS LS RT BT XT LT. destruct (object_parts _ _ _ _ _ _ _ _ G C A RA OA RS BS XS LS) as (k & ds & m & n & CP & DO & E & S & SF). destruct (object_parts _ _ _ _ _ _ _ _ G C B RB OB RT BT XT LT) as (k' & ds' & m' & n' & CP' & DO' & E' & S' & SF').
  rewrite CP in CP'. apply shape_unique in CP'; [|assumption|assumption]. subst ds'.
  rewrite E in E'. apply append_inj_l in E'. assert (P : pieces (join_bs (ds ++ m ++ [(n ++ ".obj")%string])) = pieces (join_bs (ds ++ m' ++ [(n' ++ ".obj")%string]))) by (rewrite E'; reflexivity). rewrite !pieces_join in P by (try assumption; destruct ds, m, m'; discriminate). apply app_inv_head in P. apply app_inj_tail in P. destruct P as [<- P].
  assert (N : n = n') by (assert (Q : rsplit1 "." (n ++ ".obj") = Some (n, "obj")) by (apply rsplit1_Some; split; reflexivity); assert (Q' : rsplit1 "." (n' ++ ".obj") = Some (n', "obj")) by (apply rsplit1_Some; split; reflexivity); rewrite P in Q; congruence). subst n'.
  exists (join_bs (m ++ [n])). auto.
Qed.

(** ** there is a project *)
Inductive chainy : tree -> Prop := chain_file f : chainy (File f) | chain_filter n c : chainy c -> chainy (Filter n [c]).
Lemma one_folder_all : forall l t, one_folder l = true -> In t l -> exists n c, hd (File "") l = Filter n c /\ exists c', t = Filter n c'.
Proof.
  intros l t. destruct l as [|[f|n c] l]; try discriminate. cbn [one_folder hd]. intros F [<-|I]; [exists n, c; split; [reflexivity|exists c; reflexivity]|]. rewrite forallb_forall in F. specialize (F t I). destruct t as [f|m c']; cbn [folder_name] in F; [discriminate|]. apply String.eqb_eq in F. subst m. exists n, c. split; [reflexivity|exists c'; reflexivity].
Qed.
Lemma deepest_In : forall l t, In t l -> depth t <= deepest l.
Proof. intros l t. unfold deepest. induction l as [|a l IH]; [intros []|]. cbn [fold_right]. intros [->|I]; [lia|]. specialize (IH I). lia. Qed.
Lemma deepest_le : forall l n, (forall t, In t l -> depth t <= n) -> deepest l <= n.
Proof. intros l n. unfold deepest. induction l as [|a l IH]; intros H; [cbn; lia|]. cbn [fold_right]. pose proof (H a (or_introl eq_refl)). specialize (IH (fun t I => H t (or_intror I))). lia. Qed.
Lemma prune_chains : forall fuel l, (forall t, In t l -> chainy t) -> deepest l <= fuel -> exists t, prune fuel l = inl t.
Proof.
  induction fuel as [|fuel IH]; intros l H D; cbn [prune]; (destruct (one_folder l) eqn:O; [|exists l; reflexivity]).
  - exfalso. destruct l as [|t l]; [discriminate|]. destruct (one_folder_all _ t O (or_introl eq_refl)) as (n & c & E & _). cbn in E. subst t. pose proof (deepest_In (Filter n c :: l) (Filter n c) (or_introl eq_refl)) as L. cbn [depth] in L. lia.
  - assert (F : forallb (fun t => match t with Filter _ [_] => true | _ => false end) l = true).
    { apply forallb_forall. intros t I. destruct (one_folder_all _ t O I) as (n & c & _ & c' & ->). specialize (H _ I). inversion H; subst. reflexivity. }
    rewrite F. apply IH.
    + intros t I. apply (proj1 (in_flat_map _ _ _)) in I. destruct I as (u & I & J). specialize (H u I). inversion H; subst; [destruct J|]. destruct J as [<-|[]]. assumption.
    + apply deepest_le. intros t I. apply (proj1 (in_flat_map _ _ _)) in I. destruct I as (u & I & J). pose proof (H u I) as Hu. inversion Hu as [|n c Hc]; subst; [destruct J|]. destruct J as [<-|[]]. pose proof (deepest_In l _ I) as L. cbn [depth fold_right] in L. lia.
Qed.
Lemma below_chainy : forall e comps pre t, In t (convert_below e true pre comps) -> chainy t.
Proof.
  intros e. induction comps as [|x comps IH]; intros pre t; cbn [convert_below]; [intros []|]. destruct comps as [|y comps].
  - destruct (mem _ e); intros [<-|[]]; repeat constructor.
  - intros [<-|[]]. destruct (convert_below e true (pre ++ [x]) (y :: comps)) as [|c r] eqn:E.
    + exfalso. assert (Z : forall comps pre, comps <> [] -> convert_below e true pre comps <> []) by (clear; intros [|x [|y c]] pre N; [contradiction|cbn [convert_below]; destruct (mem _ e); discriminate|discriminate]). exact (Z (y :: comps) (pre ++ [x])%list ltac:(discriminate) E).
    + assert (r = []). { assert (Z : forall comps pre c r, convert_below e true pre comps = c :: r -> r = []) by (clear; intros [|x [|y c0]] pre c r; cbn [convert_below]; [discriminate|destruct (mem _ e); intros H; injection H as _ <-; reflexivity|intros H; injection H as _ <-; reflexivity]). exact (Z _ _ _ _ E). } subst r.
      constructor. apply (IH (pre ++ [x])%list). rewrite E. left. reflexivity.
Qed.
Lemma split_join : forall l, l <> [] -> (forall x, In x l -> has_char "/" x = false /\ has_char "\" x = false) -> split_char "\" (join_bs l) = l.
Proof.
  intros l N S. rewrite <- (pieces_join l N S) at 2. rewrite pieces_split. f_equal. symmetry. apply replace_char_none. rewrite has_join by discriminate. destruct (existsb (has_char "/") l) eqn:E; [|reflexivity]. apply existsb_exists in E. destruct E as (x & I & E). destruct (S x I). congruence.
Qed.
Lemma written : forall cm p, way (prefix p) -> prefix p <> "" -> standalone p = false -> list_excluded p = true -> gyp_name (gyp_file p) -> no_precompiled p -> exists items customs, generate cm p = inl (items, customs).
Proof.
  intros cm p C NP ST LE GN PR. unfold generate, hierarchy. destruct (adjust_rules p (prepare p)) as [s e] eqn:A. assert (E2 : update e (update [] (sources_excluded p)) = e2 p) by (unfold e2; rewrite A; reflexivity). assert (S2 : update s (e2 p) = s2 p) by (unfold s2; rewrite A; reflexivity). rewrite E2, S2. fold (fully p). rewrite LE.
  set (t := convert (fully p) true _). assert (P : exists t', prune (deepest t) t = inl t').
  { unfold t, convert. set (ch := map (split_char "\") (map (fix_path (prefix p)) (s2 p))). set (folder := flat_map (top_excluded (fully p)) ch).
    assert (CH : forall u, In u (flat_map (convert_top (fully p) true) ch) -> chainy u).
    { intros u I. apply (proj1 (in_flat_map _ _ _)) in I. destruct I as (c & _ & I). unfold convert_top in I. destruct c as [|x [|y c]]; [destruct I|destruct (mem _ _); [destruct I|destruct I as [<-|[]]; constructor]|exact (below_chainy _ _ _ _ I)]. }
    destruct folder as [|x fl] eqn:FO; [rewrite app_nil_r; apply prune_chains; [exact CH|lia]|].
    assert (IG : In (gyp_file p) (s2 p)).
    { rewrite <- S2. apply update_In. left. assert (Z : forall s e y, In y s -> In y (fst (adjust_rules p (s, e)))).
      { clear. unfold adjust_rules. generalize (rules p). intros l. induction l as [|r l IH]; intros s e y I; [exact I|]. cbn [fold_left]. assert (Z : forall tr s e, In y s -> exists s' e', fold_left (adjust_trigger (prefix p) r) tr (s, e) = (s', e') /\ In y s').
        { induction tr as [|x tr IHt]; intros s0 e0 J; [exists s0, e0; auto|]. cbn [fold_left]. unfold adjust_trigger at 2. destruct (rule_as_sources r); [|apply IHt; exact J]. unfold rule_io. apply IHt. rewrite !update_In. auto. }
        destruct (Z (rule_sources r) s e I) as (s' & e' & -> & J). apply IH. exact J. }
      specialize (Z (fst (prepare p)) (snd (prepare p)) (gyp_file p)). rewrite <- surjective_pairing, A in Z. apply Z. apply prepare_sets. right. auto. }
    destruct (gyp_fix _ _ C GN) as (M & l & E & U). destruct (U NP) as (l' & ->).
    assert (IT : In (Filter ".." (convert_below (fully p) true [".."] (l' ++ [gyp_file p]))) (flat_map (convert_top (fully p) true) ch)).
    { apply in_flat_map. exists (".." :: l' ++ [gyp_file p])%list. split.
      - unfold ch. rewrite map_map. apply in_map_iff. exists (gyp_file p). split; [|exact IG]. rewrite (fix_movable _ _ C M), E. cbn [app show]. apply split_join; [discriminate|]. intros z I. assert (I' : In z (canon (pieces (prefix p) ++ pieces (gyp_file p)))) by (rewrite E; exact I). destruct (canon_ok _ (all_pieces_ok _ _) z I') as (Z1 & Z2 & _). auto.
      - unfold convert_top. destruct (l' ++ [gyp_file p])%list as [|z zs] eqn:Q; [destruct l'; discriminate|]. left. reflexivity. }
    set (tt := (flat_map (convert_top (fully p) true) ch ++ [Filter "_excluded_files" (map File (x :: fl))])%list).
    assert (O : one_folder tt = false).
    { destruct (one_folder tt) eqn:O; [|reflexivity]. exfalso. destruct (one_folder_all tt _ O (in_or_app _ _ _ (or_introl IT))) as (n & c & H1 & c1 & H2). assert (IE : In (Filter "_excluded_files" (map File (x :: fl))) tt) by (apply in_or_app; right; left; reflexivity). destruct (one_folder_all tt _ O IE) as (n' & c' & H1' & c1' & H2'). rewrite H1 in H1'. injection H1' as <- _. injection H2 as <- _. discriminate H2'. }
    exists tt. destruct (deepest tt); cbn [prune]; rewrite O; reflexivity. }
  destruct P as (t' & ->). rewrite customs_keys. fold (keys p). fold (rest p).
  assert (I : forall l, exists gi, items_of p (rest p) l = inl gi).
  { induction l as [|f l [gi IH]]; [exists []; reflexivity|]. cbn [items_of]. rewrite IH. assert (J : exists x, item_of p (rest p) f = inl x).
    { unfold item_of. destruct (source_type p f) as [g el]. assert (X : excluded_in p (rest p) f = configurations p \/ excluded_in p (rest p) f = []).
      { unfold excluded_in. destruct (mem f (rest p)); [|right; reflexivity]. unfold no_precompiled in PR. induction (configurations p) as [|c cs IHc]; [left; reflexivity|]. inversion PR as [|? ? P1 P2]; subst. cbn [filter]. rewrite P1. destruct (negb (mem f (map (fix_path (prefix p)) [""; ""]))) eqn:N; [left; f_equal|right].
        - clear IHc PR P1. induction cs as [|c' cs IHc]; [reflexivity|]. inversion P2 as [|? ? Q1 Q2]; subst. cbn [filter]. rewrite Q1, N. f_equal. exact (IHc Q2).
        - clear IHc PR P1. induction cs as [|c' cs IHc]; [reflexivity|]. inversion P2 as [|? ? Q1 Q2]; subst. cbn [filter]. rewrite Q1, N. exact (IHc Q2). }
      destruct X as [-> | ->]; [rewrite Nat.eqb_refl; eexists; reflexivity|]. destruct (Nat.eqb _ _); eexists; reflexivity. }
    destruct J as (x & ->). eexists. reflexivity. }
  destruct (I (filter (fun s0 => negb (mem s0 (keys p))) (flat_map leaves t'))) as (gi & ->). eexists. eexists. reflexivity.
Qed.

(** Above the .gyp file's directory there is one way to name a file. *)
Lemma climbs_way : forall s, climbs s -> way s.
Proof.
  intros s [->|C]; [left; reflexivity|]. right. pose proof (pieces_nonempty s) as N. assert (H : forall c, c <> "."%char -> is_sep c = false -> has_char c s = false).
  { intros c M S. assert (G : forall q, (forall x, In x (pieces q) -> has_char c x = false) -> has_char c q = false).
    { clear - S. induction q as [|a q IH]; intros A; [reflexivity|]. cbn [pieces has_char] in *. rewrite sep_bool in A. destruct (is_sep a) eqn:Q.
      - destruct (Ascii.eqb_spec a c) as [->|]; [congruence|]. apply IH. intros x I. apply A. right. exact I.
      - destruct (pieces q) as [|y l] eqn:P; [exfalso; exact (pieces_nonempty _ P)|]. pose proof (A _ (or_introl eq_refl)) as B. cbn [has_char] in B. destruct (Ascii.eqb a c); [discriminate|]. apply IH. intros x [<-|I]; [exact B|apply A; right; exact I]. }
    apply G. intros x I. rewrite (C x I). cbn [has_char]. destruct (Ascii.eqb_spec "." c) as [<-|]; [contradiction|reflexivity]. }
  split; [|split; [|split; [|split; [|split; [|split; [|split; [|split; [|split]]]]]]]]; try (apply H; [discriminate|reflexivity]).
  - destruct (pieces s) as [|a l] eqn:P; [contradiction|]. exists l. f_equal. apply C. left. reflexivity.
  - intros I. specialize (C _ I). discriminate C.
  - apply Forall_forall. intros x I. rewrite (C x I). reflexivity.
Qed.
Lemma climbs_one : forall p s, climbs (prefix p) -> one_spelling p s.
Proof. intros p s C x _ S. exact (climbs_place (prefix p) x s C S). Qed.
