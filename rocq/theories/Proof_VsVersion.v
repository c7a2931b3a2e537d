(** Proofs about the versions of Visual Studio. *)
From Verif Require Import Lib Str Model_Path Model_Vcxproj Model_VsVersion Spec_VsVersion.
Local Open Scope string_scope.

(** ** the table *)
Lemma assoc_in {B} (k : string) (l : list (string * B)) v : assoc k l = Some v -> In (k, v) l.
Proof.
  induction l as [|[k' v'] l IH]; cbn [assoc]; [discriminate|]. destruct (String.eqb_spec k k') as [->|]; intros H.
  - injection H as ->. left; reflexivity.
  - right; apply IH, H.
Qed.
Lemma assoc_none {B} (k : string) (l : list (string * B)) : assoc k l = None <-> ~ In k (map fst l).
Proof.
  induction l as [|[k' v'] l IH]; cbn [assoc map fst In]; [tauto|]. destruct (String.eqb_spec k k') as [->|n].
  - split; [discriminate|intros H; elim H; left; reflexivity].
  - rewrite IH. split; [intros H [E|E]; [apply n; symmetry; exact E|exact (H E)]|tauto].
Qed.
Lemma create_none name p sdk : create_version name p sdk = None <-> ~ In name known.
Proof.
  change known with (map fst versions). rewrite <- assoc_none. unfold create_version.
  destruct (assoc name versions) as [[[[[[[d s] q] f] u] t] k]|]; split; congruence.
Qed.
Lemma create_some name p sdk x : p <> Some "" -> create_version name p sdk = Some x -> is_version x name p sdk.
Proof.
  intros Np. unfold create_version. destruct (assoc name versions) as [[[[[[[d s] q] f] u] t] k]|] eqn:E; [|discriminate].
  apply assoc_in in E. intros H; injection H as <-.
  assert (P : match p with Some "" => Some "" | Some q => Some (nt_normpath q) | None => None end = option_map nt_normpath p)
    by (destruct p as [[|]|]; [elim Np; reflexivity|reflexivity..]).
  cbn [versions In] in E.
  repeat (destruct E as [E|E]; [injection E as <- <- <- <- <- <- <- <-; constructor; first [exact P|reflexivity|
    match goal with |- exists y, (?n = y \/ _) /\ _ => let z := eval vm_compute in (substring 0 4 n) in exists z end;
    split; [first [left; reflexivity|right; reflexivity]|cbn; tauto]]|]). destruct E.
Qed.
Lemma create_known name p sdk : In name known -> exists x, create_version name p sdk = Some x.
Proof.
  intros H. destruct (create_version name p sdk) eqn:E; [eexists; reflexivity|]. apply create_none in E. elim (E H).
Qed.

(** ** what is found *)
Lemma join_up p : nt_join p ".." <> "".
Proof. unfold nt_join. cbn. destruct (String.eqb p "" || ends_sep p); destruct p; discriminate. Qed.
Lemma up_not n p : up (S n) p <> "".
Proof. unfold up. cbn [Nat.iter nat_rect]. apply join_up. Qed.
Lemma value_spec m k v d : value_of m k v = Some d <-> d <> "" /\ registry m k v = Some d.
Proof.
  unfold value_of. destruct (registry m k v) as [[|a s]|]; split; try discriminate.
  - intros [n E]; injection E as <-; elim n; reflexivity.
  - intros E; injection E as <-; split; [discriminate|reflexivity].
  - intros [_ E]; exact E.
  - intros [_ E]; discriminate.
Qed.

(** What one source gives: nothing, or one version *)
Definition gives (name w : string) (sdk : bool) (r : option (list vs)) : Prop := r = one (create_version name (Some w) sdk) /\ w <> "".

Lemma all_none {A} (f : A -> option (list vs)) l : all f l = None <-> exists a, In a l /\ f a = None.
Proof.
  induction l as [|a l IH]; cbn [all In]; [split; [discriminate|intros [a [[] _]]]|].
  destruct (f a) as [u|] eqn:E.
  - destruct (all f l) as [b|].
    + split; [discriminate|]. intros [c [[<-|H] F]]; [congruence|]. destruct IH as [_ IH]. assert (X : Some b = None) by (apply IH; exists c; tauto). discriminate X.
    + split; [|reflexivity]. intros _. destruct (proj1 IH eq_refl) as [c [H F]]. exists c; tauto.
  - split; [|reflexivity]. intros _. exists a; tauto.
Qed.
Lemma all_nil {A} (f : A -> option (list vs)) l : all f l = Some [] -> forall a, In a l -> f a = Some [].
Proof.
  induction l as [|a l IH]; cbn [all In]; [intros _ ? []|].
  destruct (f a) as [u|] eqn:E; [|discriminate]. destruct (all f l) as [b|]; [|discriminate].
  intros H. injection H as H. apply app_eq_nil in H as [-> ->]. intros c [<-|C]; [exact E|exact (IH eq_refl c C)].
Qed.
Lemma all_head {A} (f : A -> option (list vs)) l x out : all f l = Some (x :: out) ->
  exists l1 a l2 o, l = (l1 ++ a :: l2)%list /\ f a = Some (x :: o) /\ forall b, In b l1 -> f b = Some [].
Proof.
  revert out. induction l as [|a l IH]; cbn [all]; intros out; [discriminate|].
  destruct (f a) as [u|] eqn:E; [|discriminate]. destruct (all f l) as [b|] eqn:F; [|discriminate].
  destruct u as [|y u]; cbn [app]; intros H.
  - injection H as ->. destruct (IH _ eq_refl) as [l1 [c [l2 [o [-> [G K]]]]]].
    exists (a :: l1), c, l2, o. split; [reflexivity|]. split; [exact G|]. intros d [<-|D]; [exact E|exact (K d D)].
  - injection H as -> _. exists [], a, l, u. split; [reflexivity|]. split; [exact E|intros ? []].
Qed.
Lemma all_in {A} (f : A -> option (list vs)) l out x : all f l = Some out -> In x out -> exists a o, In a l /\ f a = Some o /\ In x o.
Proof.
  revert out. induction l as [|a l IH]; cbn [all In]; intros out.
  - intros H; injection H as <-; intros [].
  - destruct (f a) as [u|] eqn:E; [|discriminate]. destruct (all f l) as [b|]; [|discriminate].
    intros H; injection H as <-. intros I. apply in_app_or in I as [I|I].
    + exists a, u. tauto.
    + destruct (IH _ eq_refl I) as [c [o [H1 H2]]]. exists c, o. tauto.
Qed.

Lemma number_year y v : In (y, v) numbers -> year_of v = y.
Proof. cbn [numbers In]. intros H. repeat (destruct H as [H|H]; [injection H as <- <-; reflexivity|]). destruct H. Qed.
Lemma number_one y v v' : In (y, v) numbers -> In (y, v') numbers -> v' = v.
Proof.
  intros H H'. cbn [numbers In] in H.
  repeat (destruct H as [H|H]; [injection H as <- <-; cbn [numbers In] in H'; repeat (destruct H' as [H'|H']; [first [discriminate H'|injection H' as <-; reflexivity]|]); destruct H'|]).
  destruct H.
Qed.
Lemma number_2015 y v : In (y, v) numbers -> v = "14.0" <-> y = "2015".
Proof. cbn [numbers In]. intros H. repeat (destruct H as [H|H]; [injection H as <- <-; split; first [reflexivity|discriminate]|]). destruct H. Qed.
Lemma number_2017 y v : In (y, v) numbers -> v = "15.0" <-> y = "2017".
Proof. cbn [numbers In]. intros H. repeat (destruct H as [H|H]; [injection H as <- <-; split; first [reflexivity|discriminate]|]). destruct H. Qed.

Section One.
Variables (m : machine) (ex : bool) (y v : string).
Hypothesis Hv : In (y, v) numbers.

Lemma install_sound k : In k (install_keys v) ->
  from_install m ex v k = Some [] \/ exists n w, installed m ex y n w false /\ gives n w false (from_install m ex v k).
Proof.
  intros K. unfold from_install. destruct (value_of m k "InstallDir") as [d|] eqn:E; [|left; reflexivity].
  apply (proj1 (value_spec _ _ _ _)) in E as [Nd E].
  assert (R : registered m (visual_studio_keys v) "InstallDir" d) by (split; [exact Nd|exists k; split; [exact K|exact E]]).
  rewrite (number_year _ _ Hv).
  destruct (negb ex && exists_path m (nt_join d "devenv.exe")) eqn:F.
  - right. apply andb_true_iff in F as [F1 F2]. apply negb_true_iff in F1.
    exists y, (up 2 d). split; [exact (full_edition m ex y v d Hv R F1 F2)|split; [reflexivity|apply up_not]].
  - destruct (exists_glob m (nt_join d "*express.exe")) eqn:G; [|left; reflexivity].
    right. exists (y ++ "e"), (up 2 d). split; [|split; [reflexivity|apply up_not]].
    apply (express_edition m ex y v d Hv R); [|exact G].
    apply andb_false_iff in F as [F|F]; [left; apply negb_false_iff, F|right; exact F].
Qed.
Lemma sdk_sound k : In k sdk_keys ->
  from_sdk m v k = Some [] \/ exists n w s, installed m ex y n w s /\ gives n w s (from_sdk m v k).
Proof.
  intros K. unfold from_sdk. destruct (value_of m k v) as [d|] eqn:E; [|left; reflexivity].
  apply (proj1 (value_spec _ _ _ _)) in E as [Nd E].
  assert (R : registered m side_by_side_keys v d) by (split; [exact Nd|exists k; split; [exact K|exact E]]).
  rewrite (number_year _ _ Hv).
  destruct (String.eqb_spec v "15.0") as [V|V].
  - destruct (exists_path m d) eqn:F; [|left; reflexivity]. right. exists "2017", d, false.
    split; [|split; [reflexivity|exact Nd]]. rewrite V in R.
    apply studio_2017; [apply (number_2017 _ _ Hv), V|exact R|exact F].
  - destruct (String.eqb_spec v "14.0") as [W|W]; cbn [negb]; [left; reflexivity|].
    right. exists (y ++ "e"), (up 1 d), true. split; [|split; [reflexivity|apply up_not]].
    apply (sdk_alone m ex y v d Hv); [intros Y; apply W, (number_2015 _ _ Hv), Y|intros Y; apply V, (number_2017 _ _ Hv), Y|exact R].
Qed.
Lemma complete n w s : installed m ex y n w s ->
  (exists k, In k (install_keys v) /\ gives n w s (from_install m ex v k)) \/
  (exists k, In k sdk_keys /\ gives n w s (from_sdk m v k)) /\ (s = false -> y = "2017").
Proof.
  intros H. destruct H as [v' d Hn [Nd [k [K R]]] X F|v' d Hn [Nd [k [K R]]] X F|d Y [Nd [k [K R]]] F|v' d Hn Y1 Y2 [Nd [k [K R]]]].
  - pose proof (number_one _ _ _ Hv Hn) as ->. left. exists k. split; [exact K|]. split; [|apply join_up].
    unfold from_install. rewrite (proj2 (value_spec _ _ _ _) (conj Nd R)), (number_year _ _ Hv), X, F. reflexivity.
  - pose proof (number_one _ _ _ Hv Hn) as ->. left. exists k. split; [exact K|]. split; [|apply join_up].
    unfold from_install. rewrite (proj2 (value_spec _ _ _ _) (conj Nd R)), (number_year _ _ Hv), F.
    destruct X as [->| ->]; [reflexivity|rewrite andb_false_r; reflexivity].
  - right. split; [|intros _; exact Y]. exists k. split; [exact K|]. split; [|exact Nd].
    pose proof (proj2 (number_2017 _ _ Hv) Y) as V.
    unfold from_sdk. rewrite V, (proj2 (value_spec _ _ _ _) (conj Nd R)). cbn [String.eqb Ascii.eqb Bool.eqb]. rewrite F. reflexivity.
  - pose proof (number_one _ _ _ Hv Hn) as ->. right. split; [|discriminate]. exists k. split; [exact K|]. split; [|apply join_up].
    unfold from_sdk. rewrite (proj2 (value_spec _ _ _ _) (conj Nd R)), (number_year _ _ Hv).
    destruct (String.eqb_spec v "15.0") as [V|V]; [elim Y2; apply (number_2017 _ _ Hv), V|].
    destruct (String.eqb_spec v "14.0") as [W|W]; [elim Y1; apply (number_2015 _ _ Hv), W|reflexivity].
Qed.

Lemma gives_not_nil n w s r : gives n w s r -> r <> Some [].
Proof. intros [-> _]. destruct (create_version n (Some w) s); discriminate. Qed.
Lemma gives_none n w s r : gives n w s r -> (r = None <-> ~ In n known).
Proof. intros [-> _]. rewrite <- (create_none n (Some w) s). destruct (create_version n (Some w) s); split; first [discriminate|reflexivity]. Qed.
Lemma gives_in n w s r x o : gives n w s r -> r = Some (x :: o) -> is_version x n (Some w) s.
Proof.
  intros [-> W]. destruct (create_version n (Some w) s) as [z|] eqn:E; cbn [one]; [|discriminate].
  intros H; injection H as <- _. apply create_some; [congruence|exact E].
Qed.

Lemma one_none : detect_one m ex v = None <-> exists n w s, installed m ex y n w s /\ ~ In n known.
Proof.
  split.
  - unfold detect_one. destruct (all (from_install m ex v) (install_keys v)) as [a|] eqn:A.
    + destruct (all (from_sdk m v) sdk_keys) as [b|] eqn:B; [discriminate|]. intros _.
      apply (proj1 (all_none _ _)) in B as [k [K B]]. destruct (sdk_sound k K) as [E|[n [w [s [I G]]]]]; [congruence|].
      exists n, w, s. split; [exact I|exact (proj1 (gives_none _ _ _ _ G) B)].
    + intros _. apply (proj1 (all_none _ _)) in A as [k [K A]]. destruct (install_sound k K) as [E|[n [w [I G]]]]; [congruence|].
      exists n, w, false. split; [exact I|exact (proj1 (gives_none _ _ _ _ G) A)].
  - intros [n [w [s [I N]]]]. unfold detect_one. destruct (complete _ _ _ I) as [[k [K G]]|[[k [K G]] _]].
    + rewrite (proj2 (all_none (from_install m ex v) _)); [reflexivity|]. exists k. split; [exact K|exact (proj2 (gives_none _ _ _ _ G) N)].
    + rewrite (proj2 (all_none (from_sdk m v) sdk_keys)); [destruct (all _ _); reflexivity|].
      exists k. split; [exact K|exact (proj2 (gives_none _ _ _ _ G) N)].
Qed.
Lemma one_nil : detect_one m ex v = Some [] -> forall n w s, ~ installed m ex y n w s.
Proof.
  unfold detect_one. destruct (all (from_install m ex v) (install_keys v)) as [a|] eqn:A; [|discriminate].
  destruct (all (from_sdk m v) sdk_keys) as [b|] eqn:B; [|discriminate].
  intros H. injection H as H. apply app_eq_nil in H as [-> ->]. intros n w s I.
  destruct (complete _ _ _ I) as [[k [K G]]|[[k [K G]] _]]; apply (gives_not_nil _ _ _ _ G); [exact (all_nil _ _ A k K)|exact (all_nil _ _ B k K)].
Qed.
Lemma one_head x o : detect_one m ex v = Some (x :: o) ->
  exists n w s, installed m ex y n w s /\ is_version x n (Some w) s /\ (s = true -> forall n' w', ~ installed m ex y n' w' false).
Proof.
  unfold detect_one. destruct (all (from_install m ex v) (install_keys v)) as [a|] eqn:A; [|discriminate].
  destruct (all (from_sdk m v) sdk_keys) as [b|] eqn:B; [|discriminate].
  intros H. injection H as H. destruct a as [|z a]; cbn [app] in H.
  - subst b. apply all_head in B as [l1 [k [l2 [u [L [F _]]]]]].
    assert (K : In k sdk_keys) by (rewrite L; apply in_elt).
    destruct (sdk_sound k K) as [E|[n [w [s [I G]]]]]; [congruence|].
    exists n, w, s. split; [exact I|]. split; [exact (gives_in _ _ _ _ _ _ G F)|]. intros -> n' w' I'.
    destruct (complete _ _ _ I') as [[k' [K' G']]|[_ Y]].
    + apply (gives_not_nil _ _ _ _ G'). exact (all_nil _ _ A k' K').
    + specialize (Y eq_refl). inversion I. contradiction.
  - injection H as -> _. apply all_head in A as [l1 [k [l2 [u [L [F _]]]]]].
    assert (K : In k (install_keys v)) by (rewrite L; apply in_elt).
    destruct (install_sound k K) as [E|[n [w [I G]]]]; [congruence|].
    exists n, w, false. split; [exact I|]. split; [exact (gives_in _ _ _ _ _ _ G F)|discriminate].
Qed.
End One.
