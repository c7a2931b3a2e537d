From Coq Require Import NArith Lia DecimalString DecimalN.
From Verif Require Import Lib LibFacts Str StrFacts Model_Path Model_WinEnv Spec_WinEnv Proof_Path Proof_WinEnv Proof_WinEnv2.
Local Open Scope string_scope.

(** ** Lists without doubles *)
Local Notation add := (fun s x => if mem x s then s else (s ++ [x])%list).
Lemma filter_two : forall (p q : string -> bool) l, filter p (filter q l) = filter (fun x => q x && p x) l.
Proof. intros p q. induction l as [|a l IH]; [reflexivity|]. cbn [filter]. destruct (q a); cbn [filter andb]; [destruct (p a); rewrite IH; reflexivity|exact IH]. Qed.
Lemma fold_add : forall l s, fold_left add l s = (s ++ filter (fun x => negb (mem x s)) (firsts l))%list.
Proof.
  induction l as [|x l IH]; intros s; [cbn; rewrite app_nil_r; reflexivity|]. cbn [fold_left firsts filter]. destruct (mem x s) eqn:M; cbn [negb].
  - rewrite IH, filter_two. f_equal. apply filter_ext. intros y. destruct (String.eqb_spec y x) as [->|]; [rewrite M|]; reflexivity.
  - rewrite IH, <- app_assoc. cbn [app]. do 2 f_equal. rewrite filter_two. apply filter_ext. intros y. unfold mem. rewrite existsb_app. cbn [existsb]. rewrite orb_false_r, negb_orb. apply andb_comm.
Qed.
Lemma union_is : forall a b, union a b = firsts (a ++ b).
Proof. intros a b. unfold union. rewrite fold_add. cbn [app]. generalize (firsts (a ++ b)). intros l. induction l as [|x l IH]; [reflexivity|]. cbn [filter mem existsb negb]. f_equal. exact IH. Qed.
Lemma firsts_in : forall l x, In x (firsts l) <-> In x l.
Proof.
  induction l as [|a l IH]; intros x; [tauto|]. cbn [firsts In]. rewrite filter_In, IH. destruct (String.eqb_spec x a) as [->|D]; cbn [negb]; [tauto|]. split; [tauto|]. intros [H|H]; [congruence|]. right. split; [exact H|reflexivity].
Qed.
Lemma firsts_nodup : forall l, NoDup (firsts l).
Proof. induction l as [|a l IH]; [constructor|]. cbn [firsts]. constructor; [|apply NoDup_filter; exact IH]. rewrite filter_In. intros [_ H]. rewrite String.eqb_refl in H. discriminate H. Qed.
Lemma firsts_id : forall l, NoDup l -> firsts l = l.
Proof.
  induction l as [|a l IH]; intros H; [reflexivity|]. inversion H as [|? ? H1 H2]; subst. cbn [firsts]. rewrite (IH H2). f_equal. clear - H1. induction l as [|b l IH]; [reflexivity|]. cbn [filter]. destruct (String.eqb_spec b a) as [->|D]; [destruct H1; left; reflexivity|]. cbn [negb]. f_equal. apply IH. intros X. apply H1. right. exact X.
Qed.
Lemma union_more : forall a b c, union (union a b) c = union a (b ++ c).
Proof.
  intros a b c. assert (E : fold_left add (union a b) [] = union a b). { assert (X := union_is (union a b) []). unfold union at 1 in X. rewrite app_nil_r in X. rewrite X. apply firsts_id. rewrite union_is. apply firsts_nodup. }
  unfold union at 1. rewrite fold_left_app, E. unfold union. rewrite <- fold_left_app. rewrite <- app_assoc. reflexivity.
Qed.
Lemma union_some : forall a b, a <> [] -> union a b <> [].
Proof. intros [|x a] b N; [congruence|]. rewrite union_is. discriminate. Qed.
Lemma directories_is : forall s, split_char ";" s = directories s.
Proof.
  induction s as [|a s IH]; [reflexivity|]. cbn [split_char directories]. rewrite IH. assert (N := split_char_nonempty ";" s). rewrite IH in N. destruct (directories s) as [|d ds]; [congruence|]. reflexivity.
Qed.
Lemma directories_clean : forall s d, clean s -> In d (directories s) -> clean d.
Proof.
  induction s as [|a s IH]; intros d C I; [destruct I as [<-|[]]; exact C|]. destruct C as [C1 C2]. cbn [directories] in I. destruct (directories s) as [|x xs]; [destruct I|]. destruct (Ascii.eqb a ";").
  - destruct I as [<-|I]; [exact Logic.I|exact (IH d C2 I)].
  - destruct I as [<-|I]; [split; [exact C1|apply IH; [exact C2|left; reflexivity]]|apply IH; [exact C2|right; exact I]].
Qed.
Lemma concat_clean : forall l, Forall clean l -> clean (String.concat ";" l).
Proof.
  intros l F. induction F as [|x l H F IH]; [exact I|]. destruct l as [|y l]; [exact H|]. change (String.concat ";" (x :: y :: l)) with (x ++ ";" ++ String.concat ";" (y :: l)). apply clean_app. split; [exact H|]. split; [vm_compute; congruence|exact IH].
Qed.

(** ** The files *)
Definition more (system : list string) : bool := match system with [] => false | _ => true end.
Lemma wanted_include : forall python vars, wanted python vars "INCLUDE" = value_of vars "INCLUDE".
Proof. intros python vars. unfold wanted. change (needed "INCLUDE") with true. destruct (value_of vars "INCLUDE"); reflexivity. Qed.
Lemma value_clean : forall vars n v, Forall variable vars -> value_of vars n = Some v -> clean v.
Proof.
  induction vars as [|[k x] vars IH]; intros n v F H; [discriminate H|]. inversion F as [|? ? (C1 & C2 & _) F']; subst. cbn [value_of] in H. destruct (value_of vars n) as [y|] eqn:E; [injection H as <-; exact (IH n y F' E)|]. destruct (String.eqb (capitals k) n); [|discriminate H]. injection H as <-. exact C2.
Qed.
Lemma included_clean : forall vars, Forall variable vars -> Forall clean (included vars).
Proof. intros vars F. apply Forall_forall. intros d D. unfold included in D. apply (directories_clean _ _) in D; [exact D|]. destruct (value_of vars "INCLUDE") as [i|] eqn:E; [exact (value_clean _ _ _ F E)|exact I]. Qed.
Lemma generated : forall python, clean python -> forall archs system files, Forall (fun '(_, vars) => Forall variable vars) archs -> Forall clean system -> generate python system (all_printed archs) = inl files ->
  length files = length archs /\ forall before arch vars after, archs = (before ++ (arch, vars) :: after)%list -> exists b e, nth_error files (length before) = Some ("environment." ++ arch, b) /\ get_env b = Some e /\
  forall n, assoc n e = if String.eqb n "INCLUDE" && more system then Some (String.concat ";" (firsts (system ++ flat_map (fun '(_, vs) => included vs) (before ++ [(arch, vars)])))) else wanted python vars n.
Proof.
  intros python P. induction archs as [|[a vs] archs IH]; intros system files F C G.
  - injection G as <-. split; [reflexivity|]. intros [|x before] arch vars after E; discriminate E.
  - inversion F as [|? ? F1 F2]; subst. cbn [all_printed map generate] in G. assert (X := extract_is python vs F1). destruct (extract python (printed vs)) as [e|?]; [|discriminate G]. destruct X as [-> X].
    set (e0 := saved python vs []) in *. assert (E0 : forall n, assoc n e0 = wanted python vs n) by (intros n; unfold e0; rewrite saved_is by exact F1; destruct (wanted python vs n); reflexivity).
    assert (G0 : good e0) by (apply saved_good; [exact P|exact F1|split; constructor]). assert (N0 : e0 <> []). { intros Z. apply (X "TEMP"); [right; left; reflexivity|]. assert (Y := E0 "TEMP"). rewrite Z in Y. cbn [assoc] in Y. unfold wanted in Y. change (needed "TEMP") with true in Y. destruct (value_of vs "TEMP"); [discriminate Y|reflexivity]. }
    rewrite E0, wanted_include in G. cbv zeta in G. rewrite directories_is in G. fold (included vs) in G.
    set (system' := match system with [] => [] | _ => union system (included vs) end) in *. set (e1 := match system with [] => e0 | _ => update "INCLUDE" (String.concat ";" system') e0 end) in *. fold (all_printed archs) in G. destruct (generate python system' (all_printed archs)) as [files'|?] eqn:G'; [|discriminate G]. injection G as <-.
    assert (C' : Forall clean system'). { unfold system'. destruct system as [|s system]; [constructor|]. rewrite union_is. apply Forall_forall. intros d D. apply (proj1 (firsts_in _ _)) in D. apply in_app_or in D. destruct D as [D|D]; [revert d D; apply Forall_forall; exact C|revert d D; apply Forall_forall; exact (included_clean vs F1)]. }
    destruct (IH system' files' F2 C' G') as [L H]. split; [cbn [length]; rewrite L; reflexivity|].
    intros [|[a' vs'] before] arch vars after E; injection E as E1 E2 E3.
    + subst a archs vs. exists (block e1), e1. split; [reflexivity|]. split.
      * apply read_back; unfold e1; destruct system as [|s system]; [exact N0|apply update_some|exact G0|]. destruct G0 as [G1 G2]. split; [apply update_nodup; exact G1|]. apply update_all; [|exact G2]. split; [repeat split; vm_compute; congruence|]. split; [exact (concat_clean _ C')|reflexivity].
      * intros n. unfold e1. destruct system as [|s system]; cbn [more]; [rewrite andb_false_r; apply E0|]. rewrite assoc_update, andb_true_r. destruct (String.eqb n "INCLUDE"); [|apply E0]. unfold system'. rewrite union_is. cbn [flat_map app length]. rewrite app_nil_r. reflexivity.
    + subst a' vs'. destruct (H before arch vars after E3) as (b & e & N & R & A). exists b, e. split; [exact N|]. split; [exact R|]. intros n. rewrite A. unfold system'. destruct system as [|s system]; [cbn [more]; rewrite andb_false_r; reflexivity|]. set (sy := s :: system) in *.
      assert (M : more (union sy (included vs)) = true) by (assert (U := union_some sy (included vs) ltac:(discriminate)); destruct (union sy (included vs)); [congruence|reflexivity]). rewrite M. change (more sy) with true. destruct (String.eqb n "INCLUDE" && true); [|reflexivity]. do 2 f_equal. rewrite <- !union_is, union_more. reflexivity.
Qed.
Lemma fails : forall python archs system, Forall (fun '(_, vars) => Forall variable vars) archs ->
  (exists e, generate python system (all_printed archs) = inr e) <-> exists arch vars name, In (arch, vars) archs /\ In name ["SYSTEMROOT"; "TEMP"; "TMP"] /\ value_of vars name = None.
Proof.
  intros python. induction archs as [|[a vs] archs IH]; intros system F; [split; [intros [e H]; discriminate H|intros (? & ? & ? & [] & _)]|]. inversion F as [|? ? F1 F2]; subst. cbn [all_printed map generate]. assert (X := extract_is python vs F1). destruct (extract python (printed vs)) as [e|e].
  - destruct X as [_ X]. cbv zeta. set (system' := match system with [] => [] | _ => union system (split_char ";" (match assoc "INCLUDE" e with Some i => i | None => "" end)) end). fold (all_printed archs). split.
    + intros [e' H]. destruct (generate python system' (all_printed archs)) as [f|e''] eqn:G; [discriminate H|]. destruct (proj1 (IH system' F2)) as (arch & vars & name & I & J); [exists e''; exact G|]. exists arch, vars, name. split; [right; exact I|exact J].
    + intros (arch & vars & name & [I|I] & J & V); [injection I as -> ->; destruct (X name J V)|]. destruct (proj2 (IH system' F2)) as [e' E]; [exists arch, vars, name; split; [exact I|split; assumption]|]. rewrite E. exists e'. reflexivity.
  - destruct X as (r & R & V). split; [|intros _; exists e; reflexivity]. intros _. exists a, vs, r. split; [left; reflexivity|split; assumption].
Qed.

(** ** Directories shared by all *)
Lemma shared_in : forall configs all, shared configs = Some all -> NoDup all /\ forall i, In i all <-> forall c, In c configs -> In i c.
Proof.
  intros [|c cs] all H; [discriminate H|]. injection H as <-.
  assert (G : forall cs a, NoDup a -> NoDup (fold_left (fun all c' => intersection all (union [] c')) cs a) /\ forall i, In i (fold_left (fun all c' => intersection all (union [] c')) cs a) <-> In i a /\ forall c', In c' cs -> In i c').
  { clear. induction cs as [|c cs IH]; intros a N; cbn [fold_left]; [split; [exact N|]; intros i; split; [intros H; split; [exact H|intros c' []]|tauto]|]. destruct (IH (intersection a (union [] c))) as [D I]; [unfold intersection; rewrite union_is; apply firsts_nodup|]. split; [exact D|]. intros i. rewrite I. unfold intersection. rewrite union_is, firsts_in. cbn [app]. rewrite filter_In, union_is, firsts_in, mem_In. cbn [app]. split.
    - intros [[X Y] Z]. split; [exact Y|]. intros c' [<-|C]; [exact X|exact (Z c' C)].
    - intros [X Y]. split; [split; [apply Y; left; reflexivity|exact X]|]. intros c' C. apply Y. right. exact C. }
  destruct (G cs (union [] c)) as [D I]; [rewrite union_is; apply firsts_nodup|]. split; [exact D|]. intros i. rewrite I, union_is, firsts_in. cbn [app]. split.
  - intros [X Y] c' [<-|C]; [exact X|exact (Y c' C)].
  - intros H. split; [apply H; left; reflexivity|]. intros c' C. apply H. right. exact C.
Qed.
Lemma shared_kept : forall configs all, shared configs = Some all -> NoDup all /\ (forall i, In i all <-> forall c, In c configs -> In i c) /\
  forall c, In c configs -> (forall i, In i c <-> In i (remaining all c) \/ In i all) /\ forall i, In i (remaining all c) -> ~ In i all.
Proof.
  intros configs all H. destruct (shared_in configs all H) as [D I]. split; [exact D|]. split; [exact I|]. intros c C. split.
  - intros i. unfold remaining. rewrite filter_In. split; [intros X; destruct (mem i all) eqn:M; [right; apply mem_In; exact M|left; split; [exact X|reflexivity]]|]. intros [[X _]|X]; [exact X|]. exact (proj1 (I i) X c C).
  - intros i X. unfold remaining in X. apply filter_In in X. destruct X as [_ X]. apply negb_true_iff in X. apply mem_false in X. exact X.
Qed.

(** ** Actions and linkers *)
Lemma action_is : forall environ saved, NoDup (map fst environ) -> forall n, assoc n (action_env saved environ) = match assoc n saved with Some v => Some v | None => assoc n environ end.
Proof.
  unfold action_env. induction environ as [|[k v] environ IH]; intros saved D n; cbn [fold_left]; [destruct (assoc n saved); reflexivity|]. cbn [map fst] in D. inversion D as [|? ? D1 D2]; subst. rewrite (IH _ D2). destruct (mem k (map fst saved)) eqn:M.
  - destruct (assoc n saved) eqn:A; [reflexivity|]. cbn [assoc]. destruct (String.eqb_spec n k) as [->|]; [|reflexivity]. apply assoc_None in A. apply mem_In in M. contradiction.
  - rewrite assoc_update. cbn [assoc]. destruct (String.eqb_spec n k) as [->|]; [|reflexivity]. apply mem_false, assoc_None in M. rewrite M. reflexivity.
Qed.
Lemma only_app : forall w a b, only w (a ++ b) = only w a ++ only w b.
Proof. intros w a b. induction a as [|x a IH]; [reflexivity|]. cbn [append only]. destruct (w x); [cbn [append]|]; rewrite IH; reflexivity. Qed.
Lemma digits_kept : forall w u, digits_word w -> only w (NilEmpty.string_of_uint u) = NilEmpty.string_of_uint u /\ has_char "_" (NilEmpty.string_of_uint u) = false.
Proof.
  intros w u W. induction u as [|u [IH1 IH2]|u [IH1 IH2]|u [IH1 IH2]|u [IH1 IH2]|u [IH1 IH2]|u [IH1 IH2]|u [IH1 IH2]|u [IH1 IH2]|u [IH1 IH2]|u [IH1 IH2]]; [split; reflexivity|..]; cbn [NilEmpty.string_of_uint only has_char]; rewrite W by (cbn; tauto); rewrite IH1; (split; [reflexivity|exact IH2]).
Qed.
Lemma to_uint_some : forall n, N.to_uint n <> Decimal.Nil.
Proof. intros n H. assert (X := Unsigned.of_to n). rewrite H in X. cbn in X. subst n. discriminate H. Qed.
Lemma zero_empty : forall n, NilZero.string_of_uint (N.to_uint n) = NilEmpty.string_of_uint (N.to_uint n).
Proof. intros n. assert (X := to_uint_some n). destruct (N.to_uint n); [congruence|reflexivity..]. Qed.
Lemma endpoint_pid : forall w o1 o2 p1 p2, digits_word w -> only w (o1 ++ "_" ++ NilZero.string_of_uint (N.to_uint p1)) = only w (o2 ++ "_" ++ NilZero.string_of_uint (N.to_uint p2)) -> p1 = p2.
Proof.
  intros w o1 o2 p1 p2 W H. rewrite !zero_empty, !only_app in H. destruct (digits_kept w (N.to_uint p1) W) as [K1 U1], (digits_kept w (N.to_uint p2) W) as [K2 U2]. rewrite K1, K2 in H. assert (O : only w "_" = "_") by (cbn [only]; rewrite W by (cbn; tauto); reflexivity). rewrite O in H.
  assert (R1 : rsplit1 "_" (only w o1 ++ "_" ++ NilEmpty.string_of_uint (N.to_uint p1)) = Some (only w o1, NilEmpty.string_of_uint (N.to_uint p1))) by (apply rsplit1_Some; split; [reflexivity|exact U1]).
  assert (R2 : rsplit1 "_" (only w o2 ++ "_" ++ NilEmpty.string_of_uint (N.to_uint p2)) = Some (only w o2, NilEmpty.string_of_uint (N.to_uint p2))) by (apply rsplit1_Some; split; [reflexivity|exact U2]).
  rewrite H, R2 in R1. injection R1 as _ R. apply Unsigned.to_uint_inj. rewrite <- !zero_empty in R. assert (Z1 := NilZero.usu _ (to_uint_some p1)). assert (Z2 := NilZero.usu _ (to_uint_some p2)). rewrite R in Z2. rewrite Z2 in Z1. injection Z1 as Z1. symmetry. exact Z1.
Qed.
Lemma separate_other : forall w p args e n, n <> "_MSPDBSRV_ENDPOINT_" -> assoc n (separate w p args e) = assoc n e.
Proof.
  intros w p args e n N. unfold separate. destruct args as [|a args]; [reflexivity|]. assert (X : forall o, assoc n (update "_MSPDBSRV_ENDPOINT_" o e) = assoc n e) by (intros o; rewrite assoc_update; apply String.eqb_neq in N; rewrite N; reflexivity).
  destruct (negb (String.eqb a "link.exe")); [reflexivity|]. destruct (first_out (a :: args)) as [o|]; [apply X|reflexivity].
Qed.
Lemma separate_apart : forall w p1 p2 args1 args2 e1 e2 x1 x2, digits_word w -> assoc "_MSPDBSRV_ENDPOINT_" e1 = None -> assoc "_MSPDBSRV_ENDPOINT_" e2 = None -> p1 <> p2 ->
  assoc "_MSPDBSRV_ENDPOINT_" (separate w p1 args1 e1) = Some x1 -> assoc "_MSPDBSRV_ENDPOINT_" (separate w p2 args2 e2) = Some x2 -> x1 <> x2.
Proof.
  intros w p1 p2 args1 args2 e1 e2 x1 x2 W A1 A2 D H1 H2 E. assert (S : forall p args e x, assoc "_MSPDBSRV_ENDPOINT_" e = None -> assoc "_MSPDBSRV_ENDPOINT_" (separate w p args e) = Some x -> exists o, x = only w (o ++ "_" ++ NilZero.string_of_uint (N.to_uint p))).
  { clear. intros p args e x A H. unfold separate in H. destruct args as [|a args]; [congruence|]. destruct (negb (String.eqb a "link.exe")); [congruence|]. destruct (first_out (a :: args)) as [o|]; [|congruence].
    rewrite assoc_update, String.eqb_refl in H. injection H as <-. exists o. reflexivity. }
  destruct (S _ _ _ _ A1 H1) as [o1 ->]. destruct (S _ _ _ _ A2 H2) as [o2 ->]. apply D. exact (endpoint_pid w o1 o2 p1 p2 W E).
Qed.
