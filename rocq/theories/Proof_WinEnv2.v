From Coq Require Import NArith Lia DecimalString.
From Verif Require Import Lib LibFacts Str StrFacts Model_Path Model_WinEnv Spec_WinEnv Proof_Path Proof_WinEnv.
Local Open Scope string_scope.

(** ** Names in any case *)
Lemma name_case : forall e k, each_char lower e = e -> String.eqb e (each_char lower k) = String.eqb (capitals k) (capitals e).
Proof.
  intros e k E. destruct (String.eqb_spec e (each_char lower k)) as [X|X]; symmetry.
  - apply String.eqb_eq. rewrite X, capitals_lower. reflexivity.
  - apply String.eqb_neq. intros Y. apply X. rewrite <- E, <- (lower_capitals e), <- Y, lower_capitals. reflexivity.
Qed.
Lemma prefix_case : forall p k, each_char lower p = p -> String.prefix p (each_char lower k) = String.prefix (capitals p) (capitals k).
Proof.
  induction p as [|a p IH]; intros k E; [destruct k; reflexivity|]. cbn [each_char] in E. injection E as E1 E2. destruct k as [|b k]; [reflexivity|]. cbn [each_char capitals String.prefix]. change (capital a) with (upper a). change (capital b) with (upper b).
  destruct (ascii_dec a (lower b)) as [X|X], (ascii_dec (upper a) (upper b)) as [Y|Y]; [exact (IH k E2)| | |reflexivity]; exfalso.
  - apply Y. rewrite X, upper_lower. reflexivity.
  - apply X. rewrite <- E1, <- (lower_upper a), Y, lower_upper. reflexivity.
Qed.
Lemma save_is : forall python k v e, has_char "=" k = false -> save_line python (k ++ "=" ++ v) e = if needed (capitals k) then update (capitals k) (if String.eqb (capitals k) "PATH" then python ++ ";" ++ v else v) e else e.
Proof.
  intros python k v e H. unfold save_line. rewrite (split_line k v H), capital_upper, each_app. change (each_char lower ("=" ++ v)) with ("=" ++ each_char lower v). set (lk := each_char lower k). set (lv := each_char lower v).
  assert (L : has_char "=" lk = false) by (unfold lk; rewrite lower_no_equals; exact H). unfold envvars_to_save. cbn [find]. rewrite !(matches_name _ lk lv L) by (cbn; tauto). change (String.eqb "goma_.*" "goma_.*") with true. change (String.eqb "include" "goma_.*") with false. change (String.eqb "lib" "goma_.*") with false. change (String.eqb "libpath" "goma_.*") with false. change (String.eqb "path" "goma_.*") with false. change (String.eqb "pathext" "goma_.*") with false. change (String.eqb "systemroot" "goma_.*") with false. change (String.eqb "temp" "goma_.*") with false. change (String.eqb "tmp" "goma_.*") with false. cbv iota. unfold needed. unfold mem. cbn [existsb]. unfold lk.
  replace (String.prefix "goma_" (each_char lower k)) with (String.prefix "GOMA_" (capitals k)) by (symmetry; apply (prefix_case "goma_" k); reflexivity).
  rewrite !name_case by reflexivity. change (capitals "include") with "INCLUDE". change (capitals "lib") with "LIB". change (capitals "libpath") with "LIBPATH". change (capitals "path") with "PATH". change (capitals "pathext") with "PATHEXT". change (capitals "systemroot") with "SYSTEMROOT". change (capitals "temp") with "TEMP". change (capitals "tmp") with "TMP".
  set (n := capitals k). clearbody n. clear. destruct (String.prefix "GOMA_" n) eqn:P.
  - rewrite orb_true_r. destruct (String.eqb_spec n "PATH") as [->|]; [discriminate P|reflexivity].
  - destruct (String.eqb_spec n "INCLUDE") as [->|]; [reflexivity|]. destruct (String.eqb_spec n "LIB") as [->|]; [reflexivity|]. destruct (String.eqb_spec n "LIBPATH") as [->|]; [reflexivity|]. destruct (String.eqb_spec n "PATH") as [->|]; [reflexivity|].
    destruct (String.eqb_spec n "PATHEXT") as [->|]; [reflexivity|]. destruct (String.eqb_spec n "SYSTEMROOT") as [->|]; [reflexivity|]. destruct (String.eqb_spec n "TEMP") as [->|]; [reflexivity|]. destruct (String.eqb_spec n "TMP") as [->|]; reflexivity.
Qed.

(** ** Environments *)
Lemma assoc_update : forall n k v e, assoc n (update k v e) = if String.eqb n k then Some v else assoc n e.
Proof.
  intros n k v. induction e as [|[a b] e IH]; [reflexivity|]. cbn [update]. destruct (String.eqb_spec a k) as [->|D]; cbn [assoc].
  - destruct (String.eqb n k); reflexivity.
  - rewrite IH. destruct (String.eqb_spec n a) as [->|]; [|reflexivity]. apply String.eqb_neq in D. rewrite D. reflexivity.
Qed.
Lemma update_key : forall x k v e, In x (map fst (update k v e)) -> x = k \/ In x (map fst e).
Proof.
  intros x k v. induction e as [|[a b] e IH]; cbn [update]; [intros [H|[]]; left; symmetry; exact H|]. destruct (String.eqb a k); cbn [map fst]; [intros [H|H]; [left; symmetry; exact H|right; right; exact H]|].
  intros [H|H]; [right; left; exact H|]. destruct (IH H) as [X|X]; [left; exact X|right; right; exact X].
Qed.
Lemma update_nodup : forall k v e, NoDup (map fst e) -> NoDup (map fst (update k v e)).
Proof.
  intros k v. induction e as [|[a b] e IH]; intros H; cbn [update]; [repeat constructor; intros []|]. cbn [map fst] in H. inversion H as [|? ? H1 H2]; subst. destruct (String.eqb_spec a k) as [->|D]; cbn [map fst]; constructor; [exact H1|exact H2| |exact (IH H2)].
  intros X. destruct (update_key _ _ _ _ X) as [->|Y]; [congruence|exact (H1 Y)].
Qed.
Lemma update_all : forall (P : string * string -> Prop) k v e, P (k, v) -> Forall P e -> Forall P (update k v e).
Proof. intros P k v e K. induction e as [|[a b] e IH]; intros F; cbn [update]; [repeat constructor; exact K|]. inversion F; subst. destruct (String.eqb a k); constructor; auto. Qed.
Lemma update_some : forall k v e, update k v e <> [].
Proof. intros k v [|[a b] e]; cbn [update]; [discriminate|]. destruct (String.eqb a k); discriminate. Qed.
Definition good (e : env) : Prop := NoDup (map fst e) /\ Forall variable e.
Lemma rebuild : forall l e, NoDup (map fst (e ++ l)) -> fold_left (fun e '(k, v) => update k v e) l e = (e ++ l)%list.
Proof.
  induction l as [|[k v] l IH]; intros e H; [rewrite app_nil_r; reflexivity|]. cbn [fold_left]. assert (U : update k v e = (e ++ [(k, v)])%list).
  { clear IH. rewrite map_app in H. assert (N : ~ In k (map fst e)) by (intros X; apply NoDup_app_inv in H; destruct H as (_ & _ & H); apply (H k X); left; reflexivity). clear H. induction e as [|[a b] e IH]; [reflexivity|]. cbn [update]. destruct (String.eqb_spec a k) as [->|D]; [destruct N; left; reflexivity|]. cbn [app]. rewrite IH; [reflexivity|]. intros X. apply N. right. exact X. }
  rewrite U, IH; rewrite <- app_assoc; [reflexivity|exact H].
Qed.

(** ** The file *)
Lemma split_concat : forall c l, l <> [] -> Forall (fun x => has_char c x = false) l -> split_char c (String.concat (String c "") l) = l.
Proof.
  intros c l N F. induction F as [|x l H F IH]; [congruence|]. destruct l as [|y l]; [cbn [String.concat]; apply split_char_none; exact H|].
  change (String.concat (String c "") (x :: y :: l)) with (x ++ String c (String.concat (String c "") (y :: l))). rewrite split_char_app by exact H. rewrite IH by discriminate. reflexivity.
Qed.
Lemma block_is : forall e, e <> [] -> block e = String.concat (String nul "") (map (fun '(k, v) => k ++ "=" ++ v) e) ++ String nul (String nul "").
Proof.
  intros e N. unfold block. assert (E : forall e, e <> [] -> String.concat "" (map (fun '(k, v) => k ++ "=" ++ v ++ String nul "") e) = String.concat (String nul "") (map (fun '(k, v) => k ++ "=" ++ v) e) ++ String nul "").
  { clear. induction e as [|[k v] e IH]; intros N; [congruence|]. destruct e as [|[k' v'] e]; [cbn [map String.concat]; rewrite !append_assoc; reflexivity|]. specialize (IH ltac:(discriminate)). cbn [map] in *.
    change (String.concat "" ((k ++ "=" ++ v ++ String nul "") :: (k' ++ "=" ++ v' ++ String nul "") :: map (fun '(k0, v0) => k0 ++ "=" ++ v0 ++ String nul "") e)) with ((k ++ "=" ++ v ++ String nul "") ++ "" ++ String.concat "" ((k' ++ "=" ++ v' ++ String nul "") :: map (fun '(k0, v0) => k0 ++ "=" ++ v0 ++ String nul "") e)). rewrite IH.
    change (String.concat (String nul "") ((k ++ "=" ++ v) :: (k' ++ "=" ++ v') :: map (fun '(k0, v0) => k0 ++ "=" ++ v0) e)) with ((k ++ "=" ++ v) ++ String nul "" ++ String.concat (String nul "") ((k' ++ "=" ++ v') :: map (fun '(k0, v0) => k0 ++ "=" ++ v0) e)). rewrite !append_assoc. reflexivity. }
  rewrite (E e N), append_assoc. reflexivity.
Qed.
Lemma substring_front : forall a b, String.substring 0 (String.length a) (a ++ b) = a.
Proof. induction a as [|x a IH]; intros b; [destruct b; reflexivity|]. cbn [append String.length String.substring]. rewrite IH. reflexivity. Qed.
Lemma read_back : forall e, e <> [] -> good e -> get_env (block e) = Some e.
Proof.
  intros e N [D F]. unfold get_env. rewrite (block_is e N). rewrite str_length_app. cbn [String.length]. replace (String.length (String.concat (String nul "") (map (fun '(k, v) => k ++ "=" ++ v) e)) + 2 - 2) with (String.length (String.concat (String nul "") (map (fun '(k, v) => k ++ "=" ++ v) e))) by lia.
  rewrite substring_front, split_concat; [|destruct e; [congruence|discriminate]|].
  - assert (P : pairs (map (fun '(k, v) => k ++ "=" ++ v) e) = Some e).
    { clear N D. induction F as [|[k v] e (C1 & C2 & H) F IH]; [reflexivity|]. cbn [fst snd] in H. cbn [map pairs]. rewrite (split_line k v H), IH. reflexivity. }
    rewrite P. f_equal. exact (rebuild e [] D).
  - clear N D. induction F as [|[k v] e (C1 & C2 & H) F IH]; [constructor|]. cbn [fst snd] in C1, C2. cbn [map]. constructor; [|exact IH]. rewrite !has_char_app, (clean_nul k C1), (clean_nul v C2). reflexivity.
Qed.

(** ** What is saved *)
Definition saved (python : string) (vars : list (string * string)) (e : env) : env := fold_left (fun e line => save_line python line e) (map (fun '(k, v) => k ++ "=" ++ v) vars) e.
Lemma saved_is : forall python vars e n, Forall variable vars -> assoc n (saved python vars e) = match wanted python vars n with Some x => Some x | None => assoc n e end.
Proof.
  intros python. unfold saved. induction vars as [|[k v] vars IH]; intros e n F; [unfold wanted; cbn [value_of map fold_left]; destruct (needed n); reflexivity|]. inversion F as [|? ? (C1 & C2 & H) F']; subst. cbn [fst snd] in *. cbn [map fold_left]. rewrite (IH _ n F'), (save_is _ _ _ _ H). unfold wanted. cbn [value_of].
  destruct (needed n) eqn:N.
  - destruct (value_of vars n) as [x|]; [reflexivity|]. destruct (String.eqb_spec (capitals k) n) as [->|D].
    + rewrite N, assoc_update, String.eqb_refl. reflexivity.
    + destruct (needed (capitals k)); [|reflexivity]. rewrite assoc_update. destruct (String.eqb_spec n (capitals k)); [congruence|reflexivity].
  - destruct (needed (capitals k)) eqn:K; [|reflexivity]. rewrite assoc_update. destruct (String.eqb_spec n (capitals k)); [congruence|reflexivity].
Qed.
Lemma saved_good : forall python vars e, clean python -> Forall variable vars -> good e -> good (saved python vars e).
Proof.
  intros python. unfold saved. induction vars as [|[k v] vars IH]; intros e P F G; [exact G|]. inversion F as [|? ? (C1 & C2 & H) F']; subst. cbn [fst snd] in *. cbn [map fold_left]. apply IH; [exact P|exact F'|]. rewrite (save_is _ _ _ _ H). destruct (needed (capitals k)); [|exact G]. destruct G as [G1 G2]. split; [apply update_nodup; exact G1|]. apply update_all; [|exact G2].
  split; [exact (capitals_clean k C1)|]. cbn [fst snd]. split; [|rewrite capitals_no_equals; exact H]. destruct (String.eqb (capitals k) "PATH"); [|exact C2]. apply clean_app. split; [exact P|]. split; [vm_compute; congruence|exact C2].
Qed.
Definition required : list string := ["SYSTEMROOT"; "TEMP"; "TMP"].
Lemma has_equals : forall vars, vars <> [] -> has_char "=" (printed vars) = true.
Proof.
  intros [|[k v] vars] N; [congruence|]. unfold printed. cbn [map]. assert (X : forall l x, exists r, String.concat "" (x :: l) = x ++ r) by (intros [|y l] x; [exists ""; cbn; rewrite append_nil_r; reflexivity|eexists; reflexivity]). destruct (X (map (fun '(k0, v0) => k0 ++ "=" ++ v0 ++ String "013" (String "010" "")) vars) (k ++ "=" ++ v ++ String "013" (String "010" ""))) as [r ->].
  rewrite !has_char_app. change (has_char "=" "=") with true. rewrite orb_true_r. reflexivity.
Qed.
Lemma extract_is : forall python vars, Forall variable vars -> match extract python (printed vars) with
  | inl e => e = saved python vars [] /\ forall r, In r required -> value_of vars r <> None
  | inr _ => exists r, In r required /\ value_of vars r = None end.
Proof.
  intros python vars F. unfold extract. destruct vars as [|x vars']; [exists "TEMP"; split; [right; left; reflexivity|reflexivity]|]. set (vars := x :: vars') in *. rewrite has_equals by discriminate. cbn [negb]. cbv zeta. rewrite (splitlines_printed vars F). fold (saved python vars []).
  assert (W : forall r, In r required -> (mem r (map fst (saved python vars [])) = false <-> value_of vars r = None)).
  { intros r R. rewrite mem_false, <- assoc_None, (saved_is python vars [] r F). unfold wanted. replace (needed r) with true by (destruct R as [<-|[<-|[<-|[]]]]; reflexivity). destruct (value_of vars r); cbn [assoc]; split; congruence. }
  fold required. destruct (find (fun r => negb (mem r (map fst (saved python vars [])))) required) as [r|] eqn:E.
  - apply find_some in E. destruct E as [I E]. exists r. split; [exact I|]. apply (W r I). apply negb_true_iff. exact E.
  - split; [reflexivity|]. intros r R V. apply (W r R) in V. apply (find_none _ _ E) in R. rewrite V in R. discriminate R.
Qed.
