(** Proofs about the search for Visual Studio: the whole search. *)
From Verif Require Import Lib LibFacts Str StrFacts Js Model_Value Model_Vs Spec_Vs Proof_Vs.
From Coq Require Import ZArith.
Local Open Scope string_scope.

Lemma span_before_dot : forall x n rest, denotes x n -> span_digits (x ++ "." ++ rest) = (x, "." ++ rest).
Proof.
  intros x n rest D. apply denotes_iff in D. destruct D as (_ & D & _). apply span_digits_spec. split; [reflexivity|]. split; [exact D|]. intros X. apply starts_iff in X. destruct X as (c & s & [= <- _] & X). discriminate.
Qed.
Lemma span_denotes : forall s a d r, span_digits s = (String a d, r) -> s = String a d ++ r /\ denotes (String a d) (decimal 0 (String a d)).
Proof. intros s a d r H. apply span_digits_spec in H. destruct H as (E & D & _). split; [exact E|]. apply denotes_iff. split; [discriminate|auto]. Qed.
Lemma sdk_build_spec : forall v b, sdk_build v = Some b <-> exists x y rest m n k, v = x ++ "." ++ y ++ "." ++ b ++ "." ++ rest /\ denotes x m /\ denotes y n /\ denotes b k.
Proof.
  intros v b. unfold sdk_build. split.
  - destruct (span_digits v) as [[|a1 x] [|d1 r1]] eqn:E1; try discriminate. destruct (span_digits r1) as [[|a2 y] [|d2 r2]] eqn:E2; try discriminate. destruct (span_digits r2) as [[|a3 z] [|d3 rest]] eqn:E3; try discriminate.
    destruct (Ascii.eqb_spec d1 "."); [subst|discriminate]. destruct (Ascii.eqb_spec d2 "."); [subst|discriminate]. destruct (Ascii.eqb_spec d3 "."); [subst|discriminate]. cbn [andb]. intros [= <-].
    apply span_denotes in E1, E2, E3. destruct E1 as [-> D1], E2 as [-> D2], E3 as [-> D3]. eexists _, _, rest, _, _, _. split; [reflexivity|]. eauto.
  - intros (x & y & rest & m & n & k & -> & D1 & D2 & D3). rewrite (span_before_dot _ _ _ D1). destruct x as [|a1 x]; [apply denotes_iff in D1; destruct D1; congruence|]. cbn [append]. cbn [append] in *.
    pose proof (span_before_dot _ _ (b ++ "." ++ rest) D2) as S2. cbn [append] in S2. rewrite S2. destruct y as [|a2 y]; [apply denotes_iff in D2; destruct D2; congruence|].
    pose proof (span_before_dot _ _ rest D3) as S3. cbn [append] in S3. rewrite S3. destruct b as [|a3 b]; [apply denotes_iff in D3; destruct D3; congruence|]. reflexivity.
Qed.

Section Whole.
Variable pl : platform.
Variable a : answers.
Variables mv vc : string.
Notation w := (wishes_of pl mv vc).

Definition prompt_info : reported :=
  {| r_path := resolve pl (parent pl vc); r_version := a_cmd_ver a;
     r_packages := (["Microsoft.VisualStudio.Component.VC.Tools.x86.x64"; "Microsoft.VisualStudio.Component.VC.Tools.ARM64"; "Microsoft.VisualStudio.VC.MSBuild.Base"] ++
        match sdk_build (a_sdk_ver a) with Some b => [("Microsoft.VisualStudio.Component.Windows10SDK." ++ b ++ ".Desktop")%string] | None => [] end)%list |}.
Lemma of_prompt_iff : forall info, of_prompt pl a vc info <-> vc <> "" /\ info = prompt_info.
Proof.
  intros [p v ps]. unfold of_prompt, prompt_info. cbn [r_path r_version r_packages]. split.
  - intros (N & -> & -> & sdk & -> & [(x & y & b & rest & m & n & k & E & D1 & D2 & D3 & ->)|[NO ->]]); (split; [exact N|]).
    + assert (S : sdk_build (a_sdk_ver a) = Some b) by (apply sdk_build_spec; exists x, y, rest, m, n, k; auto). rewrite S. reflexivity.
    + destruct (sdk_build (a_sdk_ver a)) as [b|] eqn:S; [|reflexivity]. apply sdk_build_spec in S. destruct S as (x & y & rest & m & n & k & E & D1 & D2 & D3). destruct (NO x y b rest m n k D1 D2 D3 E).
  - intros [N [= -> -> ->]]. split; [exact N|]. split; [reflexivity|]. split; [reflexivity|]. destruct (sdk_build (a_sdk_ver a)) as [b|] eqn:S; eexists; (split; [reflexivity|]).
    + left. apply sdk_build_spec in S. destruct S as (x & y & rest & m & n & k & E & D1 & D2 & D3). exists x, y, b, rest, m, n, k. auto.
    + right. split; [|reflexivity]. intros x y b rest m n k D1 D2 D3 E. assert (X : sdk_build (a_sdk_ver a) = Some b) by (apply sdk_build_spec; exists x, y, rest, m, n, k; auto). congruence.
Qed.

(** a source of installations is right: what it gives is usable, and if it
    gives nothing there is none *)
Definition source_ok (src : reported -> Prop) (years : list Z) (o : option found) : Prop :=
  match o with
  | Some r => In (f_year r) years /\ exists info, src info /\ usable pl mv vc info r
  | None => forall info r, src info -> usable pl mv vc info r -> ~ In (f_year r) years
  end.
Lemma from_prompt_ok : forall years, source_ok (of_prompt pl a vc) years (from_prompt pl a w years).
Proof.
  intros years. unfold from_prompt. cbn [wishes_of w_prompt]. destruct (String.eqb_spec vc "") as [E|N].
  - intros info r P. apply of_prompt_iff in P. tauto.
  - fold prompt_info. pose proof (process_data_spec pl mv vc [prompt_info] years) as H. unfold source_ok. match goal with |- match ?x with _ => _ end => change x with (process_data pl w [prompt_info] years) end. destruct (process_data pl w [prompt_info] years) as [r|].
    + destruct H as (pre & info & post & E & U & I & _). split; [exact I|]. exists info. split; [|exact U]. apply of_prompt_iff. split; [exact N|]. destruct pre as [|y pre]; [injection E as E _; symmetry; exact E|destruct pre; discriminate].
    + intros info r P U. apply of_prompt_iff in P. destruct P as [_ ->]. exact (H prompt_info r (or_introl eq_refl) U).
Qed.
Lemma from_list_ok : forall o years, source_ok (fun info => exists l, o = Some l /\ In info l) years (from_list pl o w years).
Proof.
  intros [l|] years; unfold from_list, source_ok; [|intros info r (l & X & _); discriminate]. pose proof (process_data_spec pl mv vc l years) as H. destruct (process_data pl w l years) as [r|].
  - destruct H as (pre & info & post & -> & U & I & _). split; [exact I|]. exists info. split; [|exact U]. eexists. split; [reflexivity|]. apply in_or_app. right. left. reflexivity.
  - intros info r (l' & [= <-] & I) U. exact (H info r I U).
Qed.
Lemma find_old_ok : forall v y t, match find_old pl a w v y t with
  | Some r => f_year r = y /\ f_version r = v /\ f_toolset r = t /\ (exists c tools, a_vc a v = Some c /\ a_msbuild a v = Some tools /\ f_path r = parent pl c /\ f_msbuild r = join pl tools "MSBuild.exe") /\ f_sdk r = None /\ as_wished pl mv vc (f_year r) (f_path r)
  | None => forall c tools, a_vc a v = Some c -> a_msbuild a v = Some tools -> ~ as_wished pl mv vc y (parent pl c)
  end.
Proof.
  intros v y t. unfold find_old. destruct (a_vc a v) as [c|]; [|intros c tools [= ]]. destruct (a_msbuild a v) as [tools|]; [|intros c' tools _ [= ]]. destruct (check_config pl w y (parent pl c)) eqn:C.
  - apply check_config_spec in C. cbn. repeat (split; [reflexivity|]). split; [eauto 10|]. auto.
  - intros c' tools' [= <-] _ W. apply check_config_spec in W. congruence.
Qed.

Lemma first_some_In : forall l r, first_some l = Some r -> In (Some r) l.
Proof. induction l as [|[x|] l IH]; intros r H; [discriminate|injection H as ->; left; reflexivity|right; apply IH, H]. Qed.


Lemma usable_year : forall info r, usable pl mv vc info r -> (f_year r = 2017 \/ f_year r = 2019 \/ f_year r = 2022)%Z.
Proof. intros info r (_ & _ & _ & _ & _ & T & _). unfold toolset_of in T. tauto. Qed.

Lemma find_vs_cases : forall major,
  match find_vs pl a major mv vc with
  | Some r =>
    ((exists info, known pl a vc info /\ usable pl mv vc info r) /\ (f_year r = 2019 \/ f_year r = 2022)%Z) \/
    ((exists info, known pl a vc info /\ usable pl mv vc info r) /\ f_year r = 2017%Z /\ major < 22 /\
       (forall info r', known pl a vc info -> usable pl mv vc info r' -> f_year r' = 2017%Z)) \/
    (usable_old pl a mv vc r /\ f_year r = 2015%Z /\ major < 19 /\ (forall info r', known pl a vc info -> ~ usable pl mv vc info r')) \/
    (usable_old pl a mv vc r /\ f_year r = 2013%Z /\ major < 9 /\ (forall info r', known pl a vc info -> ~ usable pl mv vc info r') /\ (forall r', usable_old pl a mv vc r' -> f_year r' <> 2015%Z))
  | None => (forall info r', known pl a vc info -> usable pl mv vc info r' -> f_year r' = 2017%Z /\ 22 <= major) /\
    (forall r', usable_old pl a mv vc r' -> (f_year r' = 2015%Z /\ 19 <= major) \/ (f_year r' = 2013%Z /\ 9 <= major))
  end.
Proof.
  intros major. unfold find_vs.
  assert (G19 : forall r, In (f_year r) [2019; 2022]%Z -> (f_year r = 2019 \/ f_year r = 2022)%Z) by (intros r [<-|[<-|[]]]; auto).
  assert (G17 : forall r, In (f_year r) [2017]%Z -> f_year r = 2017%Z) by (intros r [<-|[]]; auto).
  assert (N19 : forall r, ~ In (f_year r) [2019; 2022]%Z -> f_year r <> 2019%Z /\ f_year r <> 2022%Z) by (intros r H; split; intros E; apply H; rewrite E; cbn; auto).
  assert (N17 : forall r, ~ In (f_year r) [2017]%Z -> f_year r <> 2017%Z) by (intros r H E; apply H; rewrite E; cbn; auto).
  pose proof (from_prompt_ok [2019; 2022]%Z) as P1. destruct (from_prompt pl a w [2019; 2022]%Z) as [r|]; [cbn [first_some]; left; destruct P1 as (I & info & K & U); split; [exists info; split; [left; exact K|exact U]|apply G19, I]|].
  pose proof (from_list_ok (a_setup a) [2019; 2022]%Z) as P2. destruct (from_list pl (a_setup a) w [2019; 2022]%Z) as [r|]; [cbn [first_some]; left; destruct P2 as (I & info & K & U); split; [exists info; split; [right; left; exact K|exact U]|apply G19, I]|].
  pose proof (from_list_ok (a_script a) [2019; 2022]%Z) as P3. destruct (from_list pl (a_script a) w [2019; 2022]%Z) as [r|]; [cbn [first_some]; left; destruct P3 as (I & info & K & U); split; [exists info; split; [right; right; exact K|exact U]|apply G19, I]|].
  assert (Y17 : forall info r', known pl a vc info -> usable pl mv vc info r' -> f_year r' = 2017%Z).
  { intros info r' K U. destruct (usable_year _ _ U) as [E|E]; [exact E|]. exfalso. assert (X : In (f_year r') [2019; 2022]%Z) by (destruct E as [-> | ->]; cbn; auto). destruct K as [K|[K|K]]; [exact (P1 _ _ K U X)|exact (P2 _ _ K U X)|exact (P3 _ _ K U X)]. }
  clear P1 P2 P3. cbn [first_some].
  assert (OLD : forall v y t r, find_old pl a w v y t = Some r -> (y = 2015%Z /\ v = "14.0" /\ t = "v140") \/ (y = 2013%Z /\ v = "12.0" /\ t = "v120") -> usable_old pl a mv vc r /\ f_year r = y).
  { intros v y t r E C. pose proof (find_old_ok v y t) as H. rewrite E in H. destruct H as (<- & <- & <- & P & S & W). split; [|reflexivity]. unfold usable_old. auto. }
  assert (NOLD : forall v y t, find_old pl a w v y t = None -> forall r', usable_old pl a mv vc r' -> f_version r' = v -> f_year r' <> y).
  { intros v y t E r' (_ & (c & tools & C & T & P & _) & _ & W) <- <-. pose proof (find_old_ok (f_version r') (f_year r') t) as H. rewrite E in H. apply (H c tools C T). rewrite <- P. exact W. }
  assert (V15 : forall r', usable_old pl a mv vc r' -> f_year r' = 2015%Z -> f_version r' = "14.0") by (intros r' ([(_ & V & _)|(Y & _)] & _) E; [exact V|rewrite Y in E; discriminate]).
  assert (V13 : forall r', usable_old pl a mv vc r' -> f_year r' = 2013%Z -> f_version r' = "12.0") by (intros r' ([(Y & _)|(_ & V & _)] & _) E; [rewrite Y in E; discriminate|exact V]).
  assert (Y1513 : forall r', usable_old pl a mv vc r' -> f_year r' = 2015%Z \/ f_year r' = 2013%Z) by (intros r' ([(Y & _)|(Y & _)] & _); auto).
  destruct (Nat.leb_spec 22 major) as [L22|L22]; cbn [first_some].
  - destruct (Nat.leb_spec 19 major) as [L19|L19]; [|lia]. destruct (Nat.leb_spec 9 major) as [L9|L9]; [|lia]. cbn [first_some]. split; [intros info r' K U; split; [exact (Y17 _ _ K U)|exact L22]|]. intros r' O. destruct (Y1513 r' O); auto.
  - pose proof (from_prompt_ok [2017]%Z) as P1. destruct (from_prompt pl a w [2017]%Z) as [r|]; [cbn [first_some]; right; left; destruct P1 as (I & info & K & U); split; [exists info; split; [left; exact K|exact U]|]; split; [apply G17, I|auto]|].
    pose proof (from_list_ok (a_setup a) [2017]%Z) as P2. destruct (from_list pl (a_setup a) w [2017]%Z) as [r|]; [cbn [first_some]; right; left; destruct P2 as (I & info & K & U); split; [exists info; split; [right; left; exact K|exact U]|]; split; [apply G17, I|auto]|].
    pose proof (from_list_ok (a_script a) [2017]%Z) as P3. destruct (from_list pl (a_script a) w [2017]%Z) as [r|]; [cbn [first_some]; right; left; destruct P3 as (I & info & K & U); split; [exists info; split; [right; right; exact K|exact U]|]; split; [apply G17, I|auto]|].
    assert (NO : forall info r', known pl a vc info -> ~ usable pl mv vc info r').
    { intros info r' K U. pose proof (Y17 _ _ K U) as E. assert (X : In (f_year r') [2017]%Z) by (rewrite E; cbn; auto). destruct K as [K|[K|K]]; [exact (P1 _ _ K U X)|exact (P2 _ _ K U X)|exact (P3 _ _ K U X)]. }
    clear P1 P2 P3. cbn [first_some].
    assert (F15 : forall o, (o = None -> forall r', usable_old pl a mv vc r' -> f_year r' <> 2015%Z \/ 19 <= major) -> (match o with Some r => usable_old pl a mv vc r /\ f_year r = 2015%Z /\ major < 19 | None => True end) ->
      match first_some [o; if (9 <=? major)%nat then None else find_old pl a w "12.0" 2013 "v120"] with
      | Some r => (usable_old pl a mv vc r /\ f_year r = 2015%Z /\ major < 19) \/ (usable_old pl a mv vc r /\ f_year r = 2013%Z /\ major < 9 /\ (forall r', usable_old pl a mv vc r' -> f_year r' <> 2015%Z))
      | None => forall r', usable_old pl a mv vc r' -> (f_year r' = 2015%Z /\ 19 <= major) \/ (f_year r' = 2013%Z /\ 9 <= major) end).
    { intros [o|] HN HS; cbn [first_some]; [left; exact HS|]. specialize (HN eq_refl). destruct (Nat.leb_spec 9 major) as [L9|L9].
      - intros r' O. destruct (Y1513 r' O) as [Y|Y]; [|auto]. destruct (HN r' O); [contradiction|auto].
      - destruct (find_old pl a w "12.0" 2013 "v120") as [r|] eqn:E.
        + destruct (OLD _ _ _ _ E (or_intror (conj eq_refl (conj eq_refl eq_refl)))) as [O Y]. right. split; [exact O|]. split; [exact Y|]. split; [exact L9|]. intros r' O'. destruct (HN r' O'); [assumption|lia].
        + intros r' O. destruct (Y1513 r' O) as [Y|Y]; [destruct (HN r' O); [contradiction|auto]|]. destruct (NOLD _ _ _ E r' O (V13 r' O Y) Y). }
    specialize (F15 (if (19 <=? major)%nat then None else find_old pl a w "14.0" 2015 "v140")).
    match type of F15 with ?A -> ?B -> _ => assert (HA : A); [|assert (HB : B)] end.
    + intros E r' O. destruct (Nat.leb_spec 19 major) as [L19|L19]; [right; exact L19|]. left. intros Y. exact (NOLD _ _ _ E r' O (V15 r' O Y) Y).
    + destruct (Nat.leb_spec 19 major) as [L19|L19]; [exact I|]. destruct (find_old pl a w "14.0" 2015 "v140") as [r|] eqn:E; [|exact I]. destruct (OLD _ _ _ _ E (or_introl (conj eq_refl (conj eq_refl eq_refl)))) as [O Y]. auto.
    + specialize (F15 HA HB). cbn [first_some] in *. match goal with |- match ?x with _ => _ end => destruct x as [r|] end.
      * right. right. destruct F15 as [(O & Y & L)|(O & Y & L & X)]; [left; auto|right; auto 10].
      * split; [intros info r' K U; destruct (NO _ _ K U)|exact F15].
Qed.
End Whole.

Lemma vs_found : forall pl a major mv vc r, find_vs pl a major mv vc = Some r ->
  node_allows major (f_year r) /\ ((exists info, known pl a vc info /\ usable pl mv vc info r) \/ usable_old pl a mv vc r) /\
  (forall info r', known pl a vc info -> usable pl mv vc info r' -> node_allows major (f_year r') -> (2017 <= f_year r /\ (f_year r' <= f_year r \/ 2019 <= f_year r))%Z) /\
  (forall r', usable_old pl a mv vc r' -> node_allows major (f_year r') -> (f_year r' <= f_year r)%Z).
Proof.
  intros pl a major mv vc r E. pose proof (find_vs_cases pl a mv vc major) as H. rewrite E in H. unfold node_allows.
  assert (Y1513 : forall r', usable_old pl a mv vc r' -> f_year r' = 2015%Z \/ f_year r' = 2013%Z) by (intros r' ([(Y & _)|(Y & _)] & _); auto).
  destruct H as [(K & Y)|[(K & Y & L & X)|[(O & Y & L & X)|(O & Y & L & X & X2)]]].
  - split; [tauto|]. split; [left; exact K|]. split; [intros; lia|]. intros r' O' _. specialize (Y1513 r' O'). lia.
  - split; [tauto|]. split; [left; exact K|]. split; [intros info r' K' U' _; rewrite (X _ _ K' U'); lia|]. intros r' O' _. specialize (Y1513 r' O'). lia.
  - split; [tauto|]. split; [right; exact O|]. split; [intros info r' K' U'; destruct (X _ _ K' U')|]. intros r' O' _. specialize (Y1513 r' O'). lia.
  - split; [tauto|]. split; [right; exact O|]. split; [intros info r' K' U'; destruct (X _ _ K' U')|]. intros r' O' _. specialize (Y1513 r' O'). specialize (X2 r' O'). lia.
Qed.
Lemma vs_none : forall pl a major mv vc, find_vs pl a major mv vc = None <->
  (forall info r, known pl a vc info -> usable pl mv vc info r -> ~ node_allows major (f_year r)) /\ (forall r, usable_old pl a mv vc r -> ~ node_allows major (f_year r)).
Proof.
  intros pl a major mv vc. pose proof (find_vs_cases pl a mv vc major) as H. destruct (find_vs pl a major mv vc) as [r|] eqn:E.
  - split; [discriminate|]. intros [N1 N2]. exfalso. apply vs_found in E. destruct E as (A & [(info & K & U)|O] & _); [exact (N1 _ _ K U A)|exact (N2 _ O A)].
  - split; [intros _|reflexivity]. destruct H as [H1 H2]. unfold node_allows. split; [intros info r K U; specialize (H1 _ _ K U); lia|intros r O; specialize (H2 _ O); lia].
Qed.
