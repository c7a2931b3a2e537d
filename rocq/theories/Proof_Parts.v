From Verif Require Import Lib LibFacts Str StrFacts Model_Names Model_Path Model_Graph Model_Release Model_Quote Model_Writer Spec_Path Spec_Writer Spec_Remake Spec_Suffix Spec_Parts Proof_Path Proof_Path2 Proof_Writer Proof_Writer2 Proof_Remake Proof_Suffix.
From Coq Require Import Lia.
Local Open Scope string_scope.

(** ** Replacing with any first character *)
Lemma replace_other : forall x p by_ a s, has_char x a = false -> replace (String x p) by_ (a ++ s) = a ++ replace (String x p) by_ s.
Proof.
  intros x p by_ a s. unfold replace. induction a as [|y a IH]; intros H; [reflexivity|]. cbn [has_char] in H. destruct (Ascii.eqb_spec y x) as [_|N]; [discriminate|].
  cbn [append replace_from String.prefix]. destruct (ascii_dec x y) as [E|_]; [congruence|]. rewrite (IH H). reflexivity.
Qed.
Lemma replace_absent : forall x p by_ a, has_char x a = false -> replace (String x p) by_ a = a.
Proof. intros x p by_ a H. rewrite <- (append_nil_r a) at 1. rewrite replace_other by exact H. cbn. apply append_nil_r. Qed.
Lemma split_name : forall f n, dirlike f -> has_char "/" n = false -> snd (path_split (f ++ n)) = n.
Proof.
  intros f n [->|(p & ->)] H; unfold path_split.
  - cbn [append]. unfold slash. rewrite (proj2 (rsplit1_None "/" n) H). reflexivity.
  - assert (X : rsplit1 slash ((p ++ "/") ++ n) = Some (p, n)) by (apply rsplit1_Some; split; [rewrite append_assoc; reflexivity|exact H]). rewrite X. reflexivity.
Qed.
Lemma splitext_name : forall n e, plain_name n -> has_char "." e = false -> has_char "/" e = false -> splitext (n ++ String "." e) = (n, String "." e).
Proof.
  intros n e N D S. pose proof (not_dots n N) as O. destruct N as (Sn & _). unfold splitext.
  assert (B : has_char "/" (n ++ String "." e) = false) by (rewrite has_char_app, Sn; exact S). rewrite (proj2 (rsplit1_None "/" _) B).
  assert (R : rsplit1 "." (n ++ String "." e) = Some (n, e)) by (apply rsplit1_Some; auto). rewrite R, O. reflexivity.
Qed.
Lemma rule_output : forall r a b d n e, In (a ++ "%(INPUT_ROOT)s" ++ b) (rule_outputs r) -> has_char "%" a = false -> has_char "%" b = false -> has_char "%" n = false ->
  dirlike d -> plain_name n -> has_char "." e = false -> has_char "/" e = false -> In (a ++ n ++ b) (rule_outputs_for r (d ++ n ++ "." ++ e)).
Proof.
  intros r a b d n e I A B N D P E S. unfold rule_outputs_for. apply in_map_iff. exists (a ++ "%(INPUT_ROOT)s" ++ b). split; [|exact I].
  assert (SN : snd (path_split (d ++ n ++ "." ++ e)) = n ++ "." ++ e) by (apply split_name; [exact D|rewrite has_char_app; destruct P as (-> & _); exact S]). rewrite SN. change (n ++ "." ++ e) with (n ++ String "." e). rewrite splitext_name by assumption. cbn [fst].
  unfold expand_input_root. rewrite (replace_other "%" "(INPUT_ROOT)s") by exact A. rewrite (replace_hit "%" "(INPUT_ROOT)s" n b), (replace_absent "%" "(INPUT_ROOT)s") by exact B.
  apply replace_absent. rewrite !has_char_app, A, B, N. reflexivity.
Qed.

(** ** What files are made from *)
Section Written.
Variables (sha1 : string -> string) (needed : string -> bool) (ts : list target) (rs : list written).
Hypothesis ND : NoDup (map qualified ts).
Hypothesis M : makefile sha1 needed ts = Some rs.

Lemma rule_feeds : forall outs ins lines force c x y, In x outs -> In y ins -> incl (write_rule sha1 outs ins lines false force c) rs -> made_from rs x y.
Proof.
  intros outs ins lines force c x y X Y H. destruct outs as [|o [|o' l]]; [destruct X| |].
  - left. destruct X as [<-|[]]. eexists. split; [apply H; left; reflexivity|]. cbn. auto.
  - right. exists (sha1 c ++ ".intermediate"). split.
    + eexists. split; [apply H; left; reflexivity|]. split; [exact X|left; reflexivity].
    + eexists. split; [apply H; right; left; reflexivity|]. split; [left; reflexivity|exact Y].
Qed.
Lemma rule_sources_in : forall t r l k s, In s l -> exists n, incl (write_rule_source sha1 t r n s) (write_rule_sources sha1 t r k l).
Proof.
  intros t r. induction l as [|x l IH]; intros k s I; [destruct I|]. destruct I as [<-|I]; cbn [write_rule_sources]; [exists k; apply incl_appl, incl_refl|]. destruct (IH (S k) s I) as (n & N). exists n. apply incl_appr, N.
Qed.
Lemma uses_from : forall t o i, In t ts -> uses t o i -> made_from rs (output t o) (input t i).
Proof.
  intros t o i I U. destruct (part_of sha1 needed ts rs ND M t I) as (deps & links & W & _). destruct U as [a o i A O J|r s o R S O|r s o i R S O J].
  - apply (rule_feeds (map (output t) (action_outputs a)) (map (input t) (action_inputs a)) [Do (action_variable t (action_name a))] true (action_variable t (action_name a))); [apply in_map, O|apply in_map, J|].
    intros r K. apply W. unfold write_all. apply in_or_app. left. apply in_flat_map. exists a. split; [exact A|exact K].
  - destruct (rule_sources_in t r (rule_sources r) 0 s S) as (n & N). eapply rule_feeds; [apply in_map, O|apply (in_map (input t) (s :: rule_inputs r) s); left; reflexivity|].
    eapply incl_tran; [exact N|]. intros k K. apply W. unfold write_all. apply in_or_app. right. apply in_or_app. left. apply in_flat_map. exists r. auto.
  - destruct (rule_sources_in t r (rule_sources r) 0 s S) as (n & N). eapply rule_feeds; [apply in_map, O|apply (in_map (input t) (s :: rule_inputs r) i); right; exact J|].
    eapply incl_tran; [exact N|]. intros k K. apply W. unfold write_all. apply in_or_app. right. apply in_or_app. left. apply in_flat_map. exists r. auto.
Qed.

Lemma generate_from : forall l k out r, generate sha1 needed k l = Some out -> In r out -> exists t deps link_deps part, In t l /\ In r (write_all sha1 t deps link_deps part).
Proof.
  induction l as [|t l IH]; intros k out r H I; cbn [generate] in H; [injection H as <-; destruct I|]. destruct (acceptable t); [|discriminate]. destruct (compute_deps k t) as [[deps ls]|]; [|discriminate].
  destruct (generate sha1 needed (learn k t) l) as [out'|] eqn:G; [|discriminate]. injection H as <-. apply in_app_or in I. destruct I as [I|I].
  - exists t, deps, ls, (needed (qualified t)). split; [left; reflexivity|exact I].
  - destruct (IH _ _ _ G I) as (u & d & ld & p & U & R). exists u, d, ld, p. split; [right; exact U|exact R].
Qed.
Definition lone (r : written) : Prop := runs_something r -> exists x, heads r = [x].
Lemma nothing_run : forall h n o f, lone {| heads := h; needs := n; orders := o; forced := f; recipe := [] |}.
Proof. intros h n o f (l & [] & _). Qed.
Lemma rule_lone : forall outs ins lines oo force c r, (oo = true -> lines = []) -> In r (write_rule sha1 outs ins lines oo force c) -> lone r.
Proof.
  intros outs ins lines oo force c r OO I. unfold write_rule in I. destruct oo; [destruct I as [<-|[]]; rewrite (OO eq_refl); apply nothing_run|].
  assert (T : forall r0, In r0 [{| heads := outs; needs := [sha1 c ++ ".intermediate"]; orders := []; forced := false; recipe := [No_op] |}; {| heads := [sha1 c ++ ".intermediate"]; needs := ins; orders := []; forced := force; recipe := Do "touch" :: lines |}] -> lone r0).
  { intros r0 [<-|[<-|[]]]; intros (l & L & N); [destruct L as [<-|[]]; congruence|]. eexists. reflexivity. }
  destruct outs as [|o [|o' l]]; [apply T, I| |apply T, I]. destruct I as [<-|[]]. intros _. exists o. reflexivity.
Qed.
Lemma rule_sources_lone : forall t r l k w, In w (write_rule_sources sha1 t r k l) -> lone w.
Proof. intros t r. induction l as [|s l IH]; intros k w I; [destruct I|]. cbn [write_rule_sources] in I. apply in_app_or in I. destruct I as [I|I]; [eapply rule_lone; [|exact I]; discriminate|exact (IH _ _ I)]. Qed.
Lemma one_file : forall r, In r rs -> runs_something r -> exists x, heads r = [x].
Proof.
  intros r I. destruct (generate_from _ _ _ _ M I) as (t & deps & ls & part & _ & W). change (lone r).
  assert (DO : forall outs ins c, In r (write_do_cmd sha1 outs ins c) -> lone r) by (intros outs ins c; apply rule_lone; discriminate).
  assert (OR : forall outs ins, In r (write_order sha1 outs ins) -> lone r) by (intros outs ins; apply rule_lone; reflexivity).
  assert (PH : forall outs ins, In r (write_phony sha1 outs ins) -> lone r) by (intros outs ins; apply rule_lone; discriminate).
  unfold write_all in W. apply in_app_or in W. destruct W as [W|W]; [apply in_flat_map in W; destruct W as (a & _ & W); exact (DO _ _ _ W)|].
  apply in_app_or in W. destruct W as [W|W]; [apply in_flat_map in W; destruct W as (a & _ & W); exact (rule_sources_lone _ _ _ _ _ W)|].
  apply in_app_or in W. destruct W as [W|W]; [apply in_flat_map in W; destruct W as (a & _ & W); unfold write_copy in W; apply in_flat_map in W; destruct W as (f & _ & W); exact (DO _ _ _ W)|].
  apply in_app_or in W. destruct W as [W|W].
  - destruct (sources t ++ extra_sources t)%list; [destruct W|]. unfold write_sources in W. apply in_app_or in W. destruct W as [W|W]; [destruct deps; [destruct W|exact (OR _ _ W)]|].
    apply in_app_or in W. destruct W as [W|W]; [destruct (has_generated t); [exact (OR _ _ W)|destruct W]|]. apply in_flat_map in W. destruct W as (s' & _ & [<-|[]]). intros _. eexists. reflexivity.
  - unfold write_final in W. apply in_app_or in W. destruct W as [W|W]; [destruct (has_generated t); [apply in_app_or in W; destruct W as [W|W]; exact (OR _ _ W)|destruct W]|].
    apply in_app_or in W. destruct W as [W|W].
    { unfold write_binary in W. destruct (type t); try exact (DO _ _ _ W). eapply rule_lone; [|exact W]. discriminate. }
    apply in_app_or in W. destruct W as [W|W].
    { destruct (_ && _); [|destruct W]. apply in_app_or in W. destruct W as [W|W]; [exact (PH _ _ W)|]. destruct part; [exact (PH _ _ W)|destruct W]. }
    destruct (installable t); [|destruct W]. apply in_app_or in W. destruct W as [W|W]; [exact (PH _ _ W)|]. apply in_app_or in W. destruct W as [W|W]; [destruct (String.eqb _ _); [destruct W|exact (DO _ _ _ W)]|].
    apply in_app_or in W. destruct W as [W|W]; [destruct (_ || _); [destruct W|exact (PH _ _ W)]|]. destruct part; [exact (PH _ _ W)|destruct W].
Qed.

(** ** Sources and objects *)
Lemma substring_all : forall e, substring 0 (String.length e) e = e.
Proof. induction e as [|a e IH]; [reflexivity|]. cbn. rewrite IH. reflexivity. Qed.
Lemma substring_end : forall b e, substring (String.length b) (String.length e) (b ++ e) = e.
Proof. induction b as [|a b IH]; intros e; [apply substring_all|]. cbn. apply IH. Qed.
Lemma length_app : forall a b, String.length (a ++ b) = String.length a + String.length b.
Proof. induction a as [|x a IH]; intros b; [reflexivity|]. cbn. rewrite IH. reflexivity. Qed.
Lemma ends_app : forall b e, ends_with e (b ++ e) = true.
Proof.
  intros b e. unfold ends_with. rewrite length_app. replace (String.length b + String.length e - String.length e) with (String.length b) by lia. rewrite substring_end.
  pose proof (prefix_app e "") as P. rewrite append_nil_r in P. rewrite P. cbn [andb]. apply Nat.leb_le. lia.
Qed.
Lemma language_compilable : forall b e c, In (e, c) languages -> compilable (b ++ e) = true.
Proof. intros b e c I. unfold compilable. apply existsb_exists. exists (e, c). split; [exact I|apply ends_app]. Qed.
Lemma source_in : forall t s, source_of t s -> In s (sources t ++ extra_sources t).
Proof.
  intros t s H. apply in_or_app. destruct H as [s I|a s A O I|r x s R O X I]; [left; exact I|right..]; unfold extra_sources; apply in_or_app.
  - left. apply in_flat_map. exists a. split; [exact A|]. rewrite O. exact I.
  - right. apply in_flat_map. exists r. split; [exact R|]. rewrite O. apply in_flat_map. exists x. auto.
Qed.
Lemma source_compiled : forall t b e c, source_of t (b ++ e) -> In (e, c) languages -> In (b ++ e) (compiled t).
Proof. intros t b e c S L. unfold compiled. apply filter_In. split; [apply source_in, S|apply (language_compilable b e c L)]. Qed.
Lemma source_linked : forall t b e c, In t ts -> links t -> source_of t (b ++ e) -> In (e, c) languages -> feeds rs (binary t) (object_of t (b ++ e)).
Proof.
  intros t b e c I L S E. destruct (part_of sha1 needed ts rs ND M t I) as (deps & ld & W & _).
  assert (O : In (object_of t (b ++ e)) (objects t ++ linked t ++ ld)) by (apply in_or_app; left; apply in_map, (source_compiled t b e c S E)).
  destruct (type t) eqn:T; [| | | |congruence].
  all: eexists; (split; [apply W, (in_final sha1 t deps ld); unfold write_final; apply in_or_app; right; apply in_or_app; left; unfold write_binary; rewrite T; left; reflexivity|]); split; [left; reflexivity|exact O].
Qed.

(** ** Copies *)
Lemma contains_pre : forall s, contains "$(" ("$(" ++ s) = true.
Proof. intros s. pose proof (prefix_app "$(" s) as P. cbn [append] in *. cbn [contains]. rewrite P. reflexivity. Qed.
Lemma absolutify_var : forall t r m, m <> "" -> has_char "/" m = false -> absolutify t ("$(" ++ r ++ m) = "$(" ++ r ++ m.
Proof. intros t r m N S. unfold absolutify. rewrite contains_pre. rewrite <- append_assoc. apply rstrip_app; assumption. Qed.
Lemma named_file : forall t n f, has_char "$" (path t) = false -> (forall r, path t <> String "/" r) -> file_named n f -> snd (path_split (sourceify (absolutify t f))) = n.
Proof.
  intros t n f PD PA (N & d & D & -> & C). pose proof (name_nonempty n N) as NE. destruct N as (S & DN & a & x & b & EN & X). destruct C as [(DD & DA)|(r & ->)].
  - destruct (join_dir (path t) d D DA PA) as (q & QL & QA & QD & QJ). destruct (norm_last q QL QA) as (g & GL & GA & GD & GN).
    assert (ABS : absolutify t (d ++ n) = g ++ n).
    { unfold absolutify. rewrite (contains_none "(") by (rewrite has_char_app, DD; exact DN). rewrite QJ by assumption. apply GN; try assumption; subst n; destruct a as [|y [|z a]]; cbn; intros Q; injection Q; intros; try congruence; destruct a; discriminate. }
    rewrite ABS. unfold sourceify. rewrite (contains_none "(") by (rewrite has_char_app, (GD (QD PD DD)); exact DN). destruct (isabs (g ++ n)); [apply split_name; assumption|].
    rewrite <- append_assoc. apply split_name; [|exact S]. right. destruct GL as [->|(p & ->)]; [exists "$(srcdir)"; reflexivity|exists ("$(srcdir)/" ++ p); reflexivity].
  - rewrite append_assoc, absolutify_var by assumption. unfold sourceify. rewrite contains_pre. rewrite <- append_assoc. apply split_name; assumption.
Qed.
Lemma expand_builddir : forall t s, has_char "$" s = false -> expand t ("$(builddir)" ++ s) = "$(builddir)" ++ s.
Proof.
  intros t s H. unfold expand. assert (A : replace "$(TOOLSET)" (toolset t) ("$(builddir)" ++ s) = "$(builddir)" ++ replace "$(TOOLSET)" (toolset t) s) by reflexivity. rewrite A, (replace_none "(TOOLSET)") by exact H.
  assert (B : replace "$(TARGET)" (target_name t) ("$(builddir)" ++ s) = "$(builddir)" ++ replace "$(TARGET)" (target_name t) s) by reflexivity. rewrite B, (replace_none "(TARGET)") by exact H. reflexivity.
Qed.
Lemma input_builddir : forall t s m, has_char "$" s = false -> has_char "$" m = false -> has_char "/" m = false -> m <> "" -> input t ("$(builddir)" ++ s ++ m) = "$(builddir)" ++ s ++ m.
Proof.
  intros t s m H H' S N. unfold input. change ("$(builddir)" ++ s ++ m) with ("$(" ++ ("builddir)" ++ s) ++ m). rewrite absolutify_var by assumption. unfold sourceify. rewrite contains_pre.
  apply expand_builddir. rewrite has_char_app, H, H'. reflexivity.
Qed.
Lemma ends_slash_last : forall p c, ends_slash (p ++ String c "") = Ascii.eqb c "/".
Proof. induction p as [|a p IH]; intros c; [reflexivity|]. cbn [append ends_slash]. destruct (p ++ String c "") eqn:E; [destruct p; discriminate|]. rewrite <- E. apply IH. Qed.
Lemma plain_nodots : forall n, plain_name n -> n <> "" /\ n <> "." /\ n <> "..".
Proof.
  intros n (_ & _ & a & x & b & -> & X). repeat split.
  - destruct a; discriminate.
  - destruct a as [|y [|z a]]; cbn; intros Q; injection Q; intros; congruence.
  - destruct a as [|y [|z a]]; cbn; intros Q; injection Q; intros; try congruence. destruct a; discriminate.
Qed.
Lemma copy_goes : forall t c f n, has_char "$" (path t) = false -> (forall r, path t <> String "/" r) -> file_named n f -> plain_destination (destination c) -> goes t n (destination c) (copy_output t c f).
Proof.
  intros t c f n PD PA F D. pose proof (named_file t n f PD PA F) as NF. unfold copy_output. rewrite NF. destruct F as (N & _). destruct (plain_nodots n N) as (N1 & N2 & N3). pose proof N as (S & DN & _).
  assert (NA : isabs n = false) by (destruct n as [|y m]; [reflexivity|]; cbn [isabs has_char] in *; unfold slash; destruct (Ascii.eqb y "/"); [discriminate|reflexivity]).
  destruct D as [(DD & DA)|(p & E & PP)].
  - destruct (join_dir (destination c) "" (or_introl eq_refl) (fun r => ltac:(discriminate)) DA) as (q & QL & QA & QD & QJ). specialize (QJ n S N1). cbn [append] in QJ. specialize (QD DD eq_refl).
    assert (QR : forall r, q <> String "/" r) by (intros r E; rewrite E in QA; discriminate).
    destruct (join_dir (path t) q QL QR PA) as (u & UL & UA & UD & UJ). destruct (norm_last u UL UA) as (g & GL & GA & GD & GN). specialize (UD PD QD). specialize (GD UD).
    assert (ABS : absolutify t (path_join (destination c) n) = g ++ n).
    { rewrite QJ. unfold absolutify. rewrite (contains_none "(") by (rewrite has_char_app, QD; exact DN). rewrite UJ by assumption. apply GN; assumption. }
    assert (GNA : isabs (g ++ n) = false) by (destruct g; [exact NA|exact GA]).
    unfold input. rewrite ABS. unfold sourceify. rewrite (contains_none "(") by (rewrite has_char_app, GD; exact DN). rewrite GNA.
    assert (EX : expand t ("$(srcdir)/" ++ g ++ n) = "$(srcdir)/" ++ g ++ n) by (apply (expand_src t ("/" ++ g ++ n)); rewrite !has_char_app, GD, DN; reflexivity). rewrite EX.
    apply goes_tree; [exact DD|exact DA|intros r E; rewrite E in GNA; discriminate|]. intros here. rewrite <- ABS, QJ. unfold absolutify. rewrite (contains_none "(") by (rewrite has_char_app, QD; exact DN).
    rewrite locate_normpath, locate_join, <- QJ, locate_join. reflexivity.
  - rewrite E. unfold path_join. rewrite NA. cbn [String.eqb append orb]. destruct (ends_slash ("$(builddir)" ++ p)) eqn:ES; cbn [append] in ES; rewrite ES; cbn [orb].
    + assert (ES' : ends_slash p = true) by (destruct p; [discriminate|exact ES]). destruct (ends_slash_snoc p ES') as (r & ->). rewrite has_char_app in PP. apply orb_false_iff in PP. destruct PP as [PR _].
      assert (X : input t ("$(builddir)" ++ (r ++ "/") ++ n) = "$(builddir)" ++ r ++ "/" ++ n).
      { rewrite input_builddir; try assumption; [rewrite append_assoc; reflexivity|]. rewrite has_char_app, PR. reflexivity. }
      cbn [append] in X. rewrite X. apply (goes_slash t n r PR).
    + assert (X : input t ("$(builddir)" ++ (p ++ "/") ++ n) = "$(builddir)" ++ p ++ "/" ++ n).
      { rewrite input_builddir; try assumption; [rewrite append_assoc; reflexivity|]. rewrite has_char_app, PP. reflexivity. }
      rewrite append_assoc in X. cbn [append] in X. unfold sep. cbn [append]. rewrite X. apply (goes_plain t n p PP). intros q ->. change ("/") with (String "/" "") in ES. 
      assert (Y : forall k, ends_slash (k ++ String "/" "") = true) by (intros k; rewrite ends_slash_last; reflexivity). specialize (Y ("$(builddir)" ++ q)). rewrite append_assoc in Y. cbn [append] in Y. cbn [append] in ES. congruence.
Qed.
Lemma copy_from : forall t c f n, In t ts -> In c (copies t) -> In f (copy_files c) -> has_char "$" (path t) = false -> (forall r, path t <> String "/" r) -> file_named n f -> plain_destination (destination c) ->
  exists x, goes t n (destination c) x /\ feeds rs x (input t f).
Proof.
  intros t c f n I C F PD PA FN D. exists (copy_output t c f). split; [apply copy_goes; assumption|]. destruct (part_of sha1 needed ts rs ND M t I) as (deps & links & W & _).
  eexists. split; [apply W; unfold write_all; apply in_or_app; right; apply in_or_app; right; apply in_or_app; left; apply in_flat_map; exists c; split; [exact C|]; unfold write_copy; apply in_flat_map; exists f; split; [exact F|left; reflexivity]|].
  split; left; reflexivity.
Qed.
End Written.
Lemma plain_end : forall s e c, plain_source s e c -> exists b, s = b ++ e.
Proof.
  intros s e c (_ & d & n & _ & _ & [(_ & ->)|[-> | ->]]); [exists (d ++ n)|exists ("$(obj)/" ++ d ++ n)|exists ("$(obj).$(TOOLSET)/$(TARGET)/" ++ d ++ n)]; rewrite !append_assoc; reflexivity.
Qed.
Lemma plain_compiled : forall t s e c, plain_source s e c -> source_of t s -> In s (compiled t).
Proof. intros t s e c P S. destruct (plain_end s e c P) as (b & ->). apply (source_compiled t b e c S). destruct P as (L & _). exact L. Qed.
