(** C97: an Xcode project file is read back as what it was to say. *)
From Verif Require Import Lib Str StrFacts LibFacts Model_Quote Model_Writer Model_Pbx Spec_Pbx Proof_Pbx Proof_Pbx2 Proof_Pbx3 Proof_Pbx4.
From Verif Require Proof_NinjaAction2.
From Coq Require Import ZArith Permutation Lia.
Local Open Scope string_scope.

(** Every value, nested however deeply, of texts the writer can write. *)
Theorem C97_value : forall single alternate flat tabs v t, tame_value v -> printable single alternate flat tabs v = Some t ->
  exists p, same flat v p /\ read_as t p.
Proof. exact value_read. Qed.
Print Assumptions C97_value.
(** The whole file: the properties of the project, and below "objects" exactly its objects,
    each under its id with its class and its properties. *)
Theorem C97_file : forall props os text,
  Forall (fun kv => tame (fst kv) /\ tame_value (snd kv)) props -> ~ In "objects" (map fst props) -> Forall tame_object os -> print_file props os = Some text ->
  exists d ps ds os' objects, read_as text (Dict d) /\ Permutation d (("objects", Dict objects) :: ds) /\
    Permutation props ps /\ Forall2 (fun kv kp => fst kv = fst kp /\ same false (snd kv) (snd kp)) ps ds /\ Permutation os os' /\ Forall2 same_object os' objects.
Proof. exact file_said. Qed.
Print Assumptions C97_file.
(** No text can be read in two ways. *)
Theorem C97_determined : forall file p q, read_as file p -> read_as file q -> p = q.
Proof. exact read_as_once. Qed.
Print Assumptions C97_determined.
(** Every project is written, unless build settings have a list with a single item which is
    no text, or a proxy refers to no object. *)
Theorem C97_written : forall props os, Forall (fun kv => writable false (snd kv)) props -> Forall writable_object os -> exists text, print_file props os = Some text.
Proof. exact file_written. Qed.
Print Assumptions C97_written.

(** ** Findings *)
(** A carriage return in a text is written as the escape for a newline, and read as one:
    the table of escapes has that escape for it (xcodeproj_file.py:283). *)
Theorem C97_return_refuted : exists t, printable false false false 0 (Text ("a" ++ str1 "013" ++ "b")) = Some t /\ read_as t (Str ("a" ++ str1 "010" ++ "b")).
Proof. eexists. split; [reflexivity|]. eexists. split; [apply reads_str; eapply string_quoted; [reflexivity|vm_compute; reflexivity]|reflexivity]. Qed.
Print Assumptions C97_return_refuted.
(** A newline at the end of a text of letters is lost: the pattern for texts which need no
    quotes ends in a dollar sign, which also holds before a newline at the end
    (xcodeproj_file.py:160, 579), so the text is written without quotes. *)
Theorem C97_newline_refuted : exists t, printable false false false 0 (Text ("main" ++ newline)) = Some t /\ read_as t (Str "main").
Proof. eexists. split; [reflexivity|]. eexists. split; [apply reads_str; eapply string_naked; [reflexivity|reflexivity|reflexivity]|reflexivity]. Qed.
Print Assumptions C97_newline_refuted.
(** A text which starts with two slashes may be written without quotes, because slashes are
    among what needs none (xcodeproj_file.py:160), and is then read as a comment. *)
Theorem C97_slashes_refuted : exists t, printable false false false 0 (Text "//net/share") = Some t /\ forall p, ~ read_as t p.
Proof.
  eexists. split; [reflexivity|]. intros p (r & R & _). change (encode false "//net/share") with "//net/share" in R.
  inversion R as [? t ? H|? x l ? E H|? x l ? E H]; subst; [|discriminate E|discriminate E]. destruct (string_start _ _ _ H) as [(x & E)|(a & x & E & _)]; discriminate E.
Qed.
Print Assumptions C97_slashes_refuted.

(** ** A project which meets the hypotheses *)
Definition sample_props : list (string * value) := [("archiveVersion", Number 1); ("classes", Entries []); ("objectVersion", Number 46); ("rootObject", Reference "A1" "Project object")].
Definition sample_objects : list object :=
  [{| class := "PBXProject"; id := "A1"; comment := "Project object"; properties := [("buildConfigurationList", Reference "B2" "list"); ("knownRegions", Items [Text "en"; Text "zh-Hans"]); ("hasScannedForEncodings", Number 1)] |};
   {| class := "PBXBuildFile"; id := "C3"; comment := "a.h in Headers"; properties := [("settings", Text "{ATTRIBUTES = (Public, ); }"); ("fileRef", Reference "D4" "a.h")] |};
   {| class := "XCBuildConfiguration"; id := "B2"; comment := "Release"; properties := [("name", Text "Release"); ("buildSettings", Entries [("SDKROOT", Items [Text "macosx"]); ("OTHER_CFLAGS", Items [Text "-DX=""a b"""; Text "-O3"]); ("ARCHS", Items [])])] |};
   {| class := "PBXContainerItemProxy"; id := "E5"; comment := "odd */ name"; properties := [("remoteGlobalIDString", Reference "F6" "lib"); ("proxyType", Number 1)] |};
   {| class := "PBXBuildFile"; id := "A0"; comment := ""; properties := [("fileRef", Reference "D5" "")] |}].
Ltac by_letters := apply letters_; [discriminate|]; intros ? I; cbn [list_ascii_of_string] in I; repeat (destruct I as [<-|I]; [cbn; lia|]); destruct I.
Ltac tamed := repeat match goal with
  | |- Forall _ [] => apply Forall_nil
  | |- Forall _ (_ :: _) => apply Forall_cons
  | |- _ /\ _ => split
  | |- tame _ => apply plain_tame; reflexivity
  | |- tame_value (Text _) => apply tame_text
  | |- tame_value (Number _) => apply tame_number
  | |- tame_value (Reference _ _) => apply tame_reference
  | |- tame_value (Items _) => apply tame_items
  | |- tame_value (Entries _) => apply tame_entries
  | |- letters _ => solve [by_letters]
  | |- _ => progress cbn [fst snd id class properties]
  end.
Lemma sample_tame : Forall (fun kv => tame (fst kv) /\ tame_value (snd kv)) sample_props /\ ~ In "objects" (map fst sample_props) /\ Forall tame_object sample_objects.
Proof.
  split; [unfold sample_props; tamed|]. split; [intros I; cbn in I; repeat (destruct I as [I|I]; [discriminate I|]); exact I|]. unfold sample_objects, tame_object. tamed; intros X; try discriminate X.
  - intros v [I|[I|[]]]; [injection I as <-|discriminate I]. exists "Public". split; [by_letters|reflexivity].
  - intros v [I|[]]. discriminate I.
Qed.
Example C97_file_witness : exists text d objects ds, print_file sample_props sample_objects = Some text /\ read_as text (Dict d) /\ In ("objects", Dict objects) d /\ length objects = 5 /\
  In ("C3", Dict (("isa", Str "PBXBuildFile") :: ds)) objects /\ In ("settings", Dict [("ATTRIBUTES", Array [Str "Public"])]) ds.
Proof.
  destruct sample_tame as (T1 & T2 & T3). destruct (print_file sample_props sample_objects) as [text|] eqn:E; [|vm_compute in E; discriminate E].
  destruct (C97_file _ _ _ T1 T2 T3 E) as (d & ps & ds & os' & objects & R & P & _ & _ & Q & F).
  assert (L : length objects = 5) by (replace (length objects) with (length os') by (clear - F; induction F; cbn [length]; congruence); rewrite <- (Permutation_length Q); reflexivity).
  assert (I : In (nth 1 sample_objects {| class := ""; id := ""; comment := ""; properties := [] |}) os') by (apply (Permutation_in _ Q); right; left; reflexivity).
  assert (G : exists kp, In kp objects /\ same_object (nth 1 sample_objects {| class := ""; id := ""; comment := ""; properties := [] |}) kp).
  { clear - F I. induction F as [|o kp os' objects S F IH]; [destruct I|]. destruct I as [->|I]; [exists kp; split; [left; reflexivity|exact S]|]. destruct (IH I) as (kp' & J & S'). exists kp'. split; [right; exact J|exact S']. }
  destruct G as (kp & J & qs & es & -> & PQ & FE). exists text, d, objects, es. split; [reflexivity|]. split; [exact R|]. split; [apply (Permutation_in _ (Permutation_sym P)); left; reflexivity|]. split; [exact L|]. split; [exact J|].
  assert (K : In ("settings", Text "{ATTRIBUTES = (Public, ); }") qs) by (apply (Permutation_in _ PQ); left; reflexivity). clear - FE K. induction FE as [|kv kp qs es S FE IH]; [destruct K|]. destruct K as [->|K]; [|right; exact (IH K)]. left.
  cbn [nth sample_objects class] in S. inversion S as [w X Y W0|i m X|v p X|k v p X1 X2 X3 Y]; subst; [|exfalso; apply X1; reflexivity].
  assert (w = "Public") as ->; [|reflexivity]. change ("{ATTRIBUTES = (Public, ); }") with ("{ATTRIBUTES = (" ++ "Public" ++ ", ); }") in W0.
  assert (V : forall a b t, a ++ t = b ++ t -> a = b). { intros a b t H. apply (Proof_NinjaAction2.append_inj_r a b t H). } apply (V w "Public" ", ); }"). cbn [append] in W0 |- *. congruence.
Qed.
Example C97_value_witness : printable false false true 1 (Entries [("SDKROOT", Items [Text "macosx"]); ("OTHER_CFLAGS", Items [Text "-DX=""a b"""; Text "-O3"])]) =
  Some ("{" ++ newline ++ tab ++ tab ++ "OTHER_CFLAGS = (" ++ newline ++ tab ++ tab ++ tab ++ """-DX=\""a b\""""," ++ newline ++ tab ++ tab ++ tab ++ """-O3""," ++ newline ++ tab ++ tab ++ ");" ++ newline ++ tab ++ tab ++ "SDKROOT = macosx;" ++ newline ++ tab ++ "}").
Proof. reflexivity. Qed.
Example C97_written_witness : Forall (fun kv => writable false (snd kv)) sample_props /\ Forall writable_object sample_objects.
Proof.
  split; [unfold sample_props; repeat apply Forall_cons; try apply Forall_nil; cbn [snd]; constructor; constructor|].
  unfold sample_objects, writable_object. repeat (apply Forall_cons; [cbn [class properties]; repeat (apply Forall_cons; [split; [|split]; cbn [fst snd]; intros; try discriminate; eauto; try (constructor; fail)|]); try apply Forall_nil|]); try apply Forall_nil.
  all: try (apply writable_entries; repeat apply Forall_cons; try apply Forall_nil; cbn [snd]).
  all: try (apply writable_items; [intros _ v X; try discriminate X; injection X as <-; eexists; reflexivity|]; repeat apply Forall_cons; try apply Forall_nil; constructor).
  all: try (apply writable_items; [intros X; discriminate X|]; repeat apply Forall_cons; try apply Forall_nil; constructor).
  all: try (destruct H; [contradiction|contradiction]).
  all: try (destruct H; exfalso; auto; fail).
Qed.
Example C97_determined_witness : read_as "( a, b )" (Array [Str "a"; Str "b"]).
Proof.
  exists "". split; [|reflexivity]. apply (reads_array _ " a, b )"); [reflexivity|]. apply (items_more _ _ ", b )" " b )"); [apply reads_str; apply (string_naked _ "a" ", b )"); reflexivity|reflexivity|].
  apply (items_last _ _ " )"); [apply reads_str; apply (string_naked _ "b" " )"); reflexivity|reflexivity].
Qed.
