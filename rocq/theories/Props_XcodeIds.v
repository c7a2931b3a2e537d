(** C103: what the ids of an Xcode project's files depend on. *)
From Coq Require Import NArith.
From Verif Require Import Lib Str Model_Names Model_Path Model_XcodeGroups Model_XcodeIds Spec_XcodeGroups Spec_XcodeIds.
From Verif Require Import StrFacts Proof_XcodeIds Proof_XcodeIds3.
Local Open Scope string_scope.

(** An id is 24 hexadecimal digits, whatever the digest ... *)
Theorem C103_digits : forall digest, length (list_ascii_of_string (id_of digest)) = 24 /\ Forall (fun c => In c (list_ascii_of_string "0123456789ABCDEF")) (list_ascii_of_string (id_of digest)).
Proof. exact id_digits. Qed.
Print Assumptions C103_digits.
(** ... and drops no byte of it. *)
Theorem C103_id : forall digest, String.length digest = 20 -> id_for digest (id_of digest).
Proof. exact id_is. Qed.
Print Assumptions C103_id.
(** What is hashed tells apart what it was made from: no two lists of texts are fed to the
    hash as the same bytes. *)
Theorem C103_fed : forall l l', Forall text l -> Forall text l' -> feeds l = feeds l' -> l = l'.
Proof. exact feeds_inj. Qed.
Print Assumptions C103_fed.
(** A project is refused if and only if two of its objects have the same id. *)
Theorem C103_refused : forall ids, no_collisions [] ids = Some tt <-> NoDup ids.
Proof. intros ids. rewrite collisions. split; [intros [N _]; exact N|intros N; split; [exact N|intros i _ []]]. Qed.
Print Assumptions C103_refused.
(** The id of a file is made from its path and the name of the group at the top, and from
    nothing else: which groups took over others does not matter. *)
Theorem C103_by_path : forall sha1 fed group depth paths kids, Forall (plain group) paths -> has_char "/" group = false -> add_all depth paths [] = Added kids ->
  let tree := take_over (source group) (Group false (source group) kids) in
  Forall2 (fun place id => exists hashables, identified group (split_char "/" place) hashables /\ id = id_of (sha1 (fed ++ feeds hashables)))
          (files "" tree) (file_ids (compute_ids sha1 fed tree)).
Proof. exact by_path. Qed.
Print Assumptions C103_by_path.
(** So a file keeps its id whatever files are added to the project or removed from it. *)
Theorem C103_kept : forall sha1 fed group depth paths kids depth' paths' kids', Forall (plain group) paths -> Forall (plain group) paths' -> has_char "/" group = false ->
  add_all depth paths [] = Added kids -> add_all depth' paths' [] = Added kids' ->
  let tree := take_over (source group) (Group false (source group) kids) in let tree' := take_over (source group) (Group false (source group) kids') in
  forall s i j id id', nth_error (files "" tree) i = Some s -> nth_error (file_ids (compute_ids sha1 fed tree)) i = Some id ->
  nth_error (files "" tree') j = Some s -> nth_error (file_ids (compute_ids sha1 fed tree')) j = Some id' -> id = id'.
Proof. exact same_id. Qed.
Print Assumptions C103_kept.
(** No two files of a project are hashed as the same bytes, so that only a collision of
    hashes can make their ids the same. *)
Theorem C103_apart : forall fed group depth paths kids, Forall (plain group) paths -> has_char "/" group = false -> add_all depth paths [] = Added kids ->
  text group -> Forall (fun p => text (normpath p)) paths ->
  let tree := take_over (source group) (Group false (source group) kids) in
  exists inputs, NoDup inputs /\ forall sha1, file_ids (compute_ids sha1 fed tree) = map (fun x => id_of (sha1 x)) inputs.
Proof. exact apart. Qed.
Print Assumptions C103_apart.

(** A file's id does change when files are added, if all sources were in a directory with
    the name of the group: taking it over drops the name (xcodeproj_file.py:1463-1477), which
    is then missing from what is hashed (1036-1044). *)
Theorem C103_named_refuted : exists paths p kids kids' x y, add_all 9 paths [] = Added kids /\ add_all 9 (paths ++ [p]) [] = Added kids' /\ x <> y /\
  forall sha1, let tree := take_over (source "Source") (Group false (source "Source") kids) in let tree' := take_over (source "Source") (Group false (source "Source") kids') in
  nth_error (files "" tree) 0 = Some "Source/a.c" /\ nth_error (files "" tree') 0 = Some "Source/a.c" /\
  nth_error (file_ids (compute_ids sha1 "" tree)) 0 = Some (id_of (sha1 x)) /\ nth_error (file_ids (compute_ids sha1 "" tree')) 0 = Some (id_of (sha1 y)).
Proof.
  exists ["Source/a.c"], "lib/b.c". eexists. eexists. exists (feeds ["PBXGroup.path"; "Source"; "PBXFileReference.path"; "a.c"]), (feeds ["PBXGroup.name"; "Source"; "PBXGroup.path"; "Source"; "PBXFileReference.path"; "a.c"]).
  split; [vm_compute; reflexivity|]. split; [vm_compute; reflexivity|]. split; [vm_compute; discriminate|]. intros sha1. repeat split.
Qed.
Print Assumptions C103_named_refuted.
(** The same happens if all sources were below one variable: the group made for it has a
    name of its own (983-998), hashed only as long as it is not taken over. *)
Theorem C103_variable_refuted : exists paths p kids kids' x y, Forall ordinary (paths ++ [p]) /\ add_all 9 paths [] = Added kids /\ add_all 9 (paths ++ [p]) [] = Added kids' /\ x <> y /\
  forall sha1, let tree := take_over (source "Source") (Group false (source "Source") kids) in let tree' := take_over (source "Source") (Group false (source "Source") kids') in
  nth_error (files "" tree) 0 = Some "$(SRCROOT)/a.c" /\ nth_error (files "" tree') 0 = Some "$(SRCROOT)/a.c" /\
  nth_error (file_ids (compute_ids sha1 "" tree)) 0 = Some (id_of (sha1 x)) /\ nth_error (file_ids (compute_ids sha1 "" tree')) 0 = Some (id_of (sha1 y)).
Proof.
  exists ["$(SRCROOT)/a.c"], "b.c". eexists. eexists. exists (feeds ["PBXGroup.name"; "Source"; "PBXGroup.path"; "$(SRCROOT)"; "PBXFileReference.path"; "a.c"]), (feeds ["PBXGroup.name"; "Source"; "PBXGroup.name"; "SRCROOT"; "PBXGroup.path"; "$(SRCROOT)"; "PBXFileReference.path"; "a.c"]).
  split; [|split; [vm_compute; reflexivity|]; split; [vm_compute; reflexivity|]; split; [vm_compute; discriminate|]; intros sha1; repeat split].
  assert (V : variable "$(SRCROOT)") by (exists "SRCROOT"; split; [reflexivity|]; split; [reflexivity|discriminate]).
  repeat (apply Forall_cons; [split; [reflexivity|]; split; [reflexivity|]; vm_compute; split; [first [left; reflexivity | right; exact V] | repeat (apply Forall_cons; [reflexivity|]); apply Forall_nil]|]). apply Forall_nil.
Qed.
Print Assumptions C103_variable_refuted.
(** Groups are not kept apart as files are: the names of a group's children are hashed after
    its path with nothing before them (1193-1197), so that a group whose children have the
    right names is hashed as one of its children is, and the project is refused with
    "Duplicate ID" (467-485). *)
Theorem C103_groups_refuted : exists paths kids, Forall (plain "Source") paths /\ (forall a b, In a paths -> In b paths -> ~ inside a b) /\ add_all 9 paths [] = Added kids /\
  forall sha1 fed, no_collisions [] (map snd (compute_ids sha1 fed (take_over (source "Source") (Group false (source "Source") kids)))) = None.
Proof.
  exists ["a/PBXGroup.path/f"; "a/x/y"; "a/y"]. eexists. split; [|split; [|split; [vm_compute; reflexivity|]]].
  - repeat (apply Forall_cons; [split; [split; [reflexivity|]; split; [reflexivity|]; vm_compute; split; [left; reflexivity|repeat (apply Forall_cons; [reflexivity|]); apply Forall_nil]|split; [vm_compute; repeat (apply Forall_cons; [reflexivity|]); apply Forall_nil|vm_compute; discriminate]]|]). apply Forall_nil.
  - intros a b A B (r & E). revert E. cbn [In] in A, B. decompose [or] A; decompose [or] B; subst; try contradiction; discriminate.
  - intros sha1 fed.
    match goal with |- context[compute_ids sha1 fed ?t] => let t' := eval vm_compute in t in change t with t' end. cbn [compute_ids flat_map map snd app]. rewrite !append_assoc, <- !feeds_app.
    match goal with |- ?c = None => destruct c as [[]|] eqn:E; [|reflexivity] end. exfalso. apply C103_refused in E. apply NoDup_cons_iff in E. destruct E as [E _]. apply E. right. right. left. reflexivity.
Qed.
Print Assumptions C103_groups_refuted.

(** ** Five files *)
Definition sample : list string := ["src/a.c"; "src/x/y/b.c"; "./src/a.c"; "../c.c"; "res/en.lproj/Menu.nib"; "res/fr.lproj/Menu.nib"].
Lemma sample_plain : Forall (plain "Source") sample.
Proof.
  repeat (apply Forall_cons; [split; [split; [reflexivity|]; split; [reflexivity|]; vm_compute; split; [left; reflexivity|repeat (apply Forall_cons; [reflexivity|]); apply Forall_nil]|split; [vm_compute; repeat (apply Forall_cons; [reflexivity|]); apply Forall_nil|vm_compute; discriminate]]|]). apply Forall_nil.
Qed.
Lemma sample_text : text "Source" /\ Forall (fun p => text (normpath p)) sample.
Proof. split; [split; [apply low_utf8; reflexivity|reflexivity]|]. repeat (apply Forall_cons; [split; [apply low_utf8; vm_compute; reflexivity|vm_compute; reflexivity]|]). apply Forall_nil. Qed.
Example C103_witness : Forall (plain "Source") sample /\ text "Source" /\ Forall (fun p => text (normpath p)) sample /\ text (String "195" (String "169" "")) /\ localized "en.lproj" "en" /\
  (exists kids, add_all 9 sample [] = Added kids /\ files "" (take_over (source "Source") (Group false (source "Source") kids)) = ["src/a.c"; "src/x/y/b.c"; "../c.c"; "res/en.lproj/Menu.nib"; "res/fr.lproj/Menu.nib"]) /\
  id_of "abcdefghijklmnopqrst" = "0C0C0C141414141C696A6B6C" /\ feeds ["a"; ""; "bc"] = String "000" (String "000" (String "000" (String "001" "a"))) ++ String "000" (String "000" (String "000" (String "000" ""))) ++ String "000" (String "000" (String "000" (String "002" "bc"))).
Proof.
  split; [exact sample_plain|]. split; [exact (proj1 sample_text)|]. split; [exact (proj2 sample_text)|]. split.
  - split; [|reflexivity]. apply (utf8_char "195" ["169"%char] ""); [right; left; split; [reflexivity|split; [discriminate|reflexivity]]|constructor; [split; [discriminate|reflexivity]|constructor]|constructor].
  - split; [split; [reflexivity|]; exists "", "e"%char, "n"; split; [reflexivity|discriminate]|]. split; [eexists; split; [vm_compute; reflexivity|reflexivity]|]. split; vm_compute; reflexivity.
Qed.
