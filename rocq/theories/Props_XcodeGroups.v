(** C101: the files of an Xcode project are listed where they are. *)
From Verif Require Import Lib Str Model_Names Model_Path Model_XcodeGroups Spec_XcodeGroups.
From Verif Require Import Proof_XcodeGroups5 Proof_XcodeGroups6.
From Verif Require Proof_Vs StrFacts.
Local Open Scope string_scope.

(** Whatever files are added to a group, in whatever order and however often, Xcode finds
    each of them where its path says, each once, and no others. *)
Theorem C101_listed : forall depth paths kids, Forall ordinary paths -> add_all depth paths [] = Added kids ->
  NoDup (listed kids) /\ forall s, In s (listed kids) <-> In s (map normpath paths).
Proof. exact files_listed. Qed.
Print Assumptions C101_listed.
(** A file that has been added is not added again. *)
Theorem C101_again : forall depth depth' paths kids p kids', Forall ordinary paths -> add_all depth paths [] = Added kids -> In p paths -> add depth' p kids = Added kids' -> kids' = kids.
Proof. exact added_again. Qed.
Print Assumptions C101_again.
(** Files are refused only if one is to be a directory in which another is; nested calls
    are as deep as the path has components. *)
Theorem C101_accepted : forall depth paths, Forall ordinary paths -> (forall a b, In a paths -> In b paths -> ~ inside (normpath a) (normpath b)) ->
  (forall p, In p paths -> length (split_char "/" (normpath p)) <= depth) -> exists kids, add_all depth paths [] = Added kids.
Proof. exact accepted. Qed.
Print Assumptions C101_accepted.
(** Taking over only children moves no file, and leaves no group that holds nothing but
    another group. *)
Theorem C101_taken_over : forall depth paths kids group_name, Forall ordinary paths -> add_all depth paths [] = Added kids ->
  let source := {| name := Some group_name; tree := "<group>"; path := None |} in files "" (take_over source (Group false source kids)) = listed kids.
Proof. exact taken_over. Qed.
Print Assumptions C101_taken_over.
Theorem C101_collapsed : forall own p kids, collapsed (take_over own (Group false p kids)).
Proof. intros own p kids. exact (all_collapsed (Group false p kids) own). Qed.
Print Assumptions C101_collapsed.

(** A directory that is added is listed where it is, written in its shortest form and
    without the slash. *)
Theorem C101_directory : forall depth p kids, isabs p = false -> ends_slash p = true -> Forall no_variable (split_char "/" (normpath p)) -> add depth p [] = Added kids -> listed kids = [normpath p].
Proof. exact directory_added. Qed.
Print Assumptions C101_directory.
Example C101_directory_witness : let p := "res/./lib/../images//" in isabs p = false /\ ends_slash p = true /\ Forall no_variable (split_char "/" (normpath p)) /\
  exists kids, add 9 p [] = Added kids /\ listed kids = ["res/images"].
Proof. cbv zeta. split; [reflexivity|]. split; [reflexivity|]. split; [repeat constructor|]. eexists. split; reflexivity. Qed.
(** A file whose path begins with a variable is looked for below that source tree, wherever
    it is listed, and is told apart from others by the path it was given with. *)
Theorem C101_tree : forall n above v q, has_char ")" v = false -> v <> "<group>" -> isabs q = false -> ends_slash q = false ->
  let f := new_file n ("$(" ++ v ++ ")/" ++ q) in place above (props_of f) = "$(" ++ v ++ ")/" ++ q /\ key (props_of f) = Some ("$(" ++ v ++ ")/" ++ q).
Proof. exact below_tree. Qed.
Print Assumptions C101_tree.
Example C101_tree_witness : let f := new_file None "$(SDKROOT)/usr/lib/libz.dylib" in f = File {| name := Some "libz.dylib"; tree := "SDKROOT"; path := Some "usr/lib/libz.dylib" |} /\ has_char ")" "SDKROOT" = false /\ isabs "usr/lib/libz.dylib" = false.
Proof. repeat split. Qed.

(** A directory of another target's resources, say, cannot be added a second time: it is
    kept without the slash at its end (xcodeproj_file.py:1552-1554) but looked up with it
    (1303-1304, 1332), is made anew, and ends in "Found multiple children with path"
    (1206-1211). *)
Theorem C101_directory_refuted : exists p kids, ends_slash p = true /\ add_all 9 [p] [] = Added kids /\ add_all 9 [p; p] [] = Refused.
Proof. exists "res/images/", [Group false {| name := None; tree := "<group>"; path := Some "res" |} [File {| name := None; tree := "<group>"; path := Some "images" |}]]. split; [reflexivity|]. split; reflexivity. Qed.
Print Assumptions C101_directory_refuted.
(** A file whose path is absolute is listed below the project's directory: the path's first
    component is empty, and so is the path of the group that is made for it (1369-1379). *)
Theorem C101_absolute_refuted : exists p kids, isabs p = true /\ normpath p = p /\ add_all 9 [p] [] = Added kids /\ listed kids = ["opt/sdk/a.c"] /\ p = "/opt/sdk/a.c".
Proof. exists "/opt/sdk/a.c". eexists. split; [reflexivity|]. split; [reflexivity|]. split; [vm_compute; reflexivity|]. split; reflexivity. Qed.
Print Assumptions C101_absolute_refuted.
(** ... and the same one added twice is listed twice. *)
Theorem C101_absolute_twice_refuted : exists p kids, add_all 9 [p; p] [] = Added kids /\ ~ NoDup (listed kids).
Proof. exists "/opt/sdk/a.c". eexists. split; [vm_compute; reflexivity|]. intros N. vm_compute in N. apply NoDup_cons_iff in N. destruct N as [N _]. apply N. left. reflexivity. Qed.
Print Assumptions C101_absolute_twice_refuted.
(** What comes before a variable is dropped: each component is looked at on its own
    (983-998). *)
Theorem C101_variable_refuted : exists p kids, isabs p = false /\ ends_slash p = false /\ normpath p = p /\ add_all 9 [p] [] = Added kids /\ listed kids = ["$(ARCH)/a.c"] /\ p = "gen/$(ARCH)/a.c".
Proof. exists "gen/$(ARCH)/a.c". eexists. split; [reflexivity|]. split; [reflexivity|]. split; [reflexivity|]. split; [vm_compute; reflexivity|]. split; reflexivity. Qed.
Print Assumptions C101_variable_refuted.

(** ** Six files *)
Definition sample : list string := ["src/a.c"; "src/x/y/b.c"; "./src/a.c"; "../c.c"; "$(INTERMEDIATE_DIR)/d.c"; "res/en.lproj/Menu.nib"; "res/fr.lproj/Menu.nib"].
Lemma sample_ordinary : Forall ordinary sample.
Proof.
  assert (V : variable "$(INTERMEDIATE_DIR)") by (exists "INTERMEDIATE_DIR"; split; [reflexivity|]; split; [reflexivity|discriminate]).
  repeat (apply Forall_cons; [split; [reflexivity|]; split; [reflexivity|]; vm_compute; split; [first [left; reflexivity | right; exact V] | repeat (apply Forall_cons; [reflexivity|]); apply Forall_nil]|]). apply Forall_nil.
Qed.
Definition sample_kids : list elem :=
  let plain c := {| name := None; tree := "<group>"; path := Some c |} in
  [Group false (plain "src") [File (plain "a.c"); Group false (plain "x") [Group false (plain "y") [File (plain "b.c")]]];
   Group false (plain "..") [File (plain "c.c")];
   Group false {| name := Some "INTERMEDIATE_DIR"; tree := "INTERMEDIATE_DIR"; path := None |} [File (plain "d.c")];
   Group false (plain "res") [Group true {| name := Some "Menu.nib"; tree := "<group>"; path := None |}
     [File {| name := Some "en"; tree := "<group>"; path := Some "en.lproj/Menu.nib" |}; File {| name := Some "fr"; tree := "<group>"; path := Some "fr.lproj/Menu.nib" |}]]].
Example C101_witness : Forall ordinary sample /\ add_all 9 sample [] = Added sample_kids /\
  listed sample_kids = ["src/a.c"; "src/x/y/b.c"; "../c.c"; "$(INTERMEDIATE_DIR)/d.c"; "res/en.lproj/Menu.nib"; "res/fr.lproj/Menu.nib"] /\
  (forall a b, In a sample -> In b sample -> ~ inside (normpath a) (normpath b)) /\ (forall p, In p sample -> length (split_char "/" (normpath p)) <= 9) /\
  take_over {| name := Some "Source"; tree := "<group>"; path := None |} (Group false {| name := Some "Source"; tree := "<group>"; path := None |} [hd (File (init None None)) sample_kids])
  = Group false {| name := Some "Source"; tree := "<group>"; path := Some "src" |}
      [File {| name := None; tree := "<group>"; path := Some "a.c" |}; Group false {| name := None; tree := "<group>"; path := Some "x/y" |} [File {| name := None; tree := "<group>"; path := Some "b.c" |}]].
Proof.
  split; [exact sample_ordinary|]. split; [vm_compute; reflexivity|]. split; [vm_compute; reflexivity|]. split; [|split; [|vm_compute; reflexivity]].
  - intros a b A B (r & E). assert (P : String.prefix (normpath a ++ "/") (normpath b) = true) by (apply Proof_Vs.prefix_iff; exists r; rewrite E, StrFacts.append_assoc; reflexivity). clear E.
    cbn in A, B. repeat (destruct A as [<-|A]; [repeat (destruct B as [<-|B]; [vm_compute in P; discriminate P|]); destruct B|]). destruct A.
  - intros p P. cbn in P. repeat (destruct P as [<-|P]; [vm_compute; repeat constructor|]). destruct P.
Qed.
