(** C108: in which folders Visual Studio shows the files of a project. *)
From Verif Require Import Lib Str Model_Path Model_Vcxproj Spec_Vcxproj Model_Filters Spec_Filters Proof_Filters.
Local Open Scope string_scope.

(** Each file of the project is in the .filters file once, in the folder that its path
    names below the innermost directory that holds everything; a folder is there exactly
    if a file is in it or below it; and there is no .filters file, not an old one either,
    exactly if no file is in a folder. *)
Theorem C108_folders : forall guid p out, rules p = [] -> list_excluded p = true -> generate_filters guid p = inl out ->
  exists common ys shown, NoDup ys /\ (forall y, In y ys <-> belongs p y) /\
    Forall2 (fun y x => lies p y (common ++ fst x) (snd x)) ys shown /\
    (forall n, shown <> [] -> ~ (forall x, In x shown -> exists d, fst x = n :: d)) /\
    match out with
    | None => forall x, In x shown -> fst x = []
    | Some (fs, es) =>
      map file es = map snd shown /\ map folder_of es = map (fun x => shown_as (fst x)) shown /\
      (exists x, In x shown /\ fst x <> []) /\
      (forall n i, In {| folder_path := n; identifier := i |} fs <-> exists x d d', In x shown /\ fst x = (d ++ d')%list /\ d <> [] /\ n = shown_as d /\ i = guid (last d ""))
    end.
Proof. exact folders. Qed.
Print Assumptions C108_folders.
Definition example (l : list string) : project :=
  {| prefix := ".."; gyp_file := "binding.gyp"; build_file := "binding.gyp"; standalone := true; list_excluded := true; toolset := "target";
     sources := l; sources_excluded := []; actions := []; copies := []; rules := []; configurations := [] |}.
Example C108_folders_witness :
  generate_filters (fun s => s) (example ["src/main.cc"; "src/util/a.cc"; "src/util/deep/b.h"]) =
  inl (Some ([{| folder_path := "util"; identifier := "util" |}; {| folder_path := "util"; identifier := "util" |}; {| folder_path := "util\deep"; identifier := "deep" |}],
    [{| tag := "ClCompile"; file := "..\src\main.cc"; folder_of := "" |}; {| tag := "ClCompile"; file := "..\src\util\a.cc"; folder_of := "util" |};
     {| tag := "ClInclude"; file := "..\src\util\deep\b.h"; folder_of := "util\deep" |}])) /\
  generate_filters (fun s => s) (example ["src/main.cc"; "src/b.cc"]) = inl None.
Proof. split; vm_compute; reflexivity. Qed.

(** Each item of the project is there under its own tag. *)
Theorem C108_items : forall guid cm p items customs fs es, generate cm p = inl (items, customs) -> generate_filters guid p = inl (Some (fs, es)) ->
  forall i, In i items -> exists e, In e es /\ file e = include i /\ tag e = element i.
Proof. exact items_shown. Qed.
Print Assumptions C108_items.
Example C108_items_witness :
  let p := {| prefix := ".."; gyp_file := "binding.gyp"; build_file := "binding.gyp"; standalone := true; list_excluded := true; toolset := "target";
     sources := ["src/a.cc"; "lib/b.asm"]; sources_excluded := ["src/old.cc"]; actions := []; copies := []; rules := [];
     configurations := [{| config_name := "Release"; platform := "x64"; precompiled := [""; ""] |}] |} in
  (exists items customs, generate (fun s => s) p = inl (items, customs) /\ map include items = ["..\lib\b.asm"; "..\src\a.cc"; "..\src\old.cc"]) /\
  exists fs es, generate_filters (fun s => s) p = inl (Some (fs, es)) /\ map folder_of es = ["src"; "lib"; "src\_excluded_files"] /\ map tag es = ["ClCompile"; "MASM"; "ClCompile"].
Proof. split; eexists _, _; (split; [vm_compute; reflexivity|]); [|split]; reflexivity. Qed.

(** Different folders do not have different identifiers, although MSBuild calls them
    unique: the identifier is made of the last name of the path only (msvs.py:2247). *)
Theorem C108_identifier_refuted : ~ (forall guid p fs es, (forall a b, guid a = guid b -> a = b) -> generate_filters guid p = inl (Some (fs, es)) ->
  forall f g, In f fs -> In g fs -> identifier f = identifier g -> folder_path f = folder_path g).
Proof.
  intros H. specialize (H (fun s => s) (example ["a/util/x.cc"; "b/util/y.cc"]) _ _ (fun a b E => E) eq_refl {| folder_path := "a\util"; identifier := "util" |} {| folder_path := "b\util"; identifier := "util" |}).
  cbn [folder_path identifier] in H. discriminate H; [| |reflexivity]; vm_compute; tauto.
Qed.
Print Assumptions C108_identifier_refuted.

(** A folder is not listed once: it is listed for each file in it, as each file has a
    hierarchy of its own (msvs.py:237-246, 2242-2249). *)
Theorem C108_once_refuted : ~ (forall guid p fs es, generate_filters guid p = inl (Some (fs, es)) -> NoDup (map folder_path fs)).
Proof.
  intros H. specialize (H (fun s => s) (example ["a/x.cc"; "a/y.cc"; "b/z.cc"]) _ _ eq_refl). vm_compute in H. inversion H as [|? ? N _]. apply N. left. reflexivity.
Qed.
Print Assumptions C108_once_refuted.
