(** Property theorems: the search for Visual Studio (C41).  [usable],
    [usable_old], [known], [node_allows] are in Spec_Vs. *)
From Verif Require Import Lib LibFacts Str Js Model_Vs Spec_Vs Proof_Vs Proof_Vs2.
From Coq Require Import ZArith.
Local Open Scope string_scope.

(** C41: from a list of installations, the first of the newest that can be
    used is taken, *)
Theorem C41_list : forall pl mv vc infos years,
  match process_data pl (wishes_of pl mv vc) infos years with
  | Some r => exists pre info post, infos = (pre ++ info :: post)%list /\ usable pl mv vc info r /\ In (f_year r) years /\
      (forall i r', In i pre -> usable pl mv vc i r' -> In (f_year r') years -> (f_year r' < f_year r)%Z) /\
      (forall i r', In i post -> usable pl mv vc i r' -> In (f_year r') years -> (f_year r' <= f_year r)%Z)
  | None => forall i r, In i infos -> usable pl mv vc i r -> ~ In (f_year r) years
  end.
Proof. exact process_data_spec. Qed.
Print Assumptions C41_list.
(** what the whole search finds can be used, Node.js can be built with it, and
    nothing of a newer generation can be used (2019 and 2022 being one
    generation), *)
Theorem C41_found : forall pl a major mv vc r, find_vs pl a major mv vc = Some r ->
  node_allows major (f_year r) /\ ((exists info, known pl a vc info /\ usable pl mv vc info r) \/ usable_old pl a mv vc r) /\
  (forall info r', known pl a vc info -> usable pl mv vc info r' -> node_allows major (f_year r') -> (2017 <= f_year r /\ (f_year r' <= f_year r \/ 2019 <= f_year r))%Z) /\
  (forall r', usable_old pl a mv vc r' -> node_allows major (f_year r') -> (f_year r' <= f_year r)%Z).
Proof. exact vs_found. Qed.
Print Assumptions C41_found.
(** and the search fails exactly if nothing can be used. *)
Theorem C41_fails : forall pl a major mv vc, find_vs pl a major mv vc = None <->
  (forall info r, known pl a vc info -> usable pl mv vc info r -> ~ node_allows major (f_year r)) /\ (forall r, usable_old pl a mv vc r -> ~ node_allows major (f_year r)).
Proof. exact vs_none. Qed.
Print Assumptions C41_fails.

Definition demo_platform : platform :=
  {| resolve := fun p => p; parent := fun p => p ++ "\.."; join := fun p q => p ++ "\" ++ q; same_path := String.eqb; exists_file := fun p => String.eqb p "C:\22\MSBuild\Current\Bin\MSBuild.exe"; arm64 := false |}.
Definition demo_installs : list reported :=
  [{| r_path := "C:\19"; r_version := "16.11.3"; r_packages := ["Microsoft.VisualStudio.VC.MSBuild.Base"; "Microsoft.VisualStudio.Component.VC.Tools.x86.x64"; "Microsoft.VisualStudio.Component.Windows10SDK.18362"] |};
   {| r_path := "C:\22"; r_version := "17.4"; r_packages := ["Microsoft.VisualStudio.Component.Windows10SDK.20348"; "Microsoft.VisualStudio.WDExpress"; "Microsoft.VisualStudio.Component.Windows11SDK.22621.Desktop"; "Microsoft.VisualStudio.Component.Windows11SDK.99999.UWP"] |}].
Definition demo_answers : answers := {| a_cmd_ver := ""; a_sdk_ver := ""; a_setup := None; a_script := Some demo_installs; a_vc := fun _ => None; a_msbuild := fun _ => None |}.
Example C41_witness : find_vs demo_platform demo_answers 20 "" "" =
  Some {| f_year := 2022; f_version := "17.4"; f_path := "C:\22"; f_msbuild := "C:\22\MSBuild\Current\Bin\MSBuild.exe"; f_toolset := "v143"; f_sdk := Some (Sdk10 22621) |} /\
  find_vs demo_platform demo_answers 20 "2019" "" =
  Some {| f_year := 2019; f_version := "16.11.3"; f_path := "C:\19"; f_msbuild := "C:\19\MSBuild\Current\Bin\MSBuild.exe"; f_toolset := "v142"; f_sdk := Some (Sdk10 18362) |}.
Proof. split; reflexivity. Qed.

(** Finding: a requested version of 0000 is taken as no request. *)
Theorem C41_zero_refuted : exists pl a major r, find_vs pl a major "0000" "" = Some r /\ f_year r <> 0%Z.
Proof. exists demo_platform, demo_answers, 20. eexists. split; [reflexivity|discriminate]. Qed.
Print Assumptions C41_zero_refuted.
