(** C94: looking up the Windows registry. *)
From Verif Require Import Lib Str Model_Registry Spec_Registry Proof_Registry.
Local Open Scope string_scope.

(** C94.  From what reg.exe lists under the first key that has the value, the data are
    taken whole and without the end of the line, whatever the keys before it answer with
    an error, and whatever keys follow. *)
Theorem C94_found : forall reg before key after value data, value_name value -> proper_data data ->
  Forall (fun k => lacks reg k value) before -> has reg key value data -> reg_search_keys reg (before ++ key :: after)%list value = Some data.
Proof. exact search_first. Qed.
Print Assumptions C94_found.
Definition tools : string := "C:\Program Files (x86)\MSBuild\14.0\bin\amd64\".
Definition reg_1 (key value : string) : answer :=
  if String.eqb key "HKLM\Software\A" then Wrote "" "ERROR: The system was unable to find the specified registry key or value."
  else if String.eqb key "HKLM\Software\B" then Wrote (listing [""; "HKEY_LOCAL_MACHINE\Software\B"] value "SZ" tools crlf) "" else Failed.
Example C94_found_witness : value_name "MSBuildToolsPath" /\ proper_data tools /\ lacks reg_1 "HKLM\Software\A" "MSBuildToolsPath" /\ has reg_1 "HKLM\Software\B" "MSBuildToolsPath" tools /\
  reg_search_keys reg_1 ["HKLM\Software\A"; "HKLM\Software\B"] "MSBuildToolsPath" = Some tools.
Proof.
  split; [|split; [|split; [|split]]].
  - split; [split; reflexivity|]. exists "M"%char, "SBuildToolsPath". repeat split; [|discriminate|discriminate]. do 12 right. left. reflexivity.
  - split; [split; reflexivity|]. exists "C"%char. eexists. split; [reflexivity|]. intros H. unfold spaces in H. cbn [In] in H. repeat (destruct H as [H|H]; [discriminate H|]). exact H.
  - right. eexists _, _, "E"%char. split; [reflexivity|]. split; [left; reflexivity|]. intros H. unfold spaces in H. cbn [In] in H. repeat (destruct H as [H|H]; [discriminate H|]). exact H.
  - exists [""; "HKEY_LOCAL_MACHINE\Software\B"], "SZ", crlf. split; [|split; [|reflexivity]].
    + constructor; [constructor|]. constructor; [|constructor]. apply (key_line "LOCAL_MACHINE\Software\B"). split; reflexivity.
    + split; [discriminate|]. intros c [<-|[<-|[]]]; unfold letter; cbn; tauto.
  - vm_compute. reflexivity.
Qed.
(** C94.  If every key answers with an error, nothing is found. *)
Theorem C94_missing : forall reg keys value, Forall (fun k => lacks reg k value) keys -> reg_search_keys reg keys value = None.
Proof. exact search_none. Qed.
Print Assumptions C94_missing.
Example C94_missing_witness : Forall (fun k => lacks reg_1 k "14.0") ["HKLM\Software\A"; "HKLM\Software\C"].
Proof.
  constructor; [|constructor; [left; reflexivity|constructor]].
  right. eexists _, _, "E"%char. split; [reflexivity|]. split; [left; reflexivity|]. intros H. unfold spaces in H. cbn [In] in H. repeat (destruct H as [H|H]; [discriminate H|]). exact H.
Qed.
(** C94.  Whatever reg.exe writes: what is found is a text of one line that does not
    begin with white space, and stands at the end of a line of what reg.exe wrote for one
    of the keys. *)
Theorem C94_only : forall reg value r keys, reg_search_keys reg keys value = Some r ->
  exists key out err a b, In key keys /\ reg key value = Wrote out err /\ out = a ++ r ++ b /\ proper_data r /\ (b = "" \/ exists c b', b = String c b' /\ (c = "010" \/ c = "013")%char).
Proof. exact search_inv. Qed.
Print Assumptions C94_only.
Example C94_only_witness : reg_search_keys reg_1 ["HKLM\Software\B"] "x-y" = Some tools.
Proof. vm_compute. reflexivity. Qed.
