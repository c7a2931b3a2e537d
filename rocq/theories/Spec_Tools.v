(** What is said about the settings of the compiler and the linker in Visual Studio
    projects. *)
From Verif Require Import Lib Str Spec_Vcxproj Model_Tools.
Local Open Scope string_scope.

(** The text of a setting. *)
Definition written (out : list (string * list (string * string))) (tool name : string) : option string :=
  match assoc tool out with Some l => assoc name l | None => None end.
(** What the user has given for it themselves, as a list. *)
Definition given (user : tools) (tool name : string) : list string :=
  match assoc tool user with Some s => match assoc name s with Some (Items l) => l | _ => [] end | None => [] end.
(** How a definition is passed on: two percent signs for one, so that no variable is
    expanded, and the number of a # in place of it, which the compiler would take for
    an equals sign. *)
Fixpoint sent (d : string) : string :=
  match d with
  | "" => ""
  | String a d' => (if Ascii.eqb a "%" then "%%" else if Ascii.eqb a "#" then "\043" else String a "") ++ sent d'
  end.
(** A path on a drive. *)
Definition on_drive (a : ascii) (r d : string) : Prop :=
  d = String a (String ":" r) /\ has_char a "ABCDEFGHIJKLMNOPQRSTUVWXYZabcdefghijklmnopqrstuvwxyz" = true /\ exists t, r = String "/" t \/ r = String "\" t.
(** [f], in a project, is the directory that [d] is for the .gyp file, and from [p]. *)
Definition stands_for (p : string) (d f : string) : Prop :=
  (relative d -> forall here, leads here f = leads (leads here p) d) /\
  (forall a r, on_drive a r d -> exists r', on_drive a r' f /\ leads [] r' = leads [] r).
(** A directory that is given by its path, and not that of a drive. *)
Definition directory (d : string) : Prop := literal d /\ (relative d \/ has_char "$" d = false /\ exists a r, on_drive a r d /\ leads [] r <> []).
(** The file of a library. *)
Definition library_file (e x : string) : Prop :=
  exists n, (e = "-l" ++ n \/ (forall r, e <> "-l" ++ r) /\ e = n) /\ ((exists ext, has_extension n ext) /\ x = n \/ (forall ext, ~ has_extension n ext) /\ x = n ++ ".lib").
(** Each element of a list where it comes last. *)
Fixpoint last_ones (l : list string) : list string := match l with [] => [] | x :: l' => if mem x l' then last_ones l' else x :: last_ones l' end.
(** Text that MSBuild reads as it is written. *)
Definition tidy (s : string) : Prop := s <> "" /\ strip s = s /\ has_char ";" s = false /\ has_char "%" s = false /\ has_char "$" s = false.
(** The directories that are searched by a tool. *)
Inductive searched (c : configuration) : string -> string -> list string -> Prop :=
| headers : searched c "ClCompile" "AdditionalIncludeDirectories" (include_dirs c ++ system_include_dirs c)
| interfaces : searched c "Midl" "AdditionalIncludeDirectories" (midl_include_dirs c ++ system_include_dirs c)
| resources l : resource_include_dirs c = Some l -> searched c "ResourceCompile" "AdditionalIncludeDirectories" l
| resources_default : resource_include_dirs c = None -> searched c "ResourceCompile" "AdditionalIncludeDirectories" (include_dirs c ++ system_include_dirs c)
| archives : searched c "Link" "AdditionalLibraryDirectories" (library_dirs c).
(** [text] is for a list that has what the user has given for the setting themselves
    in front of [l]. *)
Definition reads_behind (user : tools) (tool name text : string) (l : list string) : Prop :=
  exists before, reads text = (before ++ l)%list /\ (Forall (fun s => has_char "$" s = false) (given user tool name) -> before = flat_map reads (given user tool name)).
