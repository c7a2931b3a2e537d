(** Model of the .filters file of a Visual Studio project, which tells in what folder
    each file is shown: msvs.py:2170-2271, on the hierarchy of Model_Vcxproj.  What is
    written is modelled as the names and values in it, not as XML. *)
From Verif Require Import Lib Str Model_Path Model_Vcxproj.
Local Open Scope string_scope.

(** 1528-1585: _AdjustSourcesAndConvertToFilterHierarchy, the hierarchy itself *)
Definition hierarchy_tree (p : project) (se : list string * list string) : (list tree * list string) + error :=
  let '(s, e) := se in
  let e := update e (update [] (sources_excluded p)) in
  let s := update s e in
  let s := map (fix_path (prefix p)) s in
  let e := map (fix_path (prefix p)) e in
  let related := flat_map (fun c => map (fix_path (prefix p)) (filter (fun f => negb (String.eqb f "")) (precompiled c))) (configurations p) in
  let fully := filter (fun i => negb (mem i related)) e in
  let t := convert fully (list_excluded p) (map (split_char backslash) s) in
  match prune (deepest t) t with
  | inl t => inl (t, e)
  | inr err => inr err
  end.

(** A Filter element: its Include and its UniqueIdentifier. *)
Record folder := { folder_path : string; identifier : string }.
(** An element for a source: its tag, its Include and its Filter, empty if there is
    none. *)
Record entry := { tag : string; file : string; folder_of : string }.
(** 2219-2271: _AppendFiltersForMSBuild for one source, what is appended to
    filter_group and source_group; [guid] is MSVSNew.MakeGuid. *)
Section Append.
  Variable guid : string -> string.
  Variable p : project.
  Fixpoint append_filters (parent : string) (t : tree) : list folder * list entry :=
    match t with
    | Filter n c =>
      let name := if String.eqb parent "" then n else parent ++ String backslash n in
      let inner := map (append_filters name) c in
      ({| folder_path := name; identifier := guid n |} :: flat_map fst inner, flat_map snd inner)
    | File f => ([], [{| tag := snd (source_type p f); file := f; folder_of := parent |}])
    end.
End Append.
(** 2170-2216: _GenerateMSBuildFiltersFile: the file that is there afterwards, [None]
    if there is none: an old one is deleted if there are no folders *)
Definition filters_file (guid : string -> string) (p : project) (l : list tree) : option (list folder * list entry) :=
  let inner := map (append_filters guid p "") l in
  match flat_map fst inner with
  | [] => None
  | fs => Some (fs, flat_map snd inner)
  end.
(** 3680-3745 *)
Definition generate_filters (guid : string -> string) (p : project) : option (list folder * list entry) + error :=
  match hierarchy_tree p (adjust_rules p (prepare p)) with
  | inl (t, _) => inl (filters_file guid p t)
  | inr err => inr err
  end.
