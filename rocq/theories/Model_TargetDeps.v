(** Model of how the loader gets from the dependencies written in the targets to those that
    are built by: gyp/pylib/gyp/input.py:1469-1514 (QualifyDependencies), 1610-1652
    (RemoveSelfDependencies, RemoveLinkDependenciesFromNoneTargets), 2525-2652 (list filters,
    as far as they apply to these lists), 1603-1610 (RemoveDuplicateDependencies), called in
    this order in Load, 2988-3027, with ExpandWildcardDependencies (Model_Names).
    os.path.realpath is a parameter.  Not modelled: that excluded dependencies are kept in
    dependencies_excluded. *)
From Verif Require Import Lib Str Model_Graph Model_Names Model_Path.
Local Open Scope string_scope.

(** An item of a list: a string, or a list, dictionary or number. *)
Inductive item := Word (s : string) | Other.
(** A target, as far as it is looked at; [lists] are those of its lists that name targets,
    and [prune_self] and [link_only] its variables prune_self_dependency and
    link_dependency. *)
Record target (A : Type) := { toolset : string; kind : option string; prune_self : bool; link_only : bool; lists : string -> option (list A) }.
Arguments toolset {A}. Arguments kind {A}. Arguments prune_self {A}. Arguments link_only {A}. Arguments lists {A}.
Definition put {A B} (t : target A) (ls : string -> option (list B)) : target B := {| toolset := toolset t; kind := kind t; prune_self := prune_self t; link_only := link_only t; lists := ls |}.
Definition set {A} (key : string) (l : list A) (ls : string -> option (list A)) : string -> option (list A) := fun k => if String.eqb k key then Some l else ls k.

Inductive problem :=
| NotText                                   (* AttributeError in ParseQualifiedTarget *)
| NoDependencies                            (* 1502 KeyError *)
| NotDependency (dependency key target : string) (* 1504-1513 *)
| Wild (e : names_error)
| Missing (dependency : string)             (* 1649 KeyError *)
| BadFilter.                                (* 2590-2609 *)

(** input.py:33 and 1479-1481 *)
Definition dependency_sections : list string := ["dependencies"; "export_dependent_settings"].
Definition all_sections : list string := flat_map (fun dep => map (fun op => dep ++ op) [""; "!"; "/"]) dependency_sections.

Section Load.
Variable realpath : string -> string.
(** generator_supports_multiple_toolsets *)
Variable multiple : bool.
Variable data : build_data.

(** 1489-1498 *)
Definition qualify (file own dep : string) : string :=
  let '(f, n, s) := resolve_target realpath file dep own in qualified_target f n (if multiple then s else own).
(** 1488-1514: one list; [deps] is the target's "dependencies" by now *)
Fixpoint qualify_list (t key own : string) (deps : option (list string)) (l : list item) : list string + problem :=
  match l with
  | [] => inl []
  | Other :: _ => inr NotText
  | Word dep :: l' =>
    let d := qualify (build_file t) own dep in
    let rest := qualify_list t key own deps l' in
    if String.eqb key "dependencies" then match rest with inl r => inl (d :: r) | inr e => inr e end
    else match deps with
         | None => inr NoDependencies
         | Some ds => if mem d ds then match rest with inl r => inl (d :: r) | inr e => inr e end else inr (NotDependency d key t)
         end
  end.
(** 1486-1514; [done] are the lists that have been rewritten *)
Fixpoint qualify_sections (t : string) (own : string) (written : string -> option (list item)) (keys : list string) (done : string -> option (list string)) : (string -> option (list string)) + problem :=
  match keys with
  | [] => inl done
  | key :: keys' =>
    match written key with
    | None => qualify_sections t own written keys' done
    | Some l => match qualify_list t key own (done "dependencies") l with inl r => qualify_sections t own written keys' (set key r done) | inr e => inr e end
    end
  end.
Definition qualify_dependencies (t : string) (d : target item) : target string + problem :=
  match qualify_sections t (toolset d) (lists d) all_sections (fun _ => None) with inl ls => inl (put d ls) | inr e => inr e end.

(** A loop over dependency_sections that replaces lists. *)
Fixpoint in_sections (f : list string -> list string + problem) (keys : list string) (ls : string -> option (list string)) : (string -> option (list string)) + problem :=
  match keys with
  | [] => inl ls
  | key :: keys' => match ls key with
                    | None => in_sections f keys' ls
                    | Some l => match f l with inl r => in_sections f keys' (set key r ls) | inr e => inr e end
                    end
  end.
Definition with_sections (f : list string -> list string + problem) (d : target string) : target string + problem :=
  match in_sections f dependency_sections (lists d) with inl ls => inl (put d ls) | inr e => inr e end.

(** 1613-1633: every time the target itself is met, it is filtered from the list as it was *)
Fixpoint remove_self_loop (t : string) (prune : bool) (all todo now : list string) : list string :=
  match todo with
  | [] => now
  | d :: todo' => remove_self_loop t prune all todo' (if String.eqb d t && prune then filter_out all t else now)
  end.
Definition remove_self (t : string) (d : target string) : target string + problem := with_sections (fun l => inl (remove_self_loop t (prune_self d) l l l)) d.
(** 1517-1595 *)
Definition expand (t : string) (d : target string) : target string + problem :=
  with_sections (fun l => match expand_wildcards data t l with inl r => inl r | inr e => inr (Wild e) end) d.
(** 1636-1652: [all] are the targets; a linked one is filtered from what is left *)
Fixpoint remove_links_loop (all : list (string * bool)) (todo now : list string) : list string + problem :=
  match todo with
  | [] => inl now
  | d :: todo' => match assoc d all with None => inr (Missing d) | Some linked => remove_links_loop all todo' (if linked : bool then filter_out now d else now) end
  end.
Definition remove_links (all : list (string * bool)) (d : target string) : target string + problem :=
  with_sections (fun l => if match kind d with Some k => String.eqb k "none" | None => false end then remove_links_loop all l l else inl l) d.
(** 3009-3022 and ProcessListFiltersInDict: without the list itself, its filters are dropped
    (2547-2553); an item of a list of regular expressions is a string by now, which is never
    an action and a pattern (2592-2609) *)
Fixpoint filter_sections (keys : list string) (ls : string -> option (list string)) : (string -> option (list string)) + problem :=
  match keys with
  | [] => inl ls
  | key :: keys' =>
    match ls key with
    | None => filter_sections keys' ls
    | Some l =>
      let excluded := match ls (key ++ "!") with Some x => x | None => [] end in
      match ls (key ++ "/") with
      | Some (_ :: _) => inr BadFilter
      | _ => filter_sections keys' (set key (filter (fun d => negb (mem d excluded)) l) ls)
      end
    end
  end.
Definition filter_lists (d : target string) : target string + problem := match filter_sections dependency_sections (lists d) with inl ls => inl (put d ls) | inr e => inr e end.
(** 1603-1610 *)
Definition remove_duplicates (d : target string) : target string + problem := with_sections (fun l => inl (unify l)) d.

(** "for target_name, target_dict in targets.items()" *)
Fixpoint each {A B} (f : string -> target A -> target B + problem) (ts : list (string * target A)) : list (string * target B) + problem :=
  match ts with
  | [] => inl []
  | (t, d) :: ts' => match f t d with
                     | inr e => inr e
                     | inl d' => match each f ts' with inl r => inl ((t, d') :: r) | inr e => inr e end
                     end
  end.
Definition andthen {A B} (x : A + problem) (f : A -> B + problem) : B + problem := match x with inl a => f a | inr e => inr e end.
(** Load, 2990-3025 *)
Definition resolve (targets : list (string * target item)) : list (string * target string) + problem :=
  let links := map (fun '(t, d) => (t, link_only d)) targets in
  andthen (each qualify_dependencies targets) (fun a =>
  andthen (each remove_self a) (fun b =>
  andthen (each expand b) (fun c =>
  andthen (each (fun _ => remove_links links) c) (fun d =>
  andthen (each (fun _ => filter_lists) d) (fun e =>
  each (fun _ => remove_duplicates) e))))).
End Load.
