(** Model of how an Xcode project's groups are made: gyp/pylib/gyp/xcodeproj_file.py:171-193
    (SourceTreeAndPathFromPath), 964-1007 and 1123-1140 (XCHierarchicalElement),
    1201-1255 (children by path), 1283-1406 (AddOrGetFileByPath, with hierarchical set),
    1408-1486 (TakeOverOnlyChild) and 1549-1557 (PBXFileReference).  A group's dictionaries
    hold the keys its children have, as they do as long as files are added only
    before groups are taken over (xcode.py:350).  Not modelled: file types, ids, parents
    (a tree has them), the references that are returned, paths with line feeds. *)
From Verif Require Import Lib Str Model_Names Model_Path Model_Writer.
Local Open Scope string_scope.

(** The properties "name", "sourceTree" and "path". *)
Record props := { name : option string; tree : string; path : option string }.
Inductive elem := File (p : props) | Group (variant : bool) (p : props) (children : list elem).
(** What AddOrGetFileByPath leaves; an assertion or ValueError; RecursionError. *)
Inductive outcome := Added (children : list elem) | Refused | Deep.

(** 172: the lazy match up to a closing parenthesis that ends the path or a component *)
Fixpoint variable_end (acc s : string) : option (string * option string) :=
  match s with
  | "" => None
  | String a s' =>
    if Ascii.eqb a ")" then
      match s' with
      | "" => Some (acc, None)
      | String b q => if Ascii.eqb b "/" then Some (acc, Some q) else variable_end (acc ++ String a "") s'
      end
    else variable_end (acc ++ String a "") s'
  end.
Definition source_tree (s : string) : option (string * option string) := if String.prefix "$(" s then variable_end "" (substring 2 (String.length s - 2) s) else None.
Definition basename (p : string) : string := snd (path_split p).
(** 964-998 *)
Definition init (n p : option string) : props :=
  let n' := match n, p with
            | Some _, _ => n
            | None, Some p => if String.eqb (basename p) "" || String.eqb (basename p) p then None else Some (basename p)
            | None, None => None
            end in
  match p with
  | None => {| name := n'; tree := "<group>"; path := None |}
  | Some p =>
    match source_tree p with
    | None => {| name := n'; tree := "<group>"; path := Some p |}
    | Some (t, Some q) => {| name := n'; tree := t; path := Some q |}
    | Some (t, None) => match n' with None => {| name := Some t; tree := t; path := None |} | Some _ => {| name := n'; tree := t; path := Some p |} end
    end
  end.
(** 1549-1557 *)
Definition new_file (n : option string) (p : string) : elem :=
  let q := init n (Some p) in
  File (match path q with Some s => if ends_slash s then {| name := name q; tree := tree q; path := Some (substring 0 (String.length s - 1) s) |} else q | None => q end).
Definition props_of (e : elem) : props := match e with File p => p | Group _ p _ => p end.
(** 1123-1140 *)
Definition key (p : props) : option string :=
  let first := if String.eqb (tree p) "<group>" then None else Some ("$(" ++ tree p ++ ")") in
  match first, path p with
  | None, None => None
  | Some t, None => Some t
  | None, Some s => Some s
  | Some t, Some s => Some (path_join t s)
  end.
Definition has_key (k : string) (e : elem) : bool := match key (props_of e) with Some s => String.eqb s k | None => false end.
(** 1251-1257 *)
Definition child_at (k : string) (kids : list elem) : option elem := if String.eqb k "" then None else find (has_key k) kids.
Definition same (a b : option string) : bool := match a, b with Some x, Some y => String.eqb x y | None, None => true | _, _ => false end.
Definition is_variant (n k : option string) (e : elem) : bool := match e with Group true p _ => same (name p) n && same (key p) k | _ => false end.
(** 1206-1231 *)
Definition append_child (e : elem) (kids : list elem) : outcome :=
  let k := key (props_of e) in
  if match k with Some s => negb (String.eqb s "") && existsb (has_key s) kids | None => false end then Refused
  else if match e with Group true p _ => existsb (is_variant (name p) k) kids | _ => false end then Refused
  else Added (kids ++ [e])%list.
(** The first child that is meant, changed. *)
Fixpoint change (meant : elem -> bool) (f : elem -> option elem) (kids : list elem) : option (list elem) :=
  match kids with
  | [] => None
  | e :: l => if meant e then match f e with Some e' => Some (e' :: l)%list | None => None end
              else match change meant f l with Some l' => Some (e :: l')%list | None => None end
  end.
(** 1333-1357 and 1381-1406 *)
Definition add_variant (n : string) (above : option string) (language p : string) (kids : list elem) : outcome :=
  match find (is_variant (Some n) above) kids with
  | Some (Group true q sub) =>
    match child_at p sub with
    | Some (File _) => Added kids
    | Some _ => Refused
    | None =>
      match append_child (new_file (Some language) p) sub with
      | Added sub' => match change (is_variant (Some n) above) (fun _ => Some (Group true q sub')) kids with Some k => Added k | None => Refused end
      | o => o
      end
    end
  | Some _ => Refused
  | None => append_child (Group true (init (Some n) above) [new_file (Some language) p]) kids
  end.
Definition last_two (l : list string) : list string := skipn (length l - 2) l.
(** 1283-1379; [depth]: how deep calls may be nested *)
Fixpoint add (depth : nat) (p : string) (kids : list elem) : outcome :=
  match depth with
  | O => Deep
  | S depth' =>
    let is_dir := ends_slash p in
    let p := if is_dir then normpath p ++ "/" else normpath p in
    let parent := dirname p in
    let grandparent := dirname parent in
    let '(parent_root, parent_ext) := splitext (basename parent) in
    let variant := String.eqb parent_ext ".lproj" in
    if is_dir && variant then Refused
    else
      let parts := split_char "/" p in
      if Nat.eqb (length parts) 1 || ((is_dir || variant) && Nat.eqb (length parts) 2) then
        if variant then add_variant (basename p) (if String.eqb grandparent "" then None else Some grandparent) parent_root (String.concat "/" (last_two parts)) kids
        else
          match child_at p kids with
          | Some (File _) => Added kids
          | Some _ => Refused
          | None => append_child (new_file None p) kids
          end
      else
        match parts with
        | [] => Refused
        | d :: rest =>
          match child_at d kids with
          | Some (Group false q sub) =>
            match add depth' (String.concat "/" rest) sub with
            | Added sub' => match change (has_key d) (fun _ => Some (Group false q sub')) kids with Some k => Added k | None => Refused end
            | o => o
            end
          | Some _ => Refused
          | None =>
            match append_child (Group false (init None (Some d)) []) kids with
            | Added _ => match add depth' (String.concat "/" rest) [] with Added sub' => Added (kids ++ [Group false (init None (Some d)) sub'])%list | o => o end
            | o => o
            end
          end
        end
  end.
Fixpoint add_all (depth : nat) (ps : list string) (kids : list elem) : outcome :=
  match ps with [] => Added kids | p :: ps' => match add depth p kids with Added k => add_all depth ps' k | o => o end end.

(** 1000-1007 *)
Definition Name (p : props) : option string := match name p with Some n => Some n | None => path p end.
(** 1438-1477: what the group has after it takes over a child's properties *)
Definition take (old child : props) : props :=
  let p := if String.eqb (tree child) "<group>"
           then {| name := name child; tree := tree old;
                   path := match path old, path child with Some a, Some b => Some (path_join a b) | Some a, None => Some a | None, b => b end |}
           else child in
  let n := match name old with
           | Some o => match Name p with Some m => if String.eqb o m then name p else Some o | None => Some o end
           | None => name p
           end in
  {| name := match n, path p with Some a, Some b => if String.eqb a b then None else n | _, _ => n end; tree := tree p; path := path p |}.
(** 1408-1486, with recurse *)
Fixpoint take_over (own : props) (e : elem) : elem :=
  match e with
  | Group v _ kids =>
    match kids with
    | [Group false p _ as c] => take_over (take own p) c
    | _ => Group v own (map (fun k => match k with Group false p _ => take_over p k | _ => k end) kids)
    end
  | File _ => e
  end.
