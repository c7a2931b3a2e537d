(** Model of how an Xcode project file is written: gyp/pylib/gyp/xcodeproj_file.py:160-168,
    269-288 (the escapes), 517-583 (_EncodeComment, _EncodeTransform, _EncodeString),
    587-655 (_XCPrintableValue), 657-720 (_XCKVPrint), 722-758 (XCObject.Print) and
    3143-3198 (XCProjectFile.Print, _PrintObjects).  Texts are the bytes of their UTF-8.
    An object is given by its class, its id, its comment (empty for none) and its
    properties; that the required ones are there (VerifyHasRequiredProperties) and which
    objects descend from the project (Descendants) is left out.  Keys of dicts are texts. *)
From Verif Require Import Lib Str Model_Quote Model_Writer.
From Verif Require Model_Text.
From Coq Require Import ZArith.
Local Open Scope string_scope.

Definition newline : string := str1 "010".
Definition tab : string := str1 "009".
(** 160: the dollar sign of the pattern also holds before a newline at the end *)
Definition bare (a : ascii) : bool :=
  let n := N_of_ascii a in (N.leb 65 n && N.leb n 90) || (N.leb 97 n && N.leb n 122) || (N.leb 48 n && N.leb n 57) || Ascii.eqb a "$" || Ascii.eqb a "." || Ascii.eqb a "/" || Ascii.eqb a "_".
Fixpoint bare_to_end (s : string) : bool :=
  match s with "" => true | String a r => if bare a then bare_to_end r else String.eqb s newline end.
Definition unquoted (s : string) : bool := match s with "" => false | String a r => bare a && bare_to_end r end.
(** 272-288 *)
Definition hex_digit (n : N) : ascii := ascii_of_N (if N.ltb n 10 then 48 + n else 87 + n)%N.
Definition transform (alternate : bool) (a : ascii) : string :=
  let n := N_of_ascii a in
  if N.eqb n 7 then "\a" else if N.eqb n 8 then "\b" else if N.eqb n 9 then (if alternate then str1 a else "\t") else if N.eqb n 10 then (if alternate then str1 a else "\n")
  else if N.eqb n 11 then (if alternate then str1 a else "\v") else if N.eqb n 12 then "\f" else if N.eqb n 13 then "\n"
  else "\U00" ++ String (hex_digit (N.div n 16)) (str1 (hex_digit (N.modulo n 16))).
(** 168, 530-543 *)
Definition escape1 (alternate : bool) (a : ascii) : string :=
  if Ascii.eqb a backslash then "\\" else if Ascii.eqb a dquote then String backslash (str1 dquote) else if N.ltb (N_of_ascii a) 32 then transform alternate a else str1 a.
Fixpoint escapes (alternate : bool) (s : string) : string := match s with "" => "" | String a r => escape1 alternate a ++ escapes alternate r end.
(** 579-582 *)
Definition encode (alternate : bool) (s : string) : string :=
  if unquoted s && negb (contains "___" s) then s else String dquote (escapes alternate s ++ str1 dquote).
(** 528 *)
Definition encode_comment (c : string) : string := "/* " ++ replace "*/" "(*)/" c ++ " */".

(** ** values *)
Inductive value := Text (s : string) | Number (z : Z) | Reference (id comment : string) | Items (l : list value) | Entries (l : list (string * value)).
Fixpoint insert_by {A} (key : A -> string) (x : A) (l : list A) : list A :=
  match l with [] => [x] | y :: r => if String.leb (key x) (key y) then x :: l else y :: insert_by key x r end.
(** sorted() by a key *)
Fixpoint sort_by {A} (key : A -> string) (l : list A) : list A := match l with [] => [] | x :: r => insert_by key x (sort_by key r) end.
Fixpoint all_some {A} (l : list (option A)) : option (list A) :=
  match l with [] => Some [] | o :: r => match o, all_some r with Some x, Some xs => Some (x :: xs) | _, _ => None end end.
Definition with_key {A} (kv : string * option A) : option (string * A) := match snd kv with Some v => Some (fst kv, v) | None => None end.
Fixpoint indent (n : nat) : string := match n with O => "" | S n' => tab ++ indent n' end.
Definition joined (l : list string) : string := String.concat "" l.
(** 587-655, with [single] for _should_print_single_line.  None: an exception *)
Definition separator (single : bool) : string := if single then " " else newline.
Definition indented (single : bool) (n : nat) : string := if single then "" else indent n.
Fixpoint printable (single alternate flatten : bool) (tabs : nat) (v : value) {struct v} : option string :=
  match v with
  | Text s => Some (encode alternate s)
  | Number z => Some (Model_Text.int_str z)
  | Reference i c => Some (i ++ if String.eqb c "" then "" else " " ++ encode_comment c)
  | Items l =>
    let inner := match all_some (map (printable single alternate flatten (S tabs)) l) with
                 | Some ts => Some ("(" ++ separator single ++ joined (map (fun t => indented single (S tabs) ++ t ++ "," ++ separator single) ts) ++ indented single tabs ++ ")")
                 | None => None
                 end in
    if flatten then match l with [] => Some (encode alternate "") | [Text s] => Some (encode alternate s) | [_] => None | _ => inner end else inner
  | Entries l =>
    match all_some (map (fun kv => with_key (fst kv, printable single alternate flatten (S tabs) (snd kv))) l) with
    | Some kts => Some ("{" ++ separator single ++ joined (map (fun kt => indented single (S tabs) ++ encode alternate (fst kt) ++ " = " ++ snd kt ++ ";" ++ separator single) (sort_by fst kts)) ++ indented single tabs ++ "}")
    | None => None
    end
  end.

(** ** objects *)
Record object := { class : string; id : string; comment : string; properties : list (string * value) }.
(** 1545-1547, 1817-1818 *)
Definition on_one_line (c : string) : bool := String.eqb c "PBXFileReference" || String.eqb c "PBXBuildFile".
(** 700-711: printable_value[1:-1] *)
Definition strip_quotes (t : string) : string :=
  match t with
  | String a r => if Ascii.eqb a dquote && negb (String.eqb r "") && ends_with (str1 dquote) r then substring 0 (String.length r - 1) r else t
  | "" => t
  end.
(** 657-720 *)
Definition key_value (c : string) (tabs : nat) (kv : string * value) : option string :=
  let '(k, v) := kv in
  let single := on_one_line c in
  let to_print := if String.eqb k "remoteGlobalIDString" && String.eqb c "PBXContainerItemProxy" then match v with Reference i _ => Some (Text i) | _ => None end else Some v in
  let flatten := String.eqb k "buildSettings" && String.eqb c "XCBuildConfiguration" in
  match to_print with
  | None => None
  | Some v' =>
    match printable single single flatten tabs v' with
    | None => None
    | Some t =>
      let t := if String.eqb k "settings" && String.eqb c "PBXBuildFile" then strip_quotes t else t in
      Some (indented single tabs ++ encode single k ++ " = " ++ t ++ ";" ++ separator single)
    end
  end.
(** 722-758 *)
Definition print_object (o : object) : option string :=
  let single := on_one_line (class o) in
  match printable single single false 2 (Reference (id o) (comment o)), all_some (map (key_value (class o) 3) (("isa", Text (class o)) :: sort_by fst (properties o))) with
  | Some head, Some kvs => Some (indent 2 ++ head ++ " = {" ++ (if single then "" else newline) ++ joined kvs ++ indent (if single then 0 else 2) ++ "};" ++ newline)
  | _, _ => None
  end.

(** ** the file *)
Fixpoint classes (seen : list string) (os : list object) : list string :=
  match os with [] => [] | o :: r => if mem (class o) seen then classes seen r else class o :: classes (class o :: seen) r end.
(** 3170-3198 *)
Definition print_section (os : list object) (c : string) : option string :=
  match all_some (map print_object (sort_by id (filter (fun o => String.eqb (class o) c) os))) with
  | Some ts => Some (newline ++ "/* Begin " ++ c ++ " section */" ++ newline ++ joined ts ++ "/* End " ++ c ++ " section */" ++ newline)
  | None => None
  end.
Definition print_objects (os : list object) : option string :=
  match all_some (map (print_section os) (sort (classes [] os))) with
  | Some ts => Some (tab ++ "objects = {" ++ newline ++ joined ts ++ tab ++ "};" ++ newline)
  | None => None
  end.
(** 3143-3168 *)
Definition print_file (props : list (string * value)) (os : list object) : option string :=
  match all_some (map (fun kv => if String.eqb (fst kv) "objects" then print_objects os else key_value "XCProjectFile" 1 kv) (sort_by fst (("objects", Entries []) :: filter (fun kv => negb (String.eqb (fst kv) "objects")) props))) with
  | Some ts => Some ("// !$*UTF8*$!" ++ newline ++ "{" ++ newline ++ joined ts ++ "}" ++ newline)
  | None => None
  end.
