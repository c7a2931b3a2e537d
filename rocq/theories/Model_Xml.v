(** Model of gyp/pylib/gyp/easy_xml.py:12-109, 143-165.  A specification is an
    element (name, attributes, content) or a string.
    Simplification: the content after the name is well-typed (the attributes
    come first, as one dict of strings). *)
From Verif Require Import Lib Str Model_Quote.
Local Open Scope string_scope.

Inductive xml := Elem (name : string) (attrs : list (string * string)) (kids : list xml) | Text (s : string).

(** easy_xml.py:143-151 (_xml_escape_map) and 157-165 (_XmlEscape). *)
Definition xml_escape_char (attr : bool) (c : ascii) : string :=
  if Ascii.eqb c dquote then "&quot;"
  else if Ascii.eqb c squote then (if attr then str1 c else "&apos;")
  else if Ascii.eqb c "<" then "&lt;"
  else if Ascii.eqb c ">" then "&gt;"
  else if Ascii.eqb c "&" then "&amp;"
  else if Ascii.eqb c newline then "&#xA;"
  else if Ascii.eqb c "013" then "&#xD;"
  else str1 c.
Definition xml_escape (attr : bool) : string -> string := map_chars (xml_escape_char attr).

(** easy_xml.py:83: sorted(rest[0].items()); keys of a dict are distinct. *)
Fixpoint insert_attr (x : string * string) (l : list (string * string)) : list (string * string) :=
  match l with [] => [x] | y :: l' => if String.leb (fst x) (fst y) then x :: l else y :: insert_attr x l' end.
Fixpoint sort_attrs (l : list (string * string)) : list (string * string) :=
  match l with [] => [] | x :: l' => insert_attr x (sort_attrs l') end.
Fixpoint attrs_text (l : list (string * string)) : string :=
  match l with [] => "" | (at_, v) :: l' => " " ++ at_ ++ "=" ++ str1 dquote ++ xml_escape true v ++ str1 dquote ++ attrs_text l' end.

Fixpoint indentation (level : nat) : string := match level with O => "" | S n => "  " ++ indentation n end.
Definition is_elem (x : xml) : bool := match x with Elem _ _ _ => true | Text _ => false end.

(** easy_xml.py:58-109: _ConstructContentList. *)
Fixpoint construct (pretty : bool) (level : nat) (x : xml) : string :=
  match x with
  | Text s => xml_escape false s
  | Elem name attrs kids =>
    let ind := if pretty then indentation level else "" in
    let new_line := if pretty then str1 newline else "" in
    ind ++ "<" ++ name ++ attrs_text (sort_attrs attrs) ++
    match kids with
    | [] => "/>" ++ new_line
    | _ =>
      let multi_line := existsb is_elem kids in
      ">" ++ (if multi_line then new_line else "") ++
      String.concat "" (map (construct pretty (S level)) kids) ++
      (if multi_line then ind else "") ++ "</" ++ name ++ ">" ++ new_line
    end
  end.
(** easy_xml.py:12-55: XmlToString. *)
Definition xml_to_string (encoding : string) (pretty : bool) (x : xml) : string :=
  "<?xml version=" ++ str1 dquote ++ "1.0" ++ str1 dquote ++ " encoding=" ++ str1 dquote ++ encoding ++ str1 dquote ++ "?>" ++
  (if pretty then str1 newline else "") ++ construct pretty 0 x.
