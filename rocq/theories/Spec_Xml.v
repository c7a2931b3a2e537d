(** An XML reader (XML 1.0: tags, attributes in double quotes, the five named
    entities and hexadecimal character references, attribute-value
    normalisation), and what it should find. *)
From Verif Require Import Lib LibFacts Str Model_Xml.
Local Open Scope string_scope.

Inductive event := Open (name : string) (attrs : list (string * string)) | Close (name : string) | Char (c : ascii).

Definition name_ok (c : ascii) : bool :=
  let n := N_of_ascii c in
  (N.leb 48 n && N.leb n 57) || (N.leb 65 n && N.leb n 90) || (N.leb 97 n && N.leb n 122) || has_char c "_:-.".
Definition valid_name (s : string) : Prop := s <> "" /\ forall c, has_char c s = true -> name_ok c = true.

Definition hex (c : ascii) : option N :=
  let n := N_of_ascii c in
  if N.leb 48 n && N.leb n 57 then Some (n - 48)%N
  else if N.leb 65 n && N.leb n 70 then Some (n - 55)%N
  else if N.leb 97 n && N.leb n 102 then Some (n - 87)%N else None.
Fixpoint hex_value (acc : N) (s : string) : option N :=
  match s with "" => Some acc | String c s' => match hex c with Some d => hex_value (16 * acc + d) s' | None => None end end.
(** The character a reference stands for (those below 256). *)
Definition entity (e : string) : option ascii :=
  if String.eqb e "quot" then Some "034"%char else if String.eqb e "apos" then Some "'"%char
  else if String.eqb e "lt" then Some "<"%char else if String.eqb e "gt" then Some ">"%char else if String.eqb e "amp" then Some "&"%char
  else match e with
       | String "#" (String "x" (String h r)) => match hex_value 0 (String h r) with Some n => if N.ltb n 256 then Some (ascii_of_N n) else None | None => None end
       | _ => None
       end.

Inductive xstate :=
| XText | XTag | XPi (mark : bool) | XName (n : string) | XClose (n : string) | XSlash (n : string) (l : list (string * string))
| XSpace (n : string) (l : list (string * string)) | XAttr (n : string) (l : list (string * string)) (a : string)
| XEq (n : string) (l : list (string * string)) (a : string) | XVal (n : string) (l : list (string * string)) (a v : string)
| XEntity (e : string) | XValEntity (n : string) (l : list (string * string)) (a v e : string).
Definition ev (l : list event) (r : option (list event)) : option (list event) := option_map (app l) r.
Definition snoc (s : string) (c : ascii) : string := s ++ String c "".

Fixpoint xml_read (st : xstate) (s : string) : option (list event) :=
  match s with
  | "" => match st with XText => Some [] | _ => None end
  | String c r =>
    match st with
    | XText => if Ascii.eqb c "<" then xml_read XTag r else if Ascii.eqb c "&" then xml_read (XEntity "") r
               else if Ascii.eqb c "013" then None else ev [Char c] (xml_read XText r)
    | XEntity e => if Ascii.eqb c ";" then match entity e with Some d => ev [Char d] (xml_read XText r) | None => None end
                   else xml_read (XEntity (snoc e c)) r
    | XTag => if Ascii.eqb c "/" then xml_read (XClose "") r else if Ascii.eqb c "?" then xml_read (XPi false) r
              else if name_ok c then xml_read (XName (String c "")) r else None
    | XPi mark => if mark && Ascii.eqb c ">" then xml_read XText r else xml_read (XPi (Ascii.eqb c "?")) r
    | XName n => if Ascii.eqb c " " then xml_read (XSpace n []) r else if Ascii.eqb c ">" then ev [Open n []] (xml_read XText r)
                 else if Ascii.eqb c "/" then xml_read (XSlash n []) r else if name_ok c then xml_read (XName (snoc n c)) r else None
    | XClose n => if Ascii.eqb c ">" then ev [Close n] (xml_read XText r) else if name_ok c then xml_read (XClose (snoc n c)) r else None
    | XSlash n l => if Ascii.eqb c ">" then ev [Open n l; Close n] (xml_read XText r) else None
    | XSpace n l => if Ascii.eqb c " " then xml_read (XSpace n l) r else if Ascii.eqb c ">" then ev [Open n l] (xml_read XText r)
                    else if Ascii.eqb c "/" then xml_read (XSlash n l) r else if name_ok c then xml_read (XAttr n l (String c "")) r else None
    | XAttr n l a => if Ascii.eqb c "=" then xml_read (XEq n l a) r else if name_ok c then xml_read (XAttr n l (snoc a c)) r else None
    | XEq n l a => if Ascii.eqb c "034" then xml_read (XVal n l a "") r else None
    | XVal n l a v => if Ascii.eqb c "034" then xml_read (XSpace n (l ++ [(a, v)])) r else if Ascii.eqb c "&" then xml_read (XValEntity n l a v "") r
                      else if Ascii.eqb c "<" || Ascii.eqb c "013" then None
                      else if Ascii.eqb c "009" || Ascii.eqb c "010" then xml_read (XVal n l a (snoc v " ")) r
                      else xml_read (XVal n l a (snoc v c)) r
    | XValEntity n l a v e => if Ascii.eqb c ";" then match entity e with Some d => xml_read (XVal n l a (snoc v d)) r | None => None end
                              else xml_read (XValEntity n l a v (snoc e c)) r
    end
  end.
Definition xml_events (s : string) : option (list event) := xml_read XText s.

Fixpoint char_events (s : string) : list event := match s with "" => [] | String c r => Char c :: char_events r end.

(** What a reader should find for a specification: the same elements with the
    same attributes and the same text.  If [pretty], blanks may stand between
    the children of an element that has child elements, and nowhere else. *)
Inductive found (pretty : bool) : xml -> list event -> Prop :=
| found_text s : found pretty (Text s) (char_events s)
| found_elem n attrs attrs' kids evs : Permutation attrs attrs' -> sorted (map fst attrs') ->
    found_kids pretty (existsb is_elem kids) kids evs -> found pretty (Elem n attrs kids) (Open n attrs' :: evs ++ [Close n])
with found_kids (pretty : bool) : bool -> list xml -> list event -> Prop :=
| found_nil b : found_kids pretty b [] []
| found_cons b k ks e es : found pretty k e -> found_kids pretty b ks es -> found_kids pretty b (k :: ks) (e ++ es)
| found_blank c ks es : pretty = true -> (c = " " \/ c = "010")%char -> found_kids pretty true ks es -> found_kids pretty true ks (Char c :: es).

(** A specification that XML can represent here: names are names, and no tab is
    in an attribute. *)
Inductive representable : xml -> Prop :=
| rep_text s : representable (Text s)
| rep_elem n attrs kids : valid_name n -> (forall a v, In (a, v) attrs -> valid_name a /\ has_char "009" v = false) ->
    (forall k, In k kids -> representable k) -> representable (Elem n attrs kids).
