(** How Xcode reads a project file: a property list in the old style, as CoreFoundation
    reads it; and when it has been read as what it was to say. *)
From Verif Require Import Lib Str.
From Verif Require Import Model_Pbx.
From Coq Require Import ZArith Permutation DecimalString.
Local Open Scope string_scope.

Inductive plist := Str (s : string) | Array (l : list plist) | Dict (l : list (string * plist)).

(** ** Blanks and comments *)
Definition blank (a : ascii) : bool := let n := N_of_ascii a in (N.leb 9 n && N.leb n 13) || N.eqb n 32.
Inductive place := Outside | In_line | In_block.
Fixpoint skip_from (p : place) (s : string) : string :=
  match p with
  | Outside =>
    match s with
    | "" => ""
    | String a r =>
      if blank a then skip_from Outside r
      else if Ascii.eqb a "/" then match r with String b r' => if Ascii.eqb b "/" then skip_from In_line r' else if Ascii.eqb b "*" then skip_from In_block r' else s | "" => s end
      else s
    end
  | In_line => match s with "" => "" | String a r => if Ascii.eqb a "010" || Ascii.eqb a "013" then skip_from Outside r else skip_from In_line r end
  | In_block =>
    match s with
    | "" => ""
    | String a r => if Ascii.eqb a "*" then match r with String b r' => if Ascii.eqb b "/" then skip_from Outside r' else skip_from In_block r | "" => "" end else skip_from In_block r
    end
  end.
Definition skip : string -> string := skip_from Outside.

(** ** Strings *)
(** What may be in a string without quotes. *)
Definition naked (a : ascii) : bool :=
  let n := N_of_ascii a in (N.leb 65 n && N.leb n 90) || (N.leb 97 n && N.leb n 122) || (N.leb 48 n && N.leb n 57) || Ascii.eqb a "_" || Ascii.eqb a "$" || Ascii.eqb a "/" || Ascii.eqb a ":" || Ascii.eqb a "." || Ascii.eqb a "-".
Fixpoint token (s : string) : string * string :=
  match s with "" => ("", "") | String a r => if naked a then let '(t, r') := token r in (String a t, r') else ("", s) end.
Definition hex (a : ascii) : option N :=
  let n := N_of_ascii a in
  if N.leb 48 n && N.leb n 57 then Some (n - 48)%N else if N.leb 97 n && N.leb n 102 then Some (n - 87)%N else if N.leb 65 n && N.leb n 70 then Some (n - 55)%N else None.
Definition escape_means (a : ascii) : ascii :=
  if Ascii.eqb a "a" then "007" else if Ascii.eqb a "b" then "008" else if Ascii.eqb a "f" then "012" else if Ascii.eqb a "n" then "010" else if Ascii.eqb a "r" then "013" else if Ascii.eqb a "t" then "009"
  else if Ascii.eqb a "v" then "011" else a.
Definition cons_to (a : ascii) (x : option (string * string)) : option (string * string) := match x with Some (t, r) => Some (String a t, r) | None => None end.
(** Up to the closing quote.  Of code points by number only those of ASCII are read here,
    and no numbers with octal digits. *)
Fixpoint quoted (s : string) : option (string * string) :=
  match s with
  | "" => None
  | String a r =>
    if Ascii.eqb a "034" then Some ("", r)
    else if Ascii.eqb a "\" then
      match r with
      | "" => None
      | String b r' =>
        if Ascii.eqb b "U" then
          match r' with
          | String h1 (String h2 (String h3 (String h4 r''))) =>
            match hex h1, hex h2, hex h3, hex h4 with
            | Some n1, Some n2, Some n3, Some n4 => let n := (((n1 * 16 + n2) * 16 + n3) * 16 + n4)%N in if N.ltb n 128 then cons_to (ascii_of_N n) (quoted r'') else None
            | _, _, _, _ => None
            end
          | _ => None
          end
        else if N.leb 48 (N_of_ascii b) && N.leb (N_of_ascii b) 55 then None
        else cons_to (escape_means b) (quoted r')
      end
    else cons_to a (quoted r)
  end.
Inductive reads_string (s : string) : string -> string -> Prop :=
| string_quoted r t rest : skip s = String "034" r -> quoted r = Some (t, rest) -> reads_string s t rest
| string_naked a r t rest : skip s = String a r -> naked a = true -> token (String a r) = (t, rest) -> reads_string s t rest.

(** ** Values: what is read from the start of a text, and what is left of it *)
Inductive reads : string -> plist -> string -> Prop :=
| reads_str s t rest : reads_string s t rest -> reads s (Str t) rest
| reads_array s r l rest : skip s = String "(" r -> reads_items r l rest -> reads s (Array l) rest
| reads_dict s r l rest : skip s = String "{" r -> reads_entries r l rest -> reads s (Dict l) rest
with reads_items : string -> list plist -> string -> Prop :=
| items_end s rest : skip s = String ")" rest -> reads_items s [] rest
| items_last s p r rest : reads s p r -> skip r = String ")" rest -> reads_items s [p] rest
| items_more s p r r' l rest : reads s p r -> skip r = String "," r' -> reads_items r' l rest -> reads_items s (p :: l) rest
with reads_entries : string -> list (string * plist) -> string -> Prop :=
| entries_end s rest : skip s = String "}" rest -> reads_entries s [] rest
| entries_more s k r r' p r'' r3 l rest : reads_string s k r -> skip r = String "=" r' -> reads r' p r'' -> skip r'' = String ";" r3 -> reads_entries r3 l rest -> reads_entries s ((k, p) :: l) rest.
Definition read_as (file : string) (p : plist) : Prop := exists r, reads file p r /\ skip r = "".

(** ** What is to be read *)
(** Numbers are read as texts, references as the ids of the objects.  In build settings a
    list of at most one item stands for the text. *)
Inductive same (flat : bool) : value -> plist -> Prop :=
| same_text s : same flat (Text s) (Str s)
| same_number z : same flat (Number z) (Str (NilZero.string_of_int (Z.to_int z)))
| same_reference i c : same flat (Reference i c) (Str i)
| same_items l r : flat = false \/ 2 <= length l -> Forall2 (same flat) l r -> same flat (Items l) (Array r)
| same_nothing : flat = true -> same flat (Items []) (Str "")
| same_one s : flat = true -> same flat (Items [Text s]) (Str s)
| same_entries l l' r : Permutation l l' -> Forall2 (fun kv kp => fst kv = fst kp /\ same flat (snd kv) (snd kp)) l' r -> same flat (Entries l) (Dict r).
Inductive letters : string -> Prop := letters_ s : s <> "" -> (forall a, In a (list_ascii_of_string s) -> (65 <= N_of_ascii a <= 90 \/ 97 <= N_of_ascii a <= 122 \/ 48 <= N_of_ascii a <= 57)%N) -> letters s.
(** The settings of a build file are written in the format itself. *)
Inductive same_property (c : string) : string * value -> string * plist -> Prop :=
| property_settings w : c = "PBXBuildFile" -> letters w -> same_property c ("settings", Text ("{ATTRIBUTES = (" ++ w ++ ", ); }")) ("settings", Dict [("ATTRIBUTES", Array [Str w])])
| property_remote i m : c = "PBXContainerItemProxy" -> same_property c ("remoteGlobalIDString", Reference i m) ("remoteGlobalIDString", Str i)
| property_build v p : c = "XCBuildConfiguration" -> same true v p -> same_property c ("buildSettings", v) ("buildSettings", p)
| property_other k v p : (c, k) <> ("PBXBuildFile", "settings") -> (c, k) <> ("PBXContainerItemProxy", "remoteGlobalIDString") -> (c, k) <> ("XCBuildConfiguration", "buildSettings") ->
    same false v p -> same_property c (k, v) (k, p).
Definition same_object (o : object) (kp : string * plist) : Prop :=
  exists ps ds, kp = (id o, Dict (("isa", Str (class o)) :: ds)) /\ Permutation (properties o) ps /\ Forall2 (same_property (class o)) ps ds.

(** ** Texts that can be written: without carriage returns, and not one of those the
    writer takes for harmless although they are not. *)
Definition harmless (a : ascii) : Prop := (65 <= N_of_ascii a <= 90 \/ 97 <= N_of_ascii a <= 122 \/ 48 <= N_of_ascii a <= 57)%N \/ In a ["$"; "."; "/"; "_"]%char.
Definition tame (s : string) : Prop :=
  has_char "013" s = false /\ ~ (exists b, b <> "" /\ s = b ++ newline /\ forall a, In a (list_ascii_of_string b) -> harmless a) /\ ~ (exists r, s = "//" ++ r /\ forall a, In a (list_ascii_of_string r) -> harmless a).
Inductive tame_value : value -> Prop :=
| tame_text s : tame s -> tame_value (Text s)
| tame_number z : tame_value (Number z)
| tame_reference i c : letters i -> tame_value (Reference i c)
| tame_items l : Forall tame_value l -> tame_value (Items l)
| tame_entries l : Forall (fun kv => tame (fst kv) /\ tame_value (snd kv)) l -> tame_value (Entries l).
Definition tame_object (o : object) : Prop :=
  letters (id o) /\ letters (class o) /\ Forall (fun kv => tame (fst kv) /\ tame_value (snd kv)) (properties o) /\
  (class o = "PBXBuildFile" -> forall v, In ("settings", v) (properties o) -> exists w, letters w /\ v = Text ("{ATTRIBUTES = (" ++ w ++ ", ); }")).

(** ** What can be written at all *)
Inductive writable (flat : bool) : value -> Prop :=
| writable_text s : writable flat (Text s)
| writable_number z : writable flat (Number z)
| writable_reference i c : writable flat (Reference i c)
| writable_items l : (flat = true -> forall v, l = [v] -> exists s, v = Text s) -> Forall (writable flat) l -> writable flat (Items l)
| writable_entries l : Forall (fun kv => writable flat (snd kv)) l -> writable flat (Entries l).
Definition writable_property (c : string) (kv : string * value) : Prop :=
  (c = "PBXContainerItemProxy" -> fst kv = "remoteGlobalIDString" -> exists i m, snd kv = Reference i m) /\
  (c = "XCBuildConfiguration" -> fst kv = "buildSettings" -> writable true (snd kv)) /\
  (c <> "XCBuildConfiguration" \/ fst kv <> "buildSettings" -> writable false (snd kv)).
Definition writable_object (o : object) : Prop := Forall (writable_property (class o)) (properties o).
