(** What the ids of an Xcode project's files are made from.  Independent of
    Model_XcodeIds; elements are those of Model_XcodeGroups, the places of files those of
    Spec_XcodeGroups. *)
From Coq Require Import NArith.
From Verif Require Import Lib Str Model_Names Model_Path Model_XcodeGroups Spec_XcodeGroups.
Local Open Scope string_scope.

(** Text in UTF-8: each character is a first byte and as many more as it says. *)
Definition first_byte (c : ascii) (more : nat) : Prop :=
  let n := N_of_ascii c in
  (more = 0%nat /\ n < 128)%N \/ (more = 1%nat /\ 192 <= n < 224)%N \/ (more = 2%nat /\ 224 <= n < 240)%N \/ (more = 3%nat /\ 240 <= n < 248)%N.
Definition further_byte (c : ascii) : Prop := (128 <= N_of_ascii c < 192)%N.
Inductive utf8 : string -> Prop :=
| utf8_end : utf8 ""
| utf8_char : forall c more s, first_byte c (length more) -> Forall further_byte more -> utf8 s -> utf8 (String c (string_of_list_ascii more ++ s)).
(** Shorter than 2^31 bytes *)
Definition short (s : string) : Prop := (N.of_nat (String.length s) < 2147483648)%N.
Definition text (s : string) : Prop := utf8 s /\ short s.

(** Two hexadecimal digits *)
Definition two_digits (n : N) : string :=
  let digit k := match String.get (N.to_nat k) "0123456789ABCDEF" with Some c => String c "" | None => "" end in
  digit (n / 16)%N ++ digit (n mod 16)%N.
(** The id for a digest of 20 bytes: its first 12 bytes, the last 8 xored into the first 8,
    in hexadecimal *)
Definition id_for (digest id : string) : Prop :=
  exists a b c d e f g h i j k l m n o p q r s t,
  map N_of_ascii (list_ascii_of_string digest) = [a; b; c; d; e; f; g; h; i; j; k; l; m; n; o; p; q; r; s; t] /\
  id = String.concat "" (map two_digits [N.lxor a m; N.lxor b n; N.lxor c o; N.lxor d p; N.lxor e q; N.lxor f r; N.lxor g s; N.lxor h t; i; j; k; l]).

(** A directory for one language: its name ends in ".lproj", with more than dots before *)
Definition localized (d r : string) : Prop := d = r ++ ".lproj" /\ exists a c b, r = a ++ String c b /\ c <> "."%char.
(** What the id of a file stands for: the group at the top, its directories, its name *)
Inductive identified (group : string) : list string -> list string -> Prop :=
| identified_plain : forall dirs f, (forall ds d r, dirs = ds ++ [d] -> ~ localized d r)%list ->
    identified group (dirs ++ [f]) (["PBXGroup.name"; group] ++ flat_map (fun d => ["PBXGroup.path"; d]) dirs ++ ["PBXFileReference.path"; f])
| identified_localized : forall dirs d r f, localized d r ->
    identified group (dirs ++ [d; f]) (["PBXGroup.name"; group] ++ flat_map (fun d => ["PBXGroup.path"; d]) dirs ++
      ["PBXVariantGroup.name"; f; "PBXFileReference.name"; r; "PBXFileReference.path"; d; "PBXFileReference.path"; f]).
(** A path that names no variable, nor the group at the top *)
Definition plain (group p : string) : Prop :=
  ordinary p /\ Forall no_variable (split_char "/" (normpath p)) /\ hd_error (split_char "/" (normpath p)) <> Some group.
(** The group that holds a project's sources *)
Definition source (group : string) : props := {| name := Some group; tree := "<group>"; path := None |}.
(** The ids of files among those of all elements *)
Definition is_file (e : elem) : bool := match e with File _ => true | _ => false end.
Definition file_ids (l : list (elem * string)) : list string := map snd (filter (fun x => is_file (fst x)) l).
