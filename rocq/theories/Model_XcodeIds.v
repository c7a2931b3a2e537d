(** Model of how the objects of an Xcode project get their ids:
    gyp/pylib/gyp/xcodeproj_file.py:389-465 (Hashables, ComputeIDs), 467-485
    (EnsureNoIDCollisions), 1009-1061 (XCHierarchicalElement.Hashables, except for the
    main group), 1186-1204 (PBXGroup), for the groups and files of Model_XcodeGroups.
    Strings are their UTF-8 bytes.  SHA-1 is the parameter [sha1], from all bytes it is
    fed to the 20 bytes of its digest.  Not modelled: the objects that are neither groups
    nor files, and _hashables, which groups and files of sources leave empty. *)
From Coq Require Import NArith.
From Verif Require Import Lib Str Model_Names Model_Path Model_XcodeGroups.
Local Open Scope string_scope.

(** __class__.__name__ *)
Definition class_name (e : elem) : string := match e with File _ => "PBXFileReference" | Group false _ _ => "PBXGroup" | Group true _ _ => "PBXVariantGroup" end.
(** 1036-1061 *)
Definition hashables_of (class : string) (p : props) : list string :=
  match name p with Some n => [class ++ ".name"; n] | None => [] end ++
  match key p with Some k => flat_map (fun c => [class ++ ".path"; c]) (split_char "/" k) | None => [] end.
Definition hashables_for_child (e : elem) : list string := hashables_of (class_name e) (props_of e).
(** 1186-1199 *)
Definition hashables (e : elem) : list string :=
  hashables_for_child e ++
  match e with File _ => [] | Group _ _ kids => flat_map (fun k => match Name (props_of k) with Some n => [n] | None => [] end) kids end.

(** len(data): bytes that do not continue a character *)
Definition continues (c : ascii) : bool := N.leb 128 (N_of_ascii c) && N.ltb (N_of_ascii c) 192.
Fixpoint characters (s : string) : N := match s with "" => 0%N | String c s' => if continues c then characters s' else N.succ (characters s') end.
(** struct.pack(">i", n); a struct.error for 2^31 and more is not modelled *)
Definition byte (n : N) : ascii := ascii_of_N (N.modulo n 256).
Definition pack (n : N) : string := String (byte (n / 16777216)) (String (byte (n / 65536)) (String (byte (n / 256)) (String (byte n) ""))).
(** _HashUpdate, 421-433: what the hash is fed *)
Definition feed (data : string) : string := pack (characters data) ++ data.
Definition feeds (l : list string) : string := String.concat "" (map feed l).

(** 455-465: struct.unpack(">IIIII", digest), xor, "%08X%08X%08X" *)
Fixpoint words (s : string) : list N :=
  match s with
  | String a (String b (String c (String d s'))) => (((N_of_ascii a * 256 + N_of_ascii b) * 256 + N_of_ascii c) * 256 + N_of_ascii d)%N :: words s'
  | _ => []
  end.
Fixpoint xor_at (i : nat) (w : N) (l : list N) : list N := match i, l with O, x :: l' => N.lxor x w :: l' | S i', x :: l' => x :: xor_at i' w l' | _, [] => [] end.
Fixpoint fold_words (index : nat) (ws : list N) (ints : list N) : list N := match ws with [] => ints | w :: ws' => fold_words (S index) ws' (xor_at (Nat.modulo index 3) w ints) end.
Definition hex_digit (n : N) : string := match String.get (N.to_nat n) "0123456789ABCDEF" with Some c => String c "" | None => "" end.
Fixpoint hex (k : nat) (n : N) : string := match k with O => "" | S k' => hex k' (n / 16)%N ++ hex_digit (n mod 16)%N end.
Definition id_of (digest : string) : string := String.concat "" (map (hex 8) (fold_words 0 (words digest) [0; 0; 0]%N)).

Section Ids.
Variable sha1 : string -> string.
(** ComputeIDs of an element, [fed] being what seed_hash was fed: each element with its id *)
Fixpoint compute_ids (fed : string) (e : elem) : list (elem * string) :=
  (e, id_of (sha1 (fed ++ feeds (hashables e)))) ::
  match e with File _ => [] | Group _ _ kids => flat_map (compute_ids (fed ++ feeds (hashables_for_child e))) kids end.
End Ids.
(** 467-485: None is the KeyError *)
Fixpoint no_collisions (seen : list string) (ids : list string) : option unit :=
  match ids with [] => Some tt | i :: l => if mem i seen then None else no_collisions (i :: seen) l end.
