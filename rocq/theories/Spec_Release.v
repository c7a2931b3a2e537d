(** Versions, and where the files of a version come from and go to. *)
From Coq Require Import ZArith.
From Verif Require Import Lib Str Js Spec_Text.
From Verif Require Model_Release.
Local Open Scope string_scope.

(** ** Version numbers, as in "v18.0.0-rc.1+build.7" *)

Definition blank (s : string) : Prop := forall a, has_char a s = true -> js_space a = true.
Definition numeral (n : N) : string := rendering (Z.of_N n).
Definition word_char (a : ascii) : Prop := has_char a "0123456789ABCDEFGHIJKLMNOPQRSTUVWXYZabcdefghijklmnopqrstuvwxyz-" = true.
Definition word (s : string) : Prop := s <> "" /\ forall a, has_char a s = true -> word_char a.
(** A part of a prerelease tag: a number without leading zeros or a word that is
    not all digits. *)
Definition pre_part (s : string) : Prop := (exists n, s = numeral n) \/ (word s /\ ~ digits s).
Fixpoint dotted (l : list string) : string := match l with [] => "" | [x] => x | x :: l' => x ++ "." ++ dotted l' end.
Definition version_text (x y z : N) (pre : list string) : string :=
  numeral x ++ "." ++ numeral y ++ "." ++ numeral z ++ match pre with [] => "" | _ => "-" ++ dotted pre end.
(** [s] names the version: white space, a "v" and build metadata do not
    count.  The bounds are those of semver. *)
Definition names_version (s : string) (x y z : N) (pre : list string) : Prop :=
  String.length s <= 256 /\ (x <= 9007199254740991 /\ y <= 9007199254740991 /\ z <= 9007199254740991)%N /\ Forall pre_part pre /\
  exists w1 v b w2, s = w1 ++ v ++ version_text x y z pre ++ b ++ w2 /\ blank w1 /\ blank w2 /\ (v = "" \/ v = "v") /\
    (b = "" \/ exists l, l <> [] /\ Forall word l /\ b = "+" ++ dotted l).
Definition names_a_version (s : string) : Prop := exists x y z pre, names_version s x y z pre.

(** The version that is asked for: the first argument if it is a version, else
    the target option if given, else the version that is running. *)
Definition asked (argv : list string) (target running s : string) : Prop :=
  (exists rest, argv = s :: rest /\ names_a_version s) \/
  ((forall a rest, argv = a :: rest -> ~ names_a_version a) /\ ((target <> "" /\ s = target) \/ (target = "" /\ s = running))).

(** ** Where the files come from *)

(** The site: the first of the options that is set, without slashes at the
    end. *)
Definition given_site (dist_url disturl mirror u : string) : Prop :=
  (dist_url <> "" /\ u = dist_url) \/ (dist_url = "" /\ disturl <> "" /\ u = disturl) \/ (dist_url = "" /\ disturl = "" /\ mirror <> "" /\ u = mirror).
Definition slashes (s : string) : Prop := forall a, has_char a s = true -> a = "/"%char.
Definition site_of (dist_url disturl mirror site : string) : Prop :=
  (dist_url = "" /\ disturl = "" /\ mirror = "" /\ site = "https://nodejs.org/dist") \/
  (exists u, given_site dist_url disturl mirror u /\ exists sl, slashes sl /\ u = site ++ sl /\ forall t, site <> t ++ "/").
(** An address with a scheme. *)
Definition web_address (site : string) : Prop := exists scheme rest, site = scheme ++ "://" ++ rest /\ has_char ":" scheme = false.
Definition contains (x s : string) : Prop := exists a b, s = a ++ x ++ b.

(** Headers are published alone for the versions from 3.0.0 on, and the last
    ones of 0.10 and 0.12. *)
Definition headers_alone (x y z : N) (pre : list string) : Prop := pre = [] /\ (3 <= x \/ (x = 0 /\ y = 12 /\ 10 <= z) \/ (x = 0 /\ y = 10 /\ 42 <= z))%N.
(** Where the import library of an architecture is, below the base. *)
Definition lib_of (x : N) (name arch : string) : string :=
  if (1 <=? x)%N then "win-" ++ arch ++ "/" ++ name ++ ".lib" else if String.eqb arch "x86" then name ++ ".lib" else arch ++ "/" ++ name ++ ".lib".

(** The version is the running one, which says where its headers are, and no
    site is given. *)
Definition nothing_given (o : Model_Release.options) : Prop := Model_Release.dist_url o = "" /\ Model_Release.disturl o = "" /\ Model_Release.mirror o = "".
Definition own (o : Model_Release.options) (running : string) (dr : option Model_Release.node_release) (x y z : N) (pre : list string) (rel : Model_Release.node_release) : Prop :=
  dr = Some rel /\ Model_Release.headers_url rel <> "" /\ names_version running x y z pre /\ nothing_given o.
(** A name that cannot be taken for a part of a version. *)
Definition plain_name (n : string) : Prop := has_char "-" n = false /\ forall a t, n = String a t -> ~ digit a.

(** ** Files *)

(** The file [q] is the path [p] or below it. *)
Definition under (p q : list string) : Prop := exists r, q = (p ++ r)%list.

(** A version that can be installed: 0.8.0 or later, and not a pre version. *)
Definition installable (x y z : N) (pre : list string) : Prop :=
  ((0 < x)%N \/ (8 < y)%N \/ (y = 8%N /\ ((0 < z)%N \/ pre = []))) /\ forall rest, pre <> "pre" :: rest.
