(** What is meant by the words of a command line, by the macros a compiler lists
    and by the platform they belong to.  Independent of Model_Flavor. *)
From Verif Require Import Lib Str.
Local Open Scope string_scope.

(** ** the words of a command line *)
Definition blank (c : ascii) : Prop := In c [" "; "009"; "013"; "010"]%char.
(** Within double quotes a backslash makes another one or a quote ordinary, and
    stands for itself before anything else. *)
Inductive inside : string -> string -> Prop :=
| inside_end : inside "" ""
| inside_char : forall c x y, c <> "\"%char -> c <> "034"%char -> inside x y -> inside (String c x) (String c y)
| inside_quote : forall x y, inside x y -> inside ("\" ++ String "034" x) (String "034" y)
| inside_backslash : forall x y, inside x y -> inside ("\\" ++ x) ("\" ++ y)
| inside_other : forall c x y, c <> "\"%char -> c <> "034"%char -> inside x y -> inside ("\" ++ String c x) ("\" ++ String c y).
(** A part of a word, and what it stands for *)
Inductive part : string -> string -> Prop :=
| part_char : forall c, ~ blank c -> c <> "\"%char -> c <> "'"%char -> c <> "034"%char -> part (String c "") (String c "")
| part_escape : forall c, part ("\" ++ String c "") (String c "")
| part_single : forall x, has_char "'" x = false -> part ("'" ++ x ++ "'") x
| part_double : forall x y, inside x y -> part (String "034" (x ++ String "034" "")) y.
Inductive parts : string -> string -> Prop :=
| parts_end : parts "" ""
| parts_more : forall p v q w, part p v -> parts q w -> parts (p ++ q) (v ++ w).
(** A word has at least one part. *)
Definition word (s v : string) : Prop := exists p x q y, part p x /\ parts q y /\ s = p ++ q /\ v = x ++ y.
Inductive spells : string -> list string -> Prop :=
| spells_end : spells "" []
| spells_blank : forall c s ws, blank c -> spells s ws -> spells (String c s) ws
| spells_last : forall w v, word w v -> spells w [v]
| spells_more : forall w v c s ws, word w v -> blank c -> spells s ws -> spells (w ++ String c s) (v :: ws).

(** ** which compiler is asked *)
Definition says (e : list (string * string)) (k v : string) : Prop := assoc k e = Some v /\ v <> "".
Definition silent (e : list (string * string)) (k : string) : Prop := assoc k e = None \/ assoc k e = Some "".
(** The compiler, and the variable with its flags *)
Inductive chosen (e : list (string * string)) : string -> string -> Prop :=
| chosen_cc_target : forall v, says e "CC_target" v -> chosen e v "CFLAGS"
| chosen_cc : forall v, silent e "CC_target" -> says e "CC" v -> chosen e v "CFLAGS"
| chosen_cxx_target : forall v, silent e "CC_target" -> silent e "CC" -> says e "CXX_target" v -> chosen e v "CXXFLAGS"
| chosen_cxx : forall v, silent e "CC_target" -> silent e "CC" -> silent e "CXX_target" -> says e "CXX" v -> chosen e v "CXXFLAGS".
Definition nobody (e : list (string * string)) : Prop := forall k, In k ["CC_target"; "CC"; "CXX_target"; "CXX"] -> silent e k.
(** The words of the compiler and of its flags, and the request for its macros *)
Definition asked (e : list (string * string)) (input : string) (ws : list string) : Prop :=
  exists compiler flags a b, chosen e compiler flags /\ spells compiler a /\ ((silent e flags /\ b = []) \/ exists f, says e flags f /\ spells f b) /\
  ws = (a ++ b ++ ["-dM"; "-E"; "-x"; "c"; input])%list.

(** ** what it answers *)
(** A line "#define NAME" or "#define NAME VALUE" *)
Definition declares (line name value : string) : Prop :=
  has_char " " name = false /\ ((line = "#define " ++ name /\ value = "") \/ line = "#define " ++ name ++ " " ++ value).
(** The last line for a name counts. *)
Definition defined (lines : list string) (name value : string) : Prop :=
  exists before line after, lines = (before ++ line :: after)%list /\ declares line name value /\ forall l v, In l after -> ~ declares l name v.
Definition printed (eol : string) (lines : list string) : string := String.concat "" (map (fun l => l ++ eol) lines).
Definition one_line (l : string) : Prop := has_char "010" l = false /\ has_char "013" l = false.

(** ** what it is generated for *)
Definition begins (a s : string) : Prop := exists b, s = a ++ b.
Inductive system : string -> string -> Prop :=
| on_windows : forall p, In p ["cygwin"; "win32"] -> system p "win"
| on_mac : system "darwin" "mac"
| on_solaris : forall p, begins "sunos" p -> system p "solaris"
| on_freebsd : forall p, begins "dragonfly" p \/ begins "freebsd" p -> system p "freebsd"
| on_openbsd : forall p, begins "openbsd" p -> system p "openbsd"
| on_netbsd : forall p, begins "netbsd" p -> system p "netbsd"
| on_aix : forall p, begins "aix" p -> system p "aix"
| on_zos : forall p, begins "os390" p \/ begins "zos" p -> system p "zos"
| on_os400 : system "os400" "os400"
| on_linux : forall p, ~ In p ["cygwin"; "win32"; "darwin"; "os400"] ->
    (forall a, In a ["sunos"; "dragonfly"; "freebsd"; "openbsd"; "netbsd"; "aix"; "os390"; "zos"] -> ~ begins a p) -> system p "linux".
(** The macros of the compiler decide, then the platform. *)
Inductive meant (macro : string -> Prop) (platform : string) : string -> Prop :=
| meant_emscripten : macro "__EMSCRIPTEN__" -> meant macro platform "emscripten"
| meant_wasi : ~ macro "__EMSCRIPTEN__" -> macro "__wasm__" -> macro "__wasi__" -> meant macro platform "wasi"
| meant_wasm : ~ macro "__EMSCRIPTEN__" -> macro "__wasm__" -> ~ macro "__wasi__" -> meant macro platform "wasm"
| meant_system : forall f, ~ macro "__EMSCRIPTEN__" -> ~ macro "__wasm__" -> system platform f -> meant macro platform f.
(** On Windows the variables are read with "/" for each backslash. *)
Inductive forward : string -> string -> Prop :=
| forward_end : forward "" ""
| forward_backslash : forall s t, forward s t -> forward ("\" ++ s) ("/" ++ t)
| forward_char : forall c s t, c <> "\"%char -> forward s t -> forward (String c s) (String c t).
Definition forward_values (e e' : list (string * string)) : Prop := Forall2 (fun a b => fst a = fst b /\ forward (snd a) (snd b)) e e'.
