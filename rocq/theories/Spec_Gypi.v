(** What it means that a configuration is handed on. *)
From Coq Require Import ZArith.
From Verif Require Import Lib Str Spec_Text Model_Json Model_Gypi Spec_Cli.
Local Open Scope string_scope.

(** [v'] is [v] with every true and false as a string. *)
Inductive stands_for : json -> json -> Prop :=
| sf_null : stands_for JNull JNull
| sf_true : stands_for (JBool true) (JStr "true")
| sf_false : stands_for (JBool false) (JStr "false")
| sf_num z : stands_for (JNum z) (JNum z)
| sf_str s : stands_for (JStr s) (JStr s)
| sf_arr l l' : Forall2 stands_for l l' -> stands_for (JArr l) (JArr l')
| sf_obj d d' : Forall2 (fun e e' => fst e = fst e' /\ stands_for (snd e) (snd e')) d d' -> stands_for (JObj d) (JObj d').

(** No key twice in an object. *)
Inductive unique : json -> Prop :=
| un_null : unique JNull
| un_bool b : unique (JBool b)
| un_num z : unique (JNum z)
| un_str s : unique (JStr s)
| un_arr l : Forall unique l -> unique (JArr l)
| un_obj d : NoDup (map fst d) -> Forall (fun e => unique (snd e)) d -> unique (JObj d).

(** [x] is [v] or somewhere in it. *)
Inductive within (x : json) : json -> Prop :=
| in_here : within x x
| in_arr y l : In y l -> within x y -> within x (JArr l)
| in_obj k y d : In (k, y) d -> within x y -> within x (JObj d).

(** ** Python texts in the plain style *)

Definition newline : string := String "010" "".
Definition blanks (w : string) : Prop := forall a, has_char a w = true -> a = " "%char \/ a = "010"%char.
(** White space and comments. *)
Inductive gap : string -> Prop :=
| gap_nil : gap ""
| gap_space a g : In a [" "; "010"]%char -> gap g -> gap (String a g)
| gap_comment c g : has_char "010" c = false -> has_char "013" c = false -> gap g -> gap ("#" ++ c ++ newline ++ g).
(** Characters that stand for themselves between apostrophes. *)
Definition plain (p : string) : Prop := forall a, has_char a p = true -> (32 <= N_of_ascii a)%N /\ ~ In a ["'"; """"; "\"; "#"]%char.
(** A string, possibly in parts on lines of their own. *)
Inductive writes_string : string -> string -> Prop :=
| ws_one p : plain p -> writes_string p ("'" ++ p ++ "'")
| ws_more p w s t : plain p -> blanks w -> writes_string s t -> writes_string (p ++ s) ("'" ++ p ++ "'" ++ newline ++ w ++ t).
(** Dicts, lists, strings and integers, with gaps anywhere between. *)
Inductive writes : json -> string -> Prop :=
| wr_num z : writes (JNum z) (rendering z)
| wr_str s t : writes_string s t -> writes (JStr s) t
| wr_arr l t : writes_items l t -> writes (JArr l) ("[" ++ t ++ "]")
| wr_obj d t : writes_entries d t -> writes (JObj d) ("{" ++ t ++ "}")
with writes_items : list json -> string -> Prop :=
| wi_none g : gap g -> writes_items [] g
| wi_last v t g g' : gap g -> gap g' -> writes v t -> writes_items [v] (g ++ t ++ g')
| wi_more v t g g' w l u : gap g -> gap g' -> writes v t -> writes_items (w :: l) u -> writes_items (v :: w :: l) (g ++ t ++ g' ++ "," ++ u)
with writes_entries : list (string * json) -> string -> Prop :=
| we_none g : gap g -> writes_entries [] g
| we_last k v kt t g g1 g2 g' : gap g -> gap g1 -> gap g2 -> gap g' -> writes_string k kt -> writes v t -> writes_entries [(k, v)] (g ++ kt ++ g1 ++ ":" ++ g2 ++ t ++ g')
| we_more k v kt t g g1 g2 g' e d u : gap g -> gap g1 -> gap g2 -> gap g' -> writes_string k kt -> writes v t -> writes_entries (e :: d) u ->
    writes_entries ((k, v) :: e :: d) (g ++ kt ++ g1 ++ ":" ++ g2 ++ t ++ g' ++ "," ++ u).
Definition writes_file (v : json) (text : string) : Prop := exists g t g', gap g /\ gap g' /\ writes v t /\ text = g ++ t ++ g'.

(** ** Options *)

(** The options node-gyp has of its own. *)
Definition own_options : list string :=
  ["help"; "arch"; "cafile"; "debug"; "directory"; "make"; "msvs-version"; "ensure"; "solution"; "proxy"; "noproxy"; "devdir"; "nodedir"; "loglevel";
   "python"; "dist-url"; "tarball"; "jobs"; "thin"; "force-process-config"].
(** The same with every [a] turned into [b]. *)
Inductive turned (a b : ascii) : string -> string -> Prop :=
| tu_nil : turned a b "" ""
| tu_this s t : turned a b s t -> turned a b (String a s) (String b t)
| tu_other c s t : c <> a -> turned a b s t -> turned a b (String c s) (String c t).
(** The environment variable [n] sets the option [o]. *)
Definition env_sets (n o : string) : Prop := exists x, n = "npm_config_" ++ x /\ x <> "" /\ x <> "loglevel" /\ turned "_" "-" x o.
(** The last entry of [l] that satisfies P. *)
Definition last_with {A : Type} (P : A -> Prop) (l : list A) (x : A) : Prop := exists l1 l2, l = (l1 ++ x :: l2)%list /\ P x /\ Forall (fun y => ~ P y) l2.

(** An option that is not node-gyp's own and whose name is not one that every
    object has. *)
Definition user_option (o : string) : Prop := o <> "argv" /\ ~ In o own_options /\ ~ In o everywhere.
(** The option is given, and not as something that counts as false. *)
Definition given (o : string) (opts : list (string * json)) : Prop := exists v, In (o, v) opts /\ ~ In v [JNull; JBool false; JNum 0; JStr ""].
(** Following the keys from [v] leads to [x]. *)
Inductive holds : json -> list string -> json -> Prop :=
| ho_here v : holds v [] v
| ho_entry d k y path x : In (k, y) d -> holds y path x -> holds (JObj d) (k :: path) x.
(** The configuration that node-gyp starts from. *)
Inductive source (sur : surroundings) (opts : list (string * json)) (node_dir : string) : json -> Prop :=
| so_headers text v : given "nodedir" opts \/ given "disturl" opts \/ given "dist-url" opts -> ~ given "force-process-config" opts -> node_dir <> "" ->
    header_config sur = Some text -> unique v -> writes_file v text -> source sur opts node_dir v
| so_nowhere : node_dir = "" -> source sur opts node_dir (process_config sur)
| so_none : header_config sur = None -> source sur opts node_dir (process_config sur)
| so_unreadable text : header_config sur = Some text -> parse_config_gypi text = None -> source sur opts node_dir (process_config sur)
| so_running : ~ given "nodedir" opts -> ~ given "disturl" opts -> ~ given "dist-url" opts -> source sur opts node_dir (process_config sur)
| so_forced : given "force-process-config" opts -> source sur opts node_dir (process_config sur).

(** The variables that node-gyp itself sets. *)
Section Set_by_node_gyp.
  Variables (sur : surroundings) (opts : list (string * json)) (node_dir python : string) (vs : vs_info) (base : json).
  Inductive target : json -> Prop :=
  | ta_option v : In ("arch", v) opts -> given "arch" opts -> target v
  | ta_running : ~ given "arch" opts -> process_arch sur <> "" -> target (JStr (process_arch sur))
  | ta_unknown : ~ given "arch" opts -> process_arch sur = "" -> target (JStr "ia32").
  Inductive set_variable : string -> json -> Prop :=
  | sv_arch v : target v -> set_variable "target_arch" v
  | sv_nodedir : set_variable "nodedir" (JStr node_dir)
  | sv_python : set_variable "python" (JStr python)
  | sv_thin : given "thin" opts -> set_variable "standalone_static_library" (JNum 0)
  | sv_thick : ~ given "thin" opts -> set_variable "standalone_static_library" (JNum 1)
  | sv_msbuild : is_win sur = true -> set_variable "msbuild_path" (JStr (ms_build vs))
  | sv_clang : is_win sur = true -> holds base ["variables"; "clang"] (JNum 1) -> set_variable "clang" (JNum 0).
  (** and the defaults for targets *)
  Inductive set_default : string -> json -> Prop :=
  | sd_none k : In k ["cflags"; "defines"; "include_dirs"; "libraries"] -> set_default k (JArr [])
  | sd_debug : given "debug" opts -> set_default "default_configuration" (JStr "Debug")
  | sd_release v : In ("debug", v) opts -> ~ given "debug" opts -> set_default "default_configuration" (JStr "Release")
  | sd_default : (forall v, ~ In ("debug", v) opts) -> (forall v, holds base ["target_defaults"; "default_configuration"] v -> In v [JNull; JBool false; JNum 0; JStr ""]) ->
      set_default "default_configuration" (JStr "Release")
  | sd_msvs : target (JStr "arm64") -> set_default "msvs_configuration_platform" (JStr "ARM64")
  | sd_xcode : target (JStr "arm64") -> set_default "xcode_configuration_platform" (JStr "arm64")
  | sd_toolset : is_win sur = true -> set_default "msbuild_toolset" (JStr (toolset vs))
  | sd_sdk s : is_win sur = true -> sdk vs = Some s -> s <> "" -> set_default "msvs_windows_target_platform_version" (JStr s)
  | sd_marmasm : is_win sur = true -> target (JStr "arm64") -> (15 <= version_major vs)%Z -> set_default "msvs_enable_marmasm" (JNum 1).
End Set_by_node_gyp.
