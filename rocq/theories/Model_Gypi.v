(** Model of lib/create-config-gypi.js, of the reading of build/config.gypi at
    lib/build.js:36-70, and of the options taken from the environment at
    lib/node-gyp.js:125-147. *)
From Coq Require Import ZArith.
From Verif Require Import Lib Str Js Model_Value Model_Json.
From Verif Require Model_Cli.
Local Open Scope string_scope.

(** ** create-config-gypi.js:7-16 (parseConfigGypi) *)

Definition line_end (a : ascii) : bool := Ascii.eqb a lf || Ascii.eqb a "013".
(** replace(/#.*/g, '') *)
Fixpoint strip_comments (in_comment : bool) (s : string) : string :=
  match s with
  | EmptyString => ""
  | String a s' =>
    if in_comment then if line_end a then String a (strip_comments false s') else strip_comments true s'
    else if Ascii.eqb a "#" then strip_comments true s' else String a (strip_comments false s')
  end.
(** What follows white space and an apostrophe. *)
Fixpoint after_gap (s : string) : option string :=
  match s with
  | EmptyString => None
  | String a s' => if js_space a then after_gap s' else if Ascii.eqb a "'" then Some s' else None
  end.
(** /'$\s+'/m at the start of a string: what follows the match *)
Definition joint (s : string) : option string :=
  match s with
  | String "'" (String b s') => if line_end b then after_gap s' else None
  | _ => None
  end.
(** replace(/'$\s+'/mg, ''); what a match removes is at least three characters,
    so the length is fuel enough *)
Fixpoint join_strings (fuel : nat) (s : string) : string :=
  match fuel with
  | O => s
  | S fuel' =>
    match joint s with
    | Some t => join_strings fuel' t
    | None => match s with EmptyString => "" | String a s' => String a (join_strings fuel' s') end
    end
  end.
(** The third replacement: apostrophes by quotes *)
Fixpoint requote (s : string) : string := match s with EmptyString => "" | String a s' => String (if Ascii.eqb a "'" then quote else a) (requote s') end.
Definition parse_config_gypi (config : string) : option json :=
  let s := strip_comments false config in json_parse (requote (join_strings (String.length s) s)).

(** ** create-config-gypi.js:18-114 (getBaseConfigGypi, getCurrentConfigGypi) *)

Definition obj := list (string * json).
(** Truth of a value; None is undefined *)
Definition truthy (v : option json) : bool :=
  match v with
  | None | Some JNull | Some (JBool false) | Some (JNum 0%Z) => false
  | Some (JStr s) => negb (String.eqb s "")
  | _ => true
  end.
Record vs_info := { toolset : string; sdk : option string; version_major : Z; version_minor : Z; ms_build : string }.
(** The surroundings: process.config, process.platform === 'win32',
    process.arch, and what is in $nodeDir/include/node/config.gypi. *)
Record surroundings := { process_config : json; is_win : bool; process_arch : string; header_config : option string }.

(** 18-36 *)
Definition base_config (sur : surroundings) (opts : obj) (node_dir : string) : json :=
  let use_custom := truthy (assoc "nodedir" opts) || truthy (assoc "disturl" opts) || truthy (assoc "dist-url" opts) in
  if use_custom && negb (truthy (assoc "force-process-config" opts)) && negb (String.eqb node_dir "") then
    match header_config sur with
    | Some text => match parse_config_gypi text with Some v => v | None => process_config sur end
    | None => process_config sur
    end
  else process_config sur.

(** An entry of an object that is itself an object; an absent or falsy one is
    replaced by {} (40-45).  Simplification: where the entry is a string, a
    number or true, setting properties on it throws, and on a list they get
    lost; here all of these count as {}, and so does a configuration that is no
    object.  Two more: an option named like an integer comes first in
    Object.keys, whatever the order it was set in, and one called --proto-- is
    not set; here neither is special. *)
Definition sub (k : string) (o : obj) : obj := match assoc k o with Some (JObj d) => d | _ => [] end.
(** opt.replace(/-/g, '_'), and name.replace(/_/g, '-') *)
Fixpoint subst_char (a b : ascii) (s : string) : string := match s with EmptyString => "" | String c s' => String (if Ascii.eqb c a then b else c) (subst_char a b s') end.
(** node-gyp.js:32-53 *)
Definition config_defs : list string :=
  ["help"; "arch"; "cafile"; "debug"; "directory"; "make"; "msvs-version"; "ensure"; "solution"; "proxy"; "noproxy"; "devdir"; "nodedir"; "loglevel";
   "python"; "dist-url"; "tarball"; "jobs"; "thin"; "force-process-config"].
(** 102-112 *)
Definition add_option (variables : obj) (o : string * json) : obj :=
  if String.eqb (fst o) "argv" then variables
  else if Model_Cli.js_in config_defs (Model_Cli.Word (fst o)) then variables
  else set_key (subst_char "-" "_" (fst o)) (snd o) variables.
(** The value of an option that is falsy, or of another type than string, does
    not occur for arch. *)
Definition arch_of (sur : surroundings) (opts : obj) : json :=
  match assoc "arch" opts with
  | Some v => if truthy (Some v) then v else if String.eqb (process_arch sur) "" then JStr "ia32" else JStr (process_arch sur)
  | None => if String.eqb (process_arch sur) "" then JStr "ia32" else JStr (process_arch sur)
  end.
Definition is_str (s : string) (v : json) : bool := match v with JStr t => String.eqb s t | _ => false end.
Definition current_config (sur : surroundings) (opts : obj) (node_dir python : string) (vs : vs_info) : obj :=
  let config := match base_config sur opts node_dir with JObj d => d | _ => [] end in
  let defaults := sub "target_defaults" config in
  let variables := sub "variables" config in
  (* 52-55 *)
  let defaults := set_key "libraries" (JArr []) (set_key "include_dirs" (JArr []) (set_key "defines" (JArr []) (set_key "cflags" (JArr []) defaults))) in
  (* 58-64 *)
  let defaults := match assoc "debug" opts with Some v => set_key "default_configuration" (JStr (if truthy (Some v) then "Debug" else "Release")) defaults | None => defaults end in
  let defaults := if truthy (assoc "default_configuration" defaults) then defaults else set_key "default_configuration" (JStr "Release") defaults in
  (* 67-71 *)
  let arch := arch_of sur opts in
  let variables := set_key "target_arch" arch variables in
  let defaults := if is_str "arm64" arch then set_key "xcode_configuration_platform" (JStr "arm64") (set_key "msvs_configuration_platform" (JStr "ARM64") defaults) else defaults in
  (* 74-80 *)
  let variables := set_key "nodedir" (JStr node_dir) variables in
  let variables := set_key "python" (JStr python) variables in
  let variables := set_key "standalone_static_library" (JNum (if truthy (assoc "thin" opts) then 0 else 1)) variables in
  (* 82-100 *)
  let defaults :=
    if is_win sur then
      let defaults := set_key "msbuild_toolset" (JStr (toolset vs)) defaults in
      let defaults := match sdk vs with Some s => if String.eqb s "" then defaults else set_key "msvs_windows_target_platform_version" (JStr s) defaults | None => defaults end in
      if is_str "arm64" arch then
        if Z.ltb 15 (version_major vs) || (Z.eqb (version_major vs) 15 && Z.leb 9 (version_major vs)) then set_key "msvs_enable_marmasm" (JNum 1) defaults else defaults
      else defaults
    else defaults in
  let variables :=
    if is_win sur then
      let variables := set_key "msbuild_path" (JStr (ms_build vs)) variables in
      match assoc "clang" variables with Some (JNum 1) => set_key "clang" (JNum 0) variables | _ => variables end
    else variables in
  let variables := fold_left add_option opts variables in
  set_key "variables" (JObj variables) (set_key "target_defaults" (JObj defaults) config).

(** ** create-config-gypi.js:116-143 (createConfigGypi) *)

Fixpoint bools_to_string (v : json) : json :=
  match v with
  | JBool b => JStr (if b then "true" else "false")
  | JArr l => JArr (map bools_to_string l)
  | JObj d => JObj (map (fun e => (fst e, bools_to_string (snd e))) d)
  | _ => v
  end.
Definition prefix : string := "# Do not edit. File was generated by node-gyp's ""configure"" step".
(** The text of build/config.gypi *)
Definition config_file (config : json) : string := prefix ++ nl ++ stringify 0 (bools_to_string config) ++ nl.

(** ** build.js:36-70 *)

(** What follows /.+\n/ at the start of a string; [some] if .+ has matched
    something *)
Fixpoint after_line (some : bool) (s : string) : option string :=
  match s with
  | EmptyString => None
  | String a s' => if line_end a then if some && Ascii.eqb a lf then Some s' else None else after_line true s'
  end.
(** replace(/#.+\n/, '') *)
Fixpoint drop_comment (s : string) : string :=
  match s with
  | EmptyString => ""
  | String a s' => match (if Ascii.eqb a "#" then after_line false s' else None) with Some t => t | None => String a (drop_comment s') end
  end.
Definition load_config (data : string) : option json := json_parse (drop_comment data).

(** ** node-gyp.js:125-147: npm_config_* in the environment *)

Fixpoint without_prefix (p s : string) : option string :=
  match p, s with
  | EmptyString, _ => Some s
  | String a p', String b s' => if Ascii.eqb a b then without_prefix p' s' else None
  | _, EmptyString => None
  end.
Definition add_env (opts : obj) (e : string * string) : obj :=
  match without_prefix "npm_config_" (fst e) with
  | None => opts
  | Some name =>
    if String.eqb name "loglevel" then opts
    else if String.eqb name "" then opts
    else set_key (subst_char "_" "-" name) (JStr (snd e)) opts
  end.
Definition options_of (command_line : obj) (env : list (string * string)) : obj := fold_left add_env env command_line.
