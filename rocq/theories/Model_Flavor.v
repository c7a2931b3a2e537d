(** Model of how gyp finds out what it generates for:
    gyp/pylib/gyp/common.py:118-124 (GetEnvironFallback), 426-510
    (GetCrossCompilerPredefines, GetFlavorByPlatform, GetFlavor),
    gyp/pylib/gyp/__init__.py:86-87 (the flavor in a format) and
    gyp/pylib/gyp/generator/make.py:66-109 (CalculateVariables, the variables).
    shlex.split is modelled from Lib/shlex.py of Python (posix=True,
    whitespace_split=True, no comments). *)
From Verif Require Import Lib Str Model_Value Model_Path.
Local Open Scope string_scope.

Definition quote1 : ascii := "'"%char.
Definition quote2 : ascii := "034"%char.
Definition backslash : ascii := "\"%char.
Definition lf : ascii := "010"%char.
Definition cr : ascii := "013"%char.

(** ** shlex.split *)

(** shlex.whitespace *)
Definition white (c : ascii) : bool := Ascii.eqb c " " || Ascii.eqb c "009" || Ascii.eqb c cr || Ascii.eqb c lf.
(** shlex.state: ' ', 'a', a quote, or an escape with escapedstate *)
Inductive state := Blank | Word | Quote (double : bool) | Escape (back : option bool).
(** read_token, over and over: the characters left, the state, whether a quote
    was seen in this token, the token so far.  None is a ValueError ("No closing
    quotation" or "No escaped character"). *)
Fixpoint read_tokens (s : string) (st : state) (quoted : bool) (token : string) : option (list string) :=
  match s with
  | "" =>
    match st with
    | Blank => Some []
    | Word => if quoted || negb (String.eqb token "") then Some [token] else Some []
    | Quote _ | Escape _ => None
    end
  | String c s' =>
    match st with
    | Blank =>
      if white c then read_tokens s' Blank false ""
      else if Ascii.eqb c backslash then read_tokens s' (Escape None) quoted token
      else if Ascii.eqb c quote1 then read_tokens s' (Quote false) quoted token
      else if Ascii.eqb c quote2 then read_tokens s' (Quote true) quoted token
      else read_tokens s' Word quoted (String c "")
    | Word =>
      if white c then
        (if quoted || negb (String.eqb token "") then option_map (cons token) (read_tokens s' Blank false "") else read_tokens s' Blank quoted token)
      else if Ascii.eqb c backslash then read_tokens s' (Escape None) quoted token
      else if Ascii.eqb c quote1 then read_tokens s' (Quote false) quoted token
      else if Ascii.eqb c quote2 then read_tokens s' (Quote true) quoted token
      else read_tokens s' Word quoted (token ++ String c "")
    | Quote double =>
      if Ascii.eqb c (if double then quote2 else quote1) then read_tokens s' Word true token
      else if double && Ascii.eqb c backslash then read_tokens s' (Escape (Some double)) true token
      else read_tokens s' st true (token ++ String c "")
    | Escape None => read_tokens s' Word quoted (token ++ String c "")
    | Escape (Some double) =>
      let token := if negb (Ascii.eqb c backslash) && negb (Ascii.eqb c (if double then quote2 else quote1)) then token ++ String backslash "" else token in
      read_tokens s' (Quote double) quoted (token ++ String c "")
    end
  end.
Definition shlex_split (s : string) : option (list string) := read_tokens s Blank false "".

(** ** common.py:426-476: what the compiler defines *)

Definition environment := list (string * string).
(** os.environ.get(k), when used as a condition: an empty value counts as none *)
Definition get (e : environment) (k : string) : option string := match assoc k e with Some "" => None | r => r end.
Definition or_else (a b : option string) : option string := match a with Some _ => a | None => b end.

(** 431-432: [windows] is os.sep != "/" *)
Fixpoint slashes (s : string) : string := match s with "" => "" | String c s' => String (if Ascii.eqb c backslash then slash else c) (slashes s') end.
Definition replace_sep (windows : bool) (s : string) : string := if windows then slashes s else s.

(** What becomes of the question *)
Inductive command := Nobody | Unreadable | Run (words : list string).
(** 435-438, 439-442: the words of the compiler and its flags *)
Definition compiler_words (windows : bool) (e : environment) (compiler flags : string) : command :=
  match shlex_split (replace_sep windows compiler) with
  | None => Unreadable
  | Some a =>
    match get e flags with
    | None => Run a
    | Some f => match shlex_split (replace_sep windows f) with None => Unreadable | Some b => Run (a ++ b) end
    end
  end%list.
(** 434-458: the command that is run.  [input] is "/dev/null" or, on Windows, an
    empty temporary file.  There the words then go through subprocess's
    list2cmdline and cmd.exe, which is not modelled. *)
Definition compiler_command (windows : bool) (input : string) (e : environment) : command :=
  match match or_else (get e "CC_target") (get e "CC") with
        | Some cc => compiler_words windows e cc "CFLAGS"
        | None => match or_else (get e "CXX_target") (get e "CXX") with
                  | Some cxx => compiler_words windows e cxx "CXXFLAGS"
                  | None => Nobody
                  end
        end with
  | Run ws => Run (ws ++ ["-dM"; "-E"; "-x"; "c"; input])
  | r => r
  end%list.

(** 469: .replace("\r\n", "\n") *)
Fixpoint unix_lines (s : string) : string :=
  match s with
  | "" => ""
  | String c s' =>
    if Ascii.eqb c cr then match s' with String d _ => if Ascii.eqb d lf then unix_lines s' else String c (unix_lines s') | "" => String c "" end
    else String c (unix_lines s')
  end.
(** 471-473: one line *)
Definition read_line (defines : list (string * string)) (line : string) : list (string * string) :=
  if prefix "#define " line then
    match split_char " " line with
    | _ :: key :: value => set_key key (String.concat " " value) defines
    | _ => defines
    end
  else defines.
(** 468-474 *)
Definition read_defines (stdout : string) : list (string * string) := fold_left read_line (split_char lf (unix_lines stdout)) [].

(** ** common.py:476-510 *)

(** GetFlavorByPlatform *)
Definition flavor_by_platform (platform : string) : string :=
  match assoc platform [("cygwin", "win"); ("win32", "win"); ("darwin", "mac")] with
  | Some f => f
  | None =>
    if prefix "sunos" platform then "solaris"
    else if prefix "dragonfly" platform || prefix "freebsd" platform then "freebsd"
    else if prefix "openbsd" platform then "openbsd"
    else if prefix "netbsd" platform then "netbsd"
    else if prefix "aix" platform then "aix"
    else if prefix "os390" platform || prefix "zos" platform then "zos"
    else if String.eqb platform "os400" then "os400"
    else "linux"
  end.
(** GetFlavor: [given] is params["flavor"], [run] is what a command prints, or
    None if it fails (check=True raises CalledProcessError) or is not found.
    None is an exception.  Simplification: the output is UTF-8. *)
Definition get_flavor (given : option string) (windows : bool) (input platform : string) (run : list string -> option string) (e : environment) : option string :=
  match given with
  | Some f => Some f
  | None =>
    match match compiler_command windows input e with
          | Nobody => Some []
          | Unreadable => None
          | Run ws => option_map read_defines (run ws)
          end with
    | None => None
    | Some defines =>
      let has k := mem k (map fst defines) in
      Some (if has "__EMSCRIPTEN__" then "emscripten"
            else if has "__wasm__" then (if has "__wasi__" then "wasi" else "wasm")
            else flavor_by_platform platform)
    end
  end.
(** gyp/__init__.py:86-87: the format and the flavor named by a format *)
Fixpoint split_dash (s : string) : option (string * string) :=
  match s with
  | "" => None
  | String c s' => if Ascii.eqb c "-" then Some ("", s') else match split_dash s' with Some (a, b) => Some (String c a, b) | None => None end
  end.
Definition named_format (format : string) : string * option string :=
  match split_dash format with Some (a, b) => (a, Some b) | None => (format, None) end.

(** common.py:118-124: GetEnvironFallback *)
Fixpoint environ_fallback (vars : list string) (default : string) (e : environment) : string :=
  match vars with
  | [] => default
  | v :: vars' => match assoc v e with Some x => x | None => environ_fallback vars' default e end
  end.
(** make.py:2452: the C compiler written to the Makefile *)
Definition make_compiler (e : environment) : string := environ_fallback ["CC_target"; "CC"] "$(CC)" e.

(** ** make.py:66-109: CalculateVariables, only the variables.  [product_dir] is
    generator_default_variables["PRODUCT_DIR"]. *)
Definition setdefault (k v : string) (d : list (string * string)) : list (string * string) := match assoc k d with Some _ => d | None => set_key k v d end.
Definition calculate_variables (product_dir flavor : string) (d : list (string * string)) : list (string * string) :=
  if String.eqb flavor "mac" then
    setdefault "LIB_DIR" product_dir (setdefault "SHARED_LIB_DIR" product_dir (setdefault "SHARED_LIB_SUFFIX" ".dylib" (setdefault "OS" "mac" d)))
  else
    let os := if String.eqb flavor "android" then "linux" else flavor in
    let suffix := if String.eqb flavor "aix" then ".a" else if String.eqb flavor "zos" then ".x" else ".so" in
    setdefault "LIB_DIR" "$(obj).$(TOOLSET)" (setdefault "SHARED_LIB_DIR" "$(builddir)/lib.$(TOOLSET)" (setdefault "SHARED_LIB_SUFFIX" suffix (setdefault "OS" os d))).
