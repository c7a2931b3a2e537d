(** Model of the environment in which ninja builds run their tools on Windows:
    gyp/pylib/gyp/msvs_emulation.py:172-197 (ExtractSharedMSVSSystemIncludes, but for the
    expansion of macros), 1104-1153 (_ExtractImportantEnvironment,
    _FormatAsEnvironmentBlock), 1190-1212 (GenerateEnvironmentFiles: the files), and
    gyp/pylib/gyp/win_tool.py:39-66 (_UseSeparateMspdbsrv), 80-88 (_GetEnv), 370-379
    (ExecActionWrapper: the environment).  What the command "set" prints is given for each
    architecture, as is the directory of the running python.  Letters are ASCII: str.lower and
    str.upper leave others alone here, and lines end at ASCII line breaks only. *)
From Coq Require Import NArith DecimalString.
From Verif Require Import Lib Str Model_Path.
Local Open Scope string_scope.

Definition env := list (string * string).
(** env[key] = value *)
Fixpoint update (key value : string) (e : env) : env :=
  match e with [] => [(key, value)] | (k, v) :: e' => if String.eqb k key then (key, value) :: e' else (k, v) :: update key value e' end.

(** str.splitlines *)
Definition breaks (c : ascii) : bool := let n := N_of_ascii c in (N.leb 10 n && N.leb n 13) || (N.leb 28 n && N.leb n 30).
Fixpoint splitlines (s : string) : list string :=
  match s with
  | "" => []
  | String a s' =>
    if breaks a then "" :: match s' with
                           | String b s'' => if Ascii.eqb a "013" && Ascii.eqb b "010" then splitlines s'' else splitlines s'
                           | "" => []
                           end
    else match splitlines s' with x :: xs => String a x :: xs | [] => [String a ""] end
  end.
(** str.lower, str.upper *)
Definition lower (c : ascii) : ascii := let n := N_of_ascii c in if N.leb 65 n && N.leb n 90 then ascii_of_N (n + 32) else c.
Definition upper (c : ascii) : ascii := let n := N_of_ascii c in if N.leb 97 n && N.leb n 122 then ascii_of_N (n - 32) else c.
Fixpoint each_char (f : ascii -> ascii) (s : string) : string := match s with "" => "" | String a s' => String (f a) (each_char f s') end.
(** line.split("=", 1); None without "=" *)
Fixpoint split_equals (s : string) : option (string * string) :=
  match s with
  | "" => None
  | String a s' => if Ascii.eqb a "=" then Some ("", s') else match split_equals s' with Some (k, v) => Some (String a k, v) | None => None end
  end.

(** 1107-1117 *)
Definition envvars_to_save : list string := ["goma_.*"; "include"; "lib"; "libpath"; "path"; "pathext"; "systemroot"; "temp"; "tmp"].
(** re.match(envvar + "=", line): only the first one has special characters *)
Definition matches (envvar line : string) : bool :=
  if String.eqb envvar "goma_.*" then String.prefix "goma_" line && has_char "=" (String.substring 5 (String.length line) line)
  else String.prefix (envvar ++ "=") line.
(** 1124-1134 *)
Definition save_line (python line : string) (e : env) : env :=
  match find (fun envvar => matches envvar (each_char lower line)) envvars_to_save, split_equals line with
  | Some envvar, Some (var, setting) => update (each_char upper var) (if String.eqb envvar "path" then python ++ ";" ++ setting else setting) e
  | _, _ => e
  end.
Inductive problem := InvalidOutput | Required (name : string).
(** 1118-1141 *)
Definition extract (python output : string) : env + problem :=
  if negb (has_char "=" output) then inr InvalidOutput
  else let e := fold_left (fun e line => save_line python line e) (splitlines output) [] in
       match find (fun r => negb (mem r (map fst e))) ["SYSTEMROOT"; "TEMP"; "TMP"] with Some r => inr (Required r) | None => inl e end.
(** 1144-1153 *)
Definition nul : ascii := "000"%char.
Definition block (e : env) : string := String.concat "" (map (fun '(k, v) => k ++ "=" ++ v ++ String nul "") e) ++ String nul "".

(** OrderedSet: adding, "|" and "&"; the latter goes by the order of the second set *)
Definition union (a b : list string) : list string := fold_left (fun s x => if mem x s then s else (s ++ [x])%list) (a ++ b)%list [].
Definition intersection (a b : list string) : list string := union [] (filter (fun x => mem x a) b).
(** 175-178; None is the IndexError without configurations *)
Definition shared (configs : list (list string)) : option (list string) :=
  match configs with [] => None | c :: cs => Some (fold_left (fun all c' => intersection all (union [] c')) cs (union [] c)) end.
(** 191-196: what is left to a configuration *)
Definition remaining (all : list string) (c : list string) : list string := filter (fun i => negb (mem i all)) c.
(** 1190-1212: the files for the architectures, in order *)
Fixpoint generate (python : string) (system : list string) (archs : list (string * string)) : list (string * string) + problem :=
  match archs with
  | [] => inl []
  | (arch, output) :: archs' =>
    match extract python output with
    | inr e => inr e
    | inl e =>
      let system' := match system with [] => [] | _ => union system (split_char ";" (match assoc "INCLUDE" e with Some i => i | None => "" end)) end in
      let e' := match system with [] => e | _ => update "INCLUDE" (String.concat ";" system') e end in
      match generate python system' archs' with inr e => inr e | inl files => inl (("environment." ++ arch, block e') :: files) end
    end
  end.

(** ** win_tool.py *)
(** 84-88; None is the ValueError of dict() for an item without "=" *)
Fixpoint pairs (items : list string) : option env :=
  match items with
  | [] => Some []
  | i :: items' => match split_equals i, pairs items' with Some p, Some l => Some (p :: l) | _, _ => None end
  end.
Definition get_env (file : string) : option env :=
  match pairs (split_char nul (String.substring 0 (String.length file - 2) file)) with
  | Some l => Some (fold_left (fun e '(k, v) => update k v e) l [])
  | None => None
  end.
(** 374-376 *)
Definition action_env (saved environ : env) : env := fold_left (fun e '(k, v) => if mem k (map fst e) then e else update k v e) environ saved.
(** 25: "/OUT:" in any case and something; arguments have no line breaks *)
Definition out_arg (arg : string) : option string :=
  if String.prefix "/out:" (each_char lower arg) then match String.substring 5 (String.length arg) arg with "" => None | out => Some out end else None.
Fixpoint first_out (args : list string) : option string := match args with [] => None | a :: args' => match out_arg a with Some o => Some o | None => first_out args' end end.
Fixpoint only (word : ascii -> bool) (s : string) : string := match s with "" => "" | String a s' => if word a then String a (only word s') else only word s' end.
(** 39-66; [word] are the characters that \w stands for *)
Definition separate (word : ascii -> bool) (pid : N) (args : list string) (e : env) : env :=
  match args with
  | [] => e
  | a :: _ => if negb (String.eqb a "link.exe") then e
              else match first_out args with
                   | Some out => update "_MSPDBSRV_ENDPOINT_" (only word (out ++ "_" ++ NilZero.string_of_uint (N.to_uint pid))) e
                   | None => e
                   end
  end.
