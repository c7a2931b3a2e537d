(** Model of the command lines of actions in Visual Studio projects,
    gyp/pylib/gyp/generator/msvs.py:364-457 (_BuildCommandLineForRule and
    _BuildCommandLineForRuleRaw).  A setting that is not a number, for which Python's
    int() raises, is left out. *)
From Verif Require Import Lib Str Model_Path Model_Vcxproj.
From Verif Require Model_Writer.
Local Open Scope string_scope.

(** 155-178: _FixPath, with the separator "/" *)
Fixpoint chop_slash (p : string) : string :=
  match p with "" => "" | String a "" => if Ascii.eqb a "/" then "" else p | String a p' => String a (chop_slash p') end.
Definition fix_slash (pre path : string) : string :=
  let path := if negb (String.eqb pre "") && negb (String.eqb path "") && negb (nt_isabs path) && negb (String.prefix "$" path) && negb (on_drive_c path)
    then nt_join pre path else path in
  chop_slash (replace_char backslash "/" (normalized_source path)).

(** MSVSSettings.py:375-378, 409-419: FixVCMacroSlashes, re.sub of a macro with
    separators after it *)
Fixpoint skip_seps (s : string) : string := match s with String a s' => if is_sep a then skip_seps s' else s | "" => "" end.
Definition macro_here (s : string) : option (string * string) :=
  if String.prefix "$(IntDir)" s then Some ("$(IntDir)", substring 9 (String.length s - 9) s)
  else if String.prefix "$(OutDir)" s then Some ("$(OutDir)", substring 9 (String.length s - 9) s) else None.
Fixpoint sub_macros (fuel : nat) (s : string) : string :=
  match fuel, s with
  | S fuel, String a s' =>
    match macro_here s with
    | Some (m, r) => if rooted r then m ++ sub_macros fuel (skip_seps r) else String a (sub_macros fuel s')
    | None => String a (sub_macros fuel s')
    end
  | _, _ => s
  end.
Definition fix_macro_slashes (s : string) : string := if has_char "$" s then sub_macros (String.length s) s else s.

(** A key of an action or rule, and of the target; [cygwin] is msvs_cygwin_shell and
    [quote] is msvs_quote_cmd. *)
Record shell := { cygwin : option bool; quote : option bool }.
(** 444-452 *)
Definition uses_cygwin (target : option bool) (s : shell) : bool :=
  match cygwin s with Some b => b | None => match target with Some b => b | None => true end end.

(** 368-375: what is run first *)
Definition input_dir : string := "$(InputDir)".
Definition nl : string := String "010" "".
Definition preamble (cmd : list string) : string :=
  if existsb (fun x => Model_Writer.contains input_dir x) cmd then
    "set INPUTDIR=$(InputDir)" ++ nl ++ "if NOT DEFINED INPUTDIR set INPUTDIR=.\" ++ nl ++ "set INPUTDIR=%INPUTDIR:~0,-1%" ++ nl
  else "".
(** 420-441: with cmd.exe *)
Definition is_switch (i : string) : bool :=
  match i with "" => true | String a _ => Ascii.eqb a "/" || Ascii.eqb a "-" end || has_char "=" i.
Definition program (first : string) : string := if String.eqb first "cat" then "type" else replace_char "/" backslash first.
Definition argument (pre i : string) : string :=
  fix_macro_slashes (Model_Writer.replace input_dir "%INPUTDIR%" (if is_switch i then i else fix_slash pre i)).
Definition with_cmd (pre : string) (quote_cmd : bool) (first : string) (rest : list string) : string :=
  let q := fun s => if quote_cmd then quoted s else s in
  String.concat " " ("call" :: q (program first) :: map q (map (argument pre) rest)).
(** 377-419: with bash.  In "%%NUMBER_OF_PROCESSORS%%" the percent signs are doubled
    for the formatting of the string. *)
Definition cygpath (name : string) : string := "`cygpath -m ""${" ++ name ++ "}""`".
Definition for_bash (has_input_path : bool) (i : string) : string :=
  let i := Model_Writer.replace "$(IntDir)" (cygpath "INTDIR") i in
  let i := Model_Writer.replace "$(OutDir)" (cygpath "OUTDIR") i in
  let i := Model_Writer.replace input_dir (cygpath "INPUTDIR") i in
  let i := if has_input_path then Model_Writer.replace "$(InputPath)" (cygpath "INPUTPATH") i else i in
  "\""" ++ Model_Writer.replace """" "\\\""" i ++ "\""".
Definition with_bash (pre : string) (dirs : list string) (has_input_path setup_env : bool) (cmd : list string) : string :=
  let dir := fix_path pre (hd "." dirs) in
  let direct := String.concat " " (map (for_bash has_input_path) cmd) in
  (if setup_env then "call ""$(ProjectDir)" ++ dir ++ "\setup_env.bat"" && " else "") ++ "set CYGWIN=nontsec&& " ++
  (if Model_Writer.contains "NUMBER_OF_PROCESSORS" direct then "set /a NUMBER_OF_PROCESSORS_PLUS_1=%NUMBER_OF_PROCESSORS%+1&& " else "") ++
  (if Model_Writer.contains "INTDIR" direct then "set INTDIR=$(IntDir)&& " else "") ++
  (if Model_Writer.contains "OUTDIR" direct then "set OUTDIR=$(OutDir)&& " else "") ++
  (if has_input_path && Model_Writer.contains "INPUTPATH" direct then "set INPUTPATH=$(InputPath) && " else "") ++
  "bash -c """ ++ direct ++ """".
(** 364-441; cmd[0] of an empty list, and that of msvs_cygwin_dirs, raise an
    IndexError. *)
Inductive line_error := Index_error.
Definition command_line (pre : string) (target : option bool) (dirs : option (list string)) (s : shell) (has_input_path setup_env : bool) (cmd : list string) : string + line_error :=
  if uses_cygwin target s then
    match dirs with
    | Some [] => inr Index_error
    | _ => inl (preamble cmd ++ with_bash pre (match dirs with Some d => d | None => ["."] end) has_input_path setup_env cmd)
    end
  else match cmd with
       | [] => inr Index_error
       | first :: rest => inl (preamble cmd ++ with_cmd pre (match quote s with Some b => b | None => true end) first rest)
       end.
