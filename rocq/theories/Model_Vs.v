(** Model of lib/find-visualstudio.js.  Logging and the list of valid versions
    for the error message are left out.  What PowerShell, the registry and the
    file system answer, and the functions of path.win32, are parameters. *)
From Verif Require Import Lib Str Js Model_Value.
From Coq Require Import NArith ZArith.
Local Open Scope string_scope.

(** An installation as reported: path, version, package names. *)
Record reported := { r_path : string; r_version : string; r_packages : list string }.
Inductive sdk := Sdk10 (build : Z) | Sdk81.
(** What is returned.  The toolset and msBuild are strings; sdk is null for the
    old versions. *)
Record found := { f_year : Z; f_version : string; f_path : string; f_msbuild : string; f_toolset : string; f_sdk : option sdk }.

(** ** Numbers in strings *)
Definition digit (a : ascii) : bool := let n := nat_of_ascii a in (48 <=? n)%nat && (n <=? 57)%nat.
(** The longest run of digits at the front, and the rest. *)
Fixpoint span_digits (s : string) : string * string :=
  match s with
  | EmptyString => ("", "")
  | String a s' => if digit a then let '(d, r) := span_digits s' in (String a d, r) else ("", s)
  end.
Fixpoint decimal (acc : Z) (s : string) : Z :=
  match s with EmptyString => acc | String a s' => decimal (10 * acc + Z.of_nat (nat_of_ascii a - 48))%Z s' end.
(** parseInt(s, 10): None is NaN.  Numbers are exact here, not doubles. *)
Definition parse_int (s : string) : option Z :=
  let t := trim_start s in
  let '(neg, u) := match t with
                   | String a t' => if Ascii.eqb a "-" then (true, t') else if Ascii.eqb a "+" then (false, t') else (false, t)
                   | EmptyString => (false, t)
                   end in
  match fst (span_digits u) with
  | EmptyString => None
  | d => Some (if neg then - decimal 0 d else decimal 0 d)%Z
  end.
(** s.split('.') *)
Fixpoint split_dots (s : string) : list string :=
  match s with
  | EmptyString => [""]
  | String a s' =>
    if Ascii.eqb a "." then "" :: split_dots s'
    else match split_dots s' with [] => [String a ""] | p :: ps => String a p :: ps end
  end.

(** path.resolve(p), path.resolve(p, '..'), path.join(p, rest), whether
    path.relative(a, b) is empty, existsSync, and whether process.arch is arm64. *)
Record platform := { resolve : string -> string; parent : string -> string; join : string -> string -> string; same_path : string -> string -> bool;
  exists_file : string -> bool; arm64 : bool }.

Section Finder.
Variable pl : platform.

(** find-visualstudio.js:368-394: the year, from a version that
    begins with digits, a dot and a digit *)
Definition version_year (v : string) : option Z :=
  match span_digits v with
  | (String a d, String dot rest) =>
    if Ascii.eqb dot "." then
      match fst (span_digits rest) with
      | EmptyString => None
      | _ =>
        let m := decimal 0 (String a d) in
        if (m =? 15)%Z then Some 2017%Z else if (m =? 16)%Z then Some 2019%Z else if (m =? 17)%Z then Some 2022%Z else None
      end
    else None
  | _ => None
  end.

(** versionYear === y *)
Definition is_year_opt (year : option Z) (y : Z) : bool := match year with Some x => (x =? y)%Z | None => false end.

(** find-visualstudio.js:401-429 *)
Definition get_msbuild (info : reported) (p : string) (year : option Z) : option string :=
  let msbuild := join pl p "MSBuild\Current\Bin\MSBuild.exe" in
  let msbuild_arm := join pl p "MSBuild\Current\Bin\arm64\MSBuild.exe" in
  let fallback := if arm64 pl && exists_file pl msbuild_arm then Some msbuild_arm else if exists_file pl msbuild then Some msbuild else None in
  if mem "Microsoft.VisualStudio.VC.MSBuild.Base" (r_packages info) then
    if is_year_opt year 2017%Z then Some (join pl p "MSBuild\15.0\Bin\MSBuild.exe")
    else if is_year_opt year 2019%Z then if arm64 pl && exists_file pl msbuild_arm then Some msbuild_arm else Some msbuild
    else fallback
  else fallback.

(** find-visualstudio.js:432-462 *)
Definition get_toolset (info : reported) (year : option Z) : option string :=
  let has p := mem p (r_packages info) in
  if (arm64 pl && has "Microsoft.VisualStudio.Component.VC.Tools.ARM64") || has "Microsoft.VisualStudio.Component.VC.Tools.x86.x64" || has "Microsoft.VisualStudio.WDExpress" then
    if is_year_opt year 2017%Z then Some "v141" else if is_year_opt year 2019%Z then Some "v142" else if is_year_opt year 2022%Z then Some "v143" else None
  else None.

(** find-visualstudio.js:471-488: the number of one package *)
Definition sdk_number (pkg : string) : option Z :=
  if String.prefix "Microsoft.VisualStudio.Component.Windows10SDK." pkg || String.prefix "Microsoft.VisualStudio.Component.Windows11SDK." pkg then
    match split_dots pkg with
    | _ :: _ :: _ :: _ :: part4 :: more =>
      match more with
      | part5 :: _ => if String.eqb part5 "Desktop" then parse_int part4 else None
      | [] => parse_int part4
      end
    | _ => None
    end
  else None.
(** find-visualstudio.js:465-497 *)
Definition get_sdk (info : reported) : option sdk :=
  let best := fold_left (fun m pkg => match sdk_number pkg with Some n => Z.max m n | None => m end) (r_packages info) 0%Z in
  if negb (best =? 0)%Z then Some (Sdk10 best)
  else if mem "Microsoft.VisualStudio.Component.Windows81SDK" (r_packages info) then Some Sdk81 else None.

(** The settings: this.configVersionYear, this.configPath, this.envVcInstallDir. *)
Record wishes := { w_year : option Z; w_path : option string; w_prompt : option string }.
(** find-visualstudio.js:573-593.  The year 0 counts as none. *)
Definition check_config (w : wishes) (year : Z) (p : string) : bool :=
  match w_year w with Some y => (y =? 0)%Z || (y =? year)%Z | None => true end &&
  match w_path w with Some q => same_path pl q p | None => true end &&
  match w_prompt w with Some q => same_path pl q p | None => true end.

(** find-visualstudio.js:304-313: one element of vsInfo.map *)
Record entry := { e_year : option Z; e_version : string; e_path : string; e_msbuild : option string; e_toolset : option string; e_sdk : option sdk }.
Definition process_one (info : reported) : entry :=
  let p := resolve pl (r_path info) in
  let year := version_year (r_version info) in
  {| e_year := year; e_version := r_version info; e_path := p; e_msbuild := get_msbuild info p year; e_toolset := get_toolset info year; e_sdk := get_sdk info |}.
Definition year_of (e : entry) : Z := match e_year e with Some y => y | None => 0%Z end.
(** vsInfo.sort((a, b) => b.versionYear - a.versionYear); the sort of
    JavaScript is stable *)
Fixpoint insert_entry (e : entry) (l : list entry) : list entry :=
  match l with
  | [] => [e]
  | x :: l' => if (year_of x <=? year_of e)%Z then e :: l else x :: insert_entry e l'
  end.
Definition sort_entries (l : list entry) : list entry := fold_right insert_entry [] l.
(** find-visualstudio.js:329-360 *)
Fixpoint first_usable (w : wishes) (l : list entry) : option found :=
  match l with
  | [] => None
  | e :: l' =>
    match e_msbuild e, e_toolset e, e_sdk e with
    | Some m, Some t, Some s =>
      if check_config w (year_of e) (e_path e)
      then Some {| f_year := year_of e; f_version := e_version e; f_path := e_path e; f_msbuild := m; f_toolset := t; f_sdk := Some s |}
      else first_usable w l'
    | _, _, _ => first_usable w l'
    end
  end.
(** find-visualstudio.js:303-365 *)
Definition process_data (w : wishes) (infos : list reported) (years : list Z) : option found :=
  let supported e := match e_year e with Some y => existsb (Z.eqb y) years | None => false end in
  first_usable w (sort_entries (filter supported (map process_one infos))).

(** What the outside world answers: the environment variables VSCMD_VER and
    WindowsSDKVersion, the two PowerShell queries (None: no or no usable
    answer), and the registry values for a version ("14.0"). *)
Record answers := { a_cmd_ver : string; a_sdk_ver : string; a_setup : option (list reported); a_script : option (list reported); a_vc : string -> option string; a_msbuild : string -> option string }.

(** find-visualstudio.js:156: the third number, if three numbers
    with a dot after each begin the text *)
Definition sdk_build (v : string) : option string :=
  match span_digits v with
  | (String _ _, String d1 r1) =>
    match span_digits r1 with
    | (String _ _, String d2 r2) =>
      match span_digits r2 with
      | (String a b, String d3 _) => if Ascii.eqb d1 "." && Ascii.eqb d2 "." && Ascii.eqb d3 "." then Some (String a b) else None
      | _ => None
      end
    | _ => None
    end
  | _ => None
  end.
(** find-visualstudio.js:134-162 *)
Definition from_prompt (a : answers) (w : wishes) (years : list Z) : option found :=
  match w_prompt w with
  | None => None
  | Some dir =>
    process_data w [{| r_path := resolve pl dir; r_version := a_cmd_ver a;
      r_packages := (["Microsoft.VisualStudio.Component.VC.Tools.x86.x64"; "Microsoft.VisualStudio.Component.VC.Tools.ARM64"; "Microsoft.VisualStudio.VC.MSBuild.Base"] ++
        match sdk_build (a_sdk_ver a) with Some b => [("Microsoft.VisualStudio.Component.Windows10SDK." ++ b ++ ".Desktop")%string] | None => [] end)%list |}] years
  end.
(** find-visualstudio.js:177-221 and 241-260 *)
Definition from_list (l : option (list reported)) (w : wishes) (years : list Z) : option found :=
  match l with None => None | Some infos => process_data w infos years end.
(** find-visualstudio.js:532-566 *)
Definition find_old (a : answers) (w : wishes) (version : string) (year : Z) (toolset : string) : option found :=
  match a_vc a version with
  | None => None
  | Some vc =>
    let p := parent pl vc in
    match a_msbuild a version with
    | None => None
    | Some tools =>
      if check_config w year p
      then Some {| f_year := year; f_version := version; f_path := p; f_msbuild := join pl tools "MSBuild.exe"; f_toolset := toolset; f_sdk := None |}
      else None
    end
  end.

Fixpoint first_some (l : list (option found)) : option found :=
  match l with [] => None | Some x :: _ => Some x | None :: l' => first_some l' end.
(** find-visualstudio.js:30-54; empty strings are settings not there *)
Definition four_digits (s : string) : bool :=
  match s with String a (String b (String c (String d EmptyString))) => digit a && digit b && digit c && digit d | _ => false end.
Definition wishes_of (msvs_version vcinstalldir : string) : wishes :=
  {| w_year := if four_digits msvs_version then Some (decimal 0 msvs_version) else None;
     w_path := if four_digits msvs_version || String.eqb msvs_version "" then None else Some (resolve pl msvs_version);
     w_prompt := if String.eqb vcinstalldir "" then None else Some (parent pl vcinstalldir) |}.
(** find-visualstudio.js:56-74 with 121-132, 164-175, 225-237, 500-529; [major]
    is the major version of Node.js; None is the error of fail *)
Definition find_vs (a : answers) (major : nat) (msvs_version vcinstalldir : string) : option found :=
  let w := wishes_of msvs_version vcinstalldir in
  let upto n (x : option found) := if (n <=? major)%nat then None else x in
  first_some
    [from_prompt a w [2019; 2022]%Z; from_list (a_setup a) w [2019; 2022]%Z; from_list (a_script a) w [2019; 2022]%Z;
     upto 22 (from_prompt a w [2017%Z]); upto 22 (from_list (a_setup a) w [2017%Z]); upto 22 (from_list (a_script a) w [2017%Z]);
     upto 19 (find_old a w "14.0" 2015%Z "v140"); upto 9 (find_old a w "12.0" 2013%Z "v120")].
End Finder.
