(** Which installation of Visual Studio can be used. *)
From Verif Require Import Lib Str Js Model_Vs.
From Coq Require Import ZArith.
Local Open Scope string_scope.

(** Decimal numbers. *)
Definition digit_value (a : ascii) (n : Z) : Prop := (0 <= n <= 9)%Z /\ Z.of_nat (nat_of_ascii a) = (48 + n)%Z.
Inductive denotes : string -> Z -> Prop :=
| denotes_one : forall a n, digit_value a n -> denotes (String a "") n
| denotes_more : forall s a m n, denotes s m -> digit_value a n -> denotes (s ++ String a "") (10 * m + n)%Z.
Definition starts_with_digit (s : string) : Prop := exists a s' n, s = String a s' /\ digit_value a n.

(** 15.x is Visual Studio 2017, 16.x is 2019, 17.x is 2022. *)
Definition year_of_major (m : Z) (y : Z) : Prop := (m = 15%Z /\ y = 2017%Z) \/ (m = 16%Z /\ y = 2019%Z) \/ (m = 17%Z /\ y = 2022%Z).
Definition is_year (version : string) (y : Z) : Prop := exists major rest m, version = major ++ "." ++ rest /\ denotes major m /\ starts_with_digit rest /\ year_of_major m y.

(** A package of the Windows 10 or 11 SDK for desktop programs, and its number. *)
Definition whole (s : string) (n : Z) : Prop := exists white sign ds junk, s = white ++ sign ++ ds ++ junk /\
  (forall a, has_char a white = true -> js_space a = true) /\ (sign = "" \/ sign = "+") /\ denotes ds n /\ ~ starts_with_digit junk.
Definition desktop_sdk (pkg : string) (n : Z) : Prop := exists w num rest, (w = "10" \/ w = "11") /\
  pkg = "Microsoft.VisualStudio.Component.Windows" ++ w ++ "SDK." ++ num ++ rest /\ has_char "." num = false /\
  (rest = "" \/ rest = ".Desktop" \/ exists more, rest = ".Desktop." ++ more) /\ whole num n /\ (0 < n)%Z.
Definition best_sdk (packages : list string) (s : sdk) : Prop :=
  match s with
  | Sdk10 n => (exists pkg, In pkg packages /\ desktop_sdk pkg n) /\ forall pkg m, In pkg packages -> desktop_sdk pkg m -> (m <= n)%Z
  | Sdk81 => (forall pkg m, In pkg packages -> ~ desktop_sdk pkg m) /\ In "Microsoft.VisualStudio.Component.Windows81SDK" packages
  end.

(** The C++ tools. *)
Definition has_tools (pl : platform) (packages : list string) : Prop :=
  (arm64 pl = true /\ In "Microsoft.VisualStudio.Component.VC.Tools.ARM64" packages) \/ In "Microsoft.VisualStudio.Component.VC.Tools.x86.x64" packages \/ In "Microsoft.VisualStudio.WDExpress" packages.
Definition toolset_of (y : Z) (t : string) : Prop := (y = 2017%Z /\ t = "v141") \/ (y = 2019%Z /\ t = "v142") \/ (y = 2022%Z /\ t = "v143").

(** MSBuild: the one for ARM64 on such machines if it is there (not for 2017
    with its package), else the usual one, which must be there unless the
    package says so. *)
Definition is_msbuild (pl : platform) (packages : list string) (p : string) (y : Z) (m : string) : Prop :=
  let usual := join pl p "MSBuild\Current\Bin\MSBuild.exe" in
  let arm := join pl p "MSBuild\Current\Bin\arm64\MSBuild.exe" in
  let package := In "Microsoft.VisualStudio.VC.MSBuild.Base" packages in
  (y = 2017%Z /\ package /\ m = join pl p "MSBuild\15.0\Bin\MSBuild.exe") \/
  (~ (y = 2017%Z /\ package) /\
   ((arm64 pl = true /\ exists_file pl arm = true /\ m = arm) \/
    (~ (arm64 pl = true /\ exists_file pl arm = true) /\ (exists_file pl usual = true \/ (y = 2019%Z /\ package)) /\ m = usual))).

(** What the user asked for. *)
Definition as_wished (pl : platform) (msvs_version vcinstalldir : string) (y : Z) (p : string) : Prop :=
  (forall n, String.length msvs_version = 4 -> denotes msvs_version n -> n <> 0%Z -> n = y) /\
  (msvs_version <> "" -> ~ (String.length msvs_version = 4 /\ exists n, denotes msvs_version n) -> same_path pl (resolve pl msvs_version) p = true) /\
  (vcinstalldir <> "" -> same_path pl (parent pl vcinstalldir) p = true).

(** An installation that can be used, and what is reported of it. *)
Definition usable (pl : platform) (msvs_version vcinstalldir : string) (info : reported) (r : found) : Prop :=
  is_year (r_version info) (f_year r) /\ f_version r = r_version info /\ f_path r = resolve pl (r_path info) /\
  is_msbuild pl (r_packages info) (f_path r) (f_year r) (f_msbuild r) /\ has_tools pl (r_packages info) /\ toolset_of (f_year r) (f_toolset r) /\
  (exists s, f_sdk r = Some s /\ best_sdk (r_packages info) s) /\ as_wished pl msvs_version vcinstalldir (f_year r) (f_path r).

(** The installation the command prompt belongs to. *)
Definition of_prompt (pl : platform) (a : answers) (vcinstalldir : string) (info : reported) : Prop :=
  vcinstalldir <> "" /\ r_path info = resolve pl (parent pl vcinstalldir) /\ r_version info = a_cmd_ver a /\
  exists sdk, r_packages info = (["Microsoft.VisualStudio.Component.VC.Tools.x86.x64"; "Microsoft.VisualStudio.Component.VC.Tools.ARM64"; "Microsoft.VisualStudio.VC.MSBuild.Base"] ++ sdk)%list /\
    ((exists x y b rest m n k, a_sdk_ver a = x ++ "." ++ y ++ "." ++ b ++ "." ++ rest /\ denotes x m /\ denotes y n /\ denotes b k /\ sdk = ["Microsoft.VisualStudio.Component.Windows10SDK." ++ b ++ ".Desktop"]) \/
     ((forall x y b rest m n k, denotes x m -> denotes y n -> denotes b k -> a_sdk_ver a <> x ++ "." ++ y ++ "." ++ b ++ "." ++ rest) /\ sdk = [])).
(** All installations known of: that of the prompt and those of the two lists. *)
Definition known (pl : platform) (a : answers) (vcinstalldir : string) (info : reported) : Prop :=
  of_prompt pl a vcinstalldir info \/ (exists l, a_setup a = Some l /\ In info l) \/ (exists l, a_script a = Some l /\ In info l).
(** The old versions, known from the registry. *)
Definition usable_old (pl : platform) (a : answers) (msvs_version vcinstalldir : string) (r : found) : Prop :=
  ((f_year r = 2015%Z /\ f_version r = "14.0" /\ f_toolset r = "v140") \/ (f_year r = 2013%Z /\ f_version r = "12.0" /\ f_toolset r = "v120")) /\
  (exists vc tools, a_vc a (f_version r) = Some vc /\ a_msbuild a (f_version r) = Some tools /\ f_path r = parent pl vc /\ f_msbuild r = join pl tools "MSBuild.exe") /\
  f_sdk r = None /\ as_wished pl msvs_version vcinstalldir (f_year r) (f_path r).
(** Which Node.js can be built for with which year. *)
Definition node_allows (major : nat) (y : Z) : Prop :=
  y = 2022%Z \/ y = 2019%Z \/ (y = 2017%Z /\ major < 22) \/ (y = 2015%Z /\ major < 19) \/ (y = 2013%Z /\ major < 9).
