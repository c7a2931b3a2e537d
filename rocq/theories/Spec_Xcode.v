(** What xcode_settings ask for, in terms of what is written in them. *)
From Verif Require Import Lib Str.
From Verif Require Model_Build Model_Path.
From Verif Require Import Model_Writer Model_Xcode Spec_Flags.
Local Open Scope string_scope.

(** ** Settings *)
Definition list_keys : list string :=
  ["ARCHS"; "VALID_ARCHS"; "WARNING_CFLAGS"; "OTHER_CFLAGS"; "OTHER_CPLUSPLUSFLAGS"; "OTHER_LDFLAGS"; "LIBRARY_SEARCH_PATHS"; "LD_RUNPATH_SEARCH_PATHS"].
(** Each key once; the keys for several things have lists and the others have texts. *)
Definition proper (s : settings) : Prop :=
  NoDup (map fst s) /\ forall k v, In (k, v) s -> (In k list_keys /\ exists l, v = Items l) \/ (~ In k list_keys /\ exists x, v = Text x).
Definition lacks (s : settings) (k : string) : Prop := ~ In k (map fst s).
(** The setting has this text; [d] is what it means to leave it out. *)
Definition says (s : settings) (k v d : string) : Prop := In (k, Text v) s \/ (lacks s k /\ v = d).
Definition lists (s : settings) (k : string) (l : list string) : Prop := In (k, Items l) s \/ (lacks s k /\ l = []).

(** ** Switches: the setting, the text that asks for the flag, what leaving it out means *)
Definition switch : Type := string * string * string * string.
Inductive switched (s : settings) : list switch -> list string -> Prop :=
| switched_nil : switched s [] []
| switched_on k v d f r l : says s k v d -> switched s r l -> switched s ((k, v, d, f) :: r) (f :: l)
| switched_off k v d f r l : ~ says s k v d -> switched s r l -> switched s ((k, v, d, f) :: r) l.
Definition first_switches : list switch :=
  [("CLANG_WARN_CONSTANT_CONVERSION", "YES", "NO", "-Wconstant-conversion"); ("GCC_CHAR_IS_UNSIGNED_CHAR", "YES", "NO", "-funsigned-char");
   ("GCC_CW_ASM_SYNTAX", "YES", "YES", "-fasm-blocks"); ("GCC_DYNAMIC_NO_PIC", "YES", "NO", "-mdynamic-no-pic"); ("GCC_ENABLE_PASCAL_STRINGS", "YES", "YES", "-mpascal-strings")].
Definition aliasing_switches : list switch := [("GCC_STRICT_ALIASING", "YES", "", "-fstrict-aliasing"); ("GCC_STRICT_ALIASING", "NO", "", "-fno-strict-aliasing")].
Definition second_switches : list switch :=
  [("GCC_SYMBOLS_PRIVATE_EXTERN", "YES", "NO", "-fvisibility=hidden"); ("GCC_TREAT_WARNINGS_AS_ERRORS", "YES", "NO", "-Werror");
   ("GCC_WARN_ABOUT_MISSING_NEWLINE", "YES", "NO", "-Wnewline-eof"); ("LLVM_LTO", "YES", "NO", "-flto")].
Definition intel_switches : list switch :=
  [("GCC_ENABLE_SSE3_EXTENSIONS", "YES", "NO", "-msse3"); ("GCC_ENABLE_SUPPLEMENTAL_SSE3_INSTRUCTIONS", "YES", "NO", "-mssse3");
   ("GCC_ENABLE_SSE41_EXTENSIONS", "YES", "NO", "-msse4.1"); ("GCC_ENABLE_SSE42_EXTENSIONS", "YES", "NO", "-msse4.2")].
Definition cxx_switches : list switch :=
  [("GCC_ENABLE_CPP_RTTI", "NO", "YES", "-fno-rtti"); ("GCC_ENABLE_CPP_EXCEPTIONS", "NO", "YES", "-fno-exceptions"); ("GCC_INLINES_ARE_PRIVATE_EXTERN", "YES", "NO", "-fvisibility-inlines-hidden");
   ("GCC_THREADSAFE_STATICS", "NO", "YES", "-fno-threadsafe-statics"); ("GCC_WARN_ABOUT_INVALID_OFFSETOF_MACRO", "NO", "YES", "-Wno-invalid-offsetof")].
Definition objc_switches : list switch :=
  [("GCC_ENABLE_OBJC_GC", "supported", "unsupported", "-fobjc-gc"); ("GCC_ENABLE_OBJC_GC", "required", "unsupported", "-fobjc-gc-only");
   ("CLANG_ENABLE_OBJC_ARC", "YES", "NO", "-fobjc-arc"); ("CLANG_WARN_OBJC_MISSING_PROPERTY_SYNTHESIS", "YES", "NO", "-Wobjc-missing-property-synthesis")].
Definition objcc_switches : list switch := [("GCC_OBJC_CALL_CXX_CDTORS", "YES", "NO", "-fobjc-call-cxx-cdtors")].
Definition link_switches : list switch := [("DEAD_CODE_STRIPPING", "YES", "NO", "-Wl,-dead_strip"); ("PREBINDING", "YES", "NO", "-Wl,-prebind")].

(** ** Flags with the text of a setting *)
Inductive worded (s : settings) (k front : string) : list string -> Prop :=
| worded_some v : In (k, Text v) s -> worded s k front [front ++ v]
| worded_none : lacks s k -> worded s k front [].

(** ** The SDK: a path, or what xcrun says about a name *)
Inductive sdk_at (m : machine) (s : settings) : option string -> Prop :=
| sdk_path_given p : In ("SDKROOT", Text ("/" ++ p)) s -> sdk_at m s (Some ("/" ++ p))
| sdk_named n : says s "SDKROOT" n "" -> (forall p, n <> "/" ++ p) -> sdk_at m s (sdk m n).
Inductive sysroot (m : machine) (s : settings) : list string -> Prop :=
| sysroot_given p : ~ lacks s "SDKROOT" -> sdk_at m s (Some p) -> p <> "" -> sysroot m s ["-isysroot"; p]
| sysroot_unset : lacks s "SDKROOT" -> sysroot m s []
| sysroot_unknown : sdk_at m s None \/ sdk_at m s (Some "") -> sysroot m s [].
(** Where $(SDKROOT) in front of a path is; nothing if there is no SDK. *)
Definition root_at (m : machine) (s : settings) (r : string) : Prop := sdk_at m s (Some r) \/ (sdk_at m s None /\ r = "").
Inductive in_sdk (root : string) : string -> string -> Prop :=
| in_sdk_below p : has_char "$" p = false -> in_sdk root ("$(SDKROOT)" ++ p) (root ++ p)
| in_sdk_other p : has_char "$" p = false -> in_sdk root p p.
Definition plain_dirs (c : config) : Prop := forall d, In d (framework_dirs c) -> exists p, has_char "$" p = false /\ (d = p \/ d = "$(SDKROOT)" ++ p).

(** ** Debugging, the least version of the system *)
Inductive debugging (s : settings) : list string -> Prop :=
| debugging_on f : says s "GCC_GENERATE_DEBUGGING_SYMBOLS" "YES" "YES" -> says s "DEBUG_INFORMATION_FORMAT" f "dwarf" -> f = "dwarf" \/ f = "dwarf-with-dsym" -> debugging s ["-gdwarf-2"]
| debugging_off : ~ says s "GCC_GENERATE_DEBUGGING_SYMBOLS" "YES" "YES" -> debugging s [].
Definition last_part (p n : string) : Prop := has_char "/" n = false /\ (p = n \/ exists d, p = d ++ "/" ++ n).
Definition simulator (p : string) : Prop := exists n r, last_part p n /\ Model_Build.to_lower n = "iphonesimulator" ++ r.
Inductive phone (m : machine) (s : settings) : list string -> Prop :=
| phone_none : lacks s "IPHONEOS_DEPLOYMENT_TARGET" -> phone m s []
| phone_simulator v p : In ("IPHONEOS_DEPLOYMENT_TARGET", Text v) s -> sdk_at m s (Some p) -> simulator p -> phone m s ["-mios-simulator-version-min=" ++ v]
| phone_device v p : In ("IPHONEOS_DEPLOYMENT_TARGET", Text v) s -> sdk_at m s (Some p) -> ~ simulator p -> phone m s ["-miphoneos-version-min=" ++ v].
Definition oldest (m : machine) (s : settings) (w : list string) : Prop := exists a b, w = (a ++ b)%list /\ worded s "MACOSX_DEPLOYMENT_TARGET" "-mmacosx-version-min=" a /\ phone m s b.

(** ** Architectures *)
(** The versions of Xcode before 5.0, 5.0 and from 5.1 on. *)
Inductive era := Before_5_0 | From_5_0 | From_5_1.
Definition in_era (m : machine) (e : era) : Prop :=
  match e with Before_5_0 => String.ltb (version m) "0500" = true | From_5_0 => String.ltb (version m) "0500" = false /\ String.ltb (version m) "0510" = true
             | From_5_1 => String.ltb (version m) "0500" = false /\ String.ltb (version m) "0510" = false end.
Inductive sdk_family := For_mac | For_phone | For_simulator.
Definition mentions (s part : string) : Prop := exists a b, Model_Build.to_lower s = a ++ part ++ b.
Definition in_family (s : settings) (f : sdk_family) : Prop :=
  exists r, says s "SDKROOT" r "" /\
  match f with For_phone => mentions r "iphoneos" | For_simulator => ~ mentions r "iphoneos" /\ mentions r "iphonesimulator" | For_mac => ~ mentions r "iphoneos" /\ ~ mentions r "iphonesimulator" end.
Definition standard (e : era) (f : sdk_family) : list string :=
  match f, e with
  | For_mac, Before_5_0 => ["i386"] | For_mac, _ => ["x86_64"]
  | For_simulator, From_5_1 => ["i386"; "x86_64"] | For_simulator, _ => ["i386"]
  | For_phone, Before_5_0 => ["armv7"] | For_phone, From_5_0 => ["armv7"; "armv7s"] | For_phone, From_5_1 => ["armv7"; "armv7s"; "arm64"]
  end.
Definition with_64_bit (e : era) (f : sdk_family) : list string :=
  match e, f with
  | Before_5_0, _ => []
  | _, For_mac => ["x86_64"] | _, For_simulator => ["i386"; "x86_64"] | _, For_phone => ["armv7"; "armv7s"; "arm64"]
  end.
Definition word_letter (a : ascii) : Prop := (65 <= N_of_ascii a <= 90 \/ 97 <= N_of_ascii a <= 122 \/ N_of_ascii a = 95)%N.
Definition word_digit (a : ascii) : Prop := (48 <= N_of_ascii a <= 57)%N.
Definition reference (s : string) : Prop :=
  exists a n, s = "$(" ++ String a n ++ ")" /\ word_letter a /\ forall b, In b (list_ascii_of_string n) -> word_letter b \/ word_digit b.
(** What an item of ARCHS stands for; other variables stand for nothing. *)
Inductive stands_for (e : era) (f : sdk_family) : string -> list string -> Prop :=
| stands_itself a : ~ reference a -> stands_for e f a [a]
| stands_standard : stands_for e f "$(ARCHS_STANDARD)" (standard e f)
| stands_with_64 : stands_for e f "$(ARCHS_STANDARD_INCLUDING_64_BIT)" (with_64_bit e f)
| stands_nothing a : reference a -> a <> "$(ARCHS_STANDARD)" -> a <> "$(ARCHS_STANDARD_INCLUDING_64_BIT)" -> stands_for e f a [].
Inductive kept_of (valid : list string) : list string -> list string -> Prop :=
| kept_nil : kept_of valid [] []
| kept_yes a l r : In a valid -> kept_of valid l r -> kept_of valid (a :: l) (a :: r)
| kept_no a l r : ~ In a valid -> kept_of valid l r -> kept_of valid (a :: l) r.
Definition default_of (e : era) : string := match e with From_5_0 => "$(ARCHS_STANDARD_INCLUDING_64_BIT)" | _ => "$(ARCHS_STANDARD)" end.
Definition active (m : machine) (s : settings) (l : list string) : Prop :=
  exists e f given asked parts all valid,
    in_era m e /\ in_family s f /\ lists s "ARCHS" given /\ asked = (match given with [] => [default_of e] | _ => given end) /\
    Forall2 (stands_for e f) asked parts /\ once_each [] (concat parts) all /\
    lists s "VALID_ARCHS" valid /\ match valid with [] => l = all | _ => kept_of valid all l end.
(** The one architecture: of xcode_configuration_platform, or the only active one. *)
Inductive built_for (m : machine) (c : config) : string -> Prop :=
| built_platform a : arch c = Some a -> built_for m c a
| built_active a : arch c = None -> active m (xcode c) [a] -> built_for m c a
| built_other l : arch c = None -> active m (xcode c) l -> length l <> 1 -> built_for m c "i386".
Inductive architecture (m : machine) (c : config) : list string -> Prop :=
| architecture_crossing : crossing m = true -> architecture m c []
| architecture_intel a w : crossing m = false -> built_for m c a -> a = "i386" \/ a = "x86_64" -> switched (xcode c) intel_switches w -> architecture m c ("-arch" :: a :: w)
| architecture_other a : crossing m = false -> built_for m c a -> a <> "i386" -> a <> "x86_64" -> architecture m c ["-arch"; a].

(** ** All compilations *)
Definition compile_words (m : machine) (c : config) (flags : list string) : Prop :=
  let s := xcode c in
  exists sys first level debug alias second least archs warnings root dirs,
    flags = (sys ++ first ++ [append "-O" level] ++ debug ++ alias ++ second ++ least ++ archs ++ warnings ++ map (append "-F") dirs)%list /\
    sysroot m s sys /\ switched s first_switches first /\ says s "GCC_OPTIMIZATION_LEVEL" level "s" /\ debugging s debug /\ switched s aliasing_switches alias /\
    switched s second_switches second /\ oldest m s least /\ architecture m c archs /\ lists s "WARNING_CFLAGS" warnings /\
    root_at m s root /\ Forall2 (in_sdk root) (framework_dirs c) dirs.
(** ** Compilations of C, C++, Objective-C and Objective-C++ *)
Inductive c_standard (s : settings) : list string -> Prop :=
| c_ansi : In ("GCC_C_LANGUAGE_STANDARD", Text "ansi") s -> c_standard s ["-ansi"]
| c_other w : ~ In ("GCC_C_LANGUAGE_STANDARD", Text "ansi") s -> worded s "GCC_C_LANGUAGE_STANDARD" "-std=" w -> c_standard s w.
Definition c_words (s : settings) (flags : list string) : Prop := exists a b, flags = (a ++ b)%list /\ c_standard s a /\ lists s "OTHER_CFLAGS" b.
Inductive cxx_standard (s : settings) : list string -> Prop :=
| cxx_given v : In ("CLANG_CXX_LANGUAGE_STANDARD", Text v) s -> v <> "" -> cxx_standard s ["-std=" ++ v]
| cxx_none : says s "CLANG_CXX_LANGUAGE_STANDARD" "" "" -> cxx_standard s [].
(** The flags for C where the flags for C++ refer to them. *)
Definition refers (f : string) : Prop := In f ["$inherited"; "$(inherited)"; "${inherited}"; "$OTHER_CFLAGS"; "$(OTHER_CFLAGS)"; "${OTHER_CFLAGS}"].
Inductive with_inherited (cflags : list string) : list string -> list string -> Prop :=
| inherited_nil : with_inherited cflags [] []
| inherited_all f l r : refers f -> with_inherited cflags l r -> with_inherited cflags (f :: l) (cflags ++ r)%list
| inherited_other f l r : ~ refers f -> with_inherited cflags l r -> with_inherited cflags (f :: l) (f :: r).
Inductive cxx_other (s : settings) : list string -> Prop :=
| cxx_own own cflags w : In ("OTHER_CPLUSPLUSFLAGS", Items own) s -> lists s "OTHER_CFLAGS" cflags -> with_inherited cflags own w -> cxx_other s w
| cxx_same cflags : lacks s "OTHER_CPLUSPLUSFLAGS" -> lists s "OTHER_CFLAGS" cflags -> cxx_other s cflags.
Definition cxx_words (s : settings) (flags : list string) : Prop :=
  exists std lib sw other, flags = (std ++ lib ++ sw ++ other)%list /\ cxx_standard s std /\ worded s "CLANG_CXX_LIBRARY" "-stdlib=" lib /\ switched s cxx_switches sw /\ cxx_other s other.

(** ** Products *)
Definition kind_prefix (k : kind) : string := match k with Static_library | Shared_library => "lib" | _ => "" end.
Definition kind_suffix (k : kind) : string := match k with Static_library => ".a" | Shared_library => ".dylib" | Loadable_module => ".so" | _ => "" end.
(** The name without "lib" in front of it, unless it is that of a program. *)
Definition bare (k : kind) (n b : string) : Prop := (k <> Executable /\ n = "lib" ++ b) \/ ((k = Executable \/ forall r, n <> "lib" ++ r) /\ b = n).
Definition produces (t : spec) (file : string) : Prop :=
  type t <> None_ /\ exists p b e, file = p ++ b ++ e /\
    (product_prefix t = Some p \/ (product_prefix t = None /\ p = kind_prefix (type t))) /\
    (product_name t = Some b \/ (product_name t = None /\ bare (type t) (target_name t) b)) /\
    ((exists x, product_extension t = Some x /\ e = "." ++ x) \/ (product_extension t = None /\ e = kind_suffix (type t))).

(** ** Linking *)
(** An item of OTHER_LDFLAGS: the path of a file is from the build's directory. *)
Definition blank_free (s : string) : Prop := s <> "" /\ forall a, In a (list_ascii_of_string s) -> is_space a = false.
Definition word (s : string) : Prop := blank_free s /\ has_char "," s = false.
Definition front (w : string) : Prop := w = "" \/ w = "-Wl,".
Definition between (x : string) : Prop := x = " " \/ x = ",".
Definition symbol_lists : list string := ["-exported_symbols_list"; "-unexported_symbols_list"; "-reexported_symbols_list"].
Definition stops (r : string) : Prop := r = "" \/ exists a r', r = String a r' /\ is_space a = true.
Inductive from_build (to_build : string -> string) : string -> string -> Prop :=
| from_symbols w n x file r : front w -> In n symbol_lists -> between x -> blank_free file -> stops r ->
    from_build to_build (w ++ n ++ x ++ file ++ r) (w ++ n ++ x ++ to_build file ++ r)
| from_section w x segment y section z file : front w -> between x -> word segment -> between y -> word section -> between z -> word file ->
    from_build to_build (w ++ "-sectcreate" ++ x ++ segment ++ y ++ section ++ z ++ file) (w ++ "-sectcreate" ++ x ++ segment ++ y ++ section ++ z ++ to_build file)
| from_directory d : from_build to_build ("-L" ++ d) ("-L" ++ to_build d)
| from_other f : (forall w n r, front w -> In n ("-sectcreate" :: symbol_lists) -> f <> w ++ n ++ r) -> (forall d, f <> "-L" ++ d) -> from_build to_build f f.

(** All configurations have the same. *)
Definition agree (t : spec) (k v d : string) : Prop := configurations t <> [] /\ NoDup (map fst (configurations t)) /\
  ((forall n c, In (n, c) (configurations t) -> NoDup (map fst (xcode c)) /\ In (k, Text v) (xcode c)) \/ ((forall n c, In (n, c) (configurations t) -> lacks (xcode c) k) /\ v = d)).
(** The directory a library is installed in, with the first part kept if it is
    "@executable_path", "@rpath" or the like. *)
Inductive tidy : string -> string -> Prop :=
| tidy_name b : has_char "/" b = false -> tidy b b
| tidy_at a r : has_char "/" a = false -> tidy ("@" ++ a ++ "/" ++ r) (Model_Path.path_join ("@" ++ a) (Model_Path.normpath r))
| tidy_path b : has_char "/" b = true -> (forall r, b <> "@" ++ r) -> tidy b (Model_Path.normpath b).
Definition default_name : string := "$(DYLIB_INSTALL_NAME_BASE:standardizepath)/$(EXECUTABLE_PATH)".
Inductive installed_as (t : spec) : string -> Prop :=
| installed_name v : agree t "LD_DYLIB_INSTALL_NAME" v "" -> has_char "$" v = false -> v <> "" -> installed_as t v
| installed_dir b d p : agree t "LD_DYLIB_INSTALL_NAME" default_name default_name -> agree t "DYLIB_INSTALL_NAME_BASE" b "/usr/local/lib" -> tidy b d -> has_char "$" d = false ->
    produces t p -> has_char "$" p = false -> installed_as t (d ++ "/" ++ p).
Inductive escaped : string -> string -> Prop :=
| escaped_nil : escaped "" ""
| escaped_blank s r : escaped s r -> escaped (String " " s) ("\ " ++ r)
| escaped_other a s r : a <> " "%char -> escaped s r -> escaped (String a s) (String a r).
Inductive install_words (t : spec) : list string -> Prop :=
| install_library n e : type t = Shared_library -> installed_as t n -> escaped n e -> install_words t ["-install_name"; e]
| install_module n : type t = Loadable_module -> installed_as t n -> install_words t []
| install_nothing : type t = Executable \/ type t = Static_library \/ type t = None_ -> install_words t [].
Inductive ordering (s : settings) (to_build : string -> string) : list string -> Prop :=
| ordering_given f : In ("ORDER_FILE", Text f) s -> ordering s to_build ["-Wl,-order_file"; "-Wl," ++ to_build f]
| ordering_none : lacks s "ORDER_FILE" -> ordering s to_build [].
Inductive link_architecture (m : machine) (c : config) : list string -> Prop :=
| link_crossing : crossing m = true -> link_architecture m c []
| link_for a : crossing m = false -> built_for m c a -> link_architecture m c ["-arch"; a].
Definition link_words (m : machine) (t : spec) (c : config) (product_dir : string) (to_build : string -> string) (flags : list string) : Prop :=
  let s := xcode c in
  exists other_given other sw compat current least sys search order archs dir install rpaths root dirs lib,
    flags = (other ++ sw ++ compat ++ current ++ least ++ sys ++ map (fun p => append "-L" (to_build p)) search ++ order ++ archs ++ [append "-L" dir] ++ install ++
             map (append "-Wl,-rpath,") rpaths ++ map (append "-F") dirs ++ lib)%list /\
    lists s "OTHER_LDFLAGS" other_given /\ Forall2 (from_build to_build) other_given other /\ switched s link_switches sw /\
    worded s "DYLIB_COMPATIBILITY_VERSION" "-compatibility_version " compat /\ worded s "DYLIB_CURRENT_VERSION" "-current_version " current /\
    oldest m s least /\ sysroot m s sys /\ lists s "LIBRARY_SEARCH_PATHS" search /\ ordering s to_build order /\ link_architecture m c archs /\
    ((product_dir = "." /\ dir = "./") \/ (product_dir <> "." /\ dir = product_dir)) /\ install_words t install /\
    lists s "LD_RUNPATH_SEARCH_PATHS" rpaths /\ root_at m s root /\ Forall2 (in_sdk root) (framework_dirs c) dirs /\ worded s "CLANG_CXX_LIBRARY" "-stdlib=" lib.

(** ** Libraries *)
Definition dots_only (s : string) : Prop := forall a, In a (list_ascii_of_string s) -> a = "."%char.
Definition directory (d : string) : Prop := d = "" \/ exists p, d = p ++ "/".
Definition library_file (l : string) : Prop := exists n, n <> "" /\ has_char "/" n = false /\ (l = "lib" ++ n ++ ".a" \/ l = "lib" ++ n ++ ".dylib").
Inductive linked_as (m : machine) (root : string) : string -> string -> Prop :=
| linked_framework d n : directory d -> has_char "/" n = false -> has_char "$" n = false -> ~ dots_only n -> linked_as m root (d ++ n ++ ".framework") ("-framework " ++ n)
| linked_library n e : n <> "" -> has_char "/" n = false -> has_char "$" n = false -> e = ".a" \/ e = ".dylib" -> linked_as m root ("lib" ++ n ++ e) ("-l" ++ n)
| linked_stub d n : directory d -> has_char "$" (d ++ n) = false -> has_char "/" n = false -> ~ dots_only n -> d <> "" ->
    exists_ m (root ++ d ++ n ++ ".dylib") = false -> exists_ m (root ++ d ++ n ++ ".tbd") = true -> linked_as m root ("$(SDKROOT)" ++ d ++ n ++ ".dylib") (root ++ d ++ n ++ ".tbd")
| linked_sdk p : has_char "$" p = false -> (forall q, p <> q ++ ".framework") ->
    (forall q, root ++ p = q ++ ".dylib" -> exists_ m (root ++ p) = true \/ exists_ m (q ++ ".tbd") = false) -> linked_as m root ("$(SDKROOT)" ++ p) (root ++ p)
| linked_plain l : has_char "$" l = false -> (forall q, l <> q ++ ".framework") -> ~ library_file l -> linked_as m root l l.
(** The SDK of all configurations. *)
Definition common_root (m : machine) (t : spec) (root : string) : Prop :=
  exists v, agree t "SDKROOT" v "" /\ ((exists p, v = "/" ++ p /\ root = v) \/ ((forall p, v <> "/" ++ p) /\ (sdk m v = Some root \/ (sdk m v = None /\ root = "")))).

(** ** Settings for some SDKs only: their keys end with a bracket *)
Definition conditional (k : string) : Prop := exists b, k = b ++ "]".
