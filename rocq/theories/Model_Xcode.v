(** Model of how xcode_settings become flags for the compiler and the linker on macOS:
    gyp/pylib/gyp/xcode_emulation.py:31-147, 190-221, 447-520, 531-1017,
    1019-1058 and 1251-1283, for targets that are no bundles.

    What is not computed here are parameters: the path xcrun prints for an SDK, the
    version of Xcode, whether a file exists, Python's text of a list of strings, and the
    way from the directory of the .gyp file to that of the build.  A list in place of
    LD_DYLIB_INSTALL_NAME or DYLIB_INSTALL_NAME_BASE is taken as an exception. *)
From Verif Require Import Lib Str Model_Names Model_Path Model_Writer.
From Verif Require Model_Build Model_Args.
Local Open Scope string_scope.

(** A setting, after integers have been turned into strings. *)
Inductive value := Text (s : string) | Items (l : list string).
Definition settings := list (string * value).
(** [sdk]: what xcrun --show-sdk-path prints, None if it fails; [crossing]:
    CrossCompileRequested; [header_map] is set by other generators only *)
Record machine := { sdk : string -> option string; version : string; exists_ : string -> bool; listed : list string -> string; crossing : bool }.
(** A configuration: xcode_settings, mac_framework_dirs, xcode_configuration_platform. *)
Record config := { xcode : settings; framework_dirs : list string; arch : option string }.

(** 209-221 *)
Definition get (s : settings) (key : string) (default : value) : value := match assoc key s with Some v => v | None => default end.
Definition is_text (v : value) (t : string) : bool := match v with Text x => String.eqb x t | Items _ => false end.
(** 190-210: _ConvertConditionalKeys; [del] of a key that is there, as the keys are
    those of a dict; key.split("[")[0] *)
Fixpoint before_bracket (s : string) : string := match s with "" => "" | String a s' => if Ascii.eqb a "[" then "" else String a (before_bracket s') end.
Definition set_value (k : string) (v : value) (s : settings) : settings :=
  if mem k (map fst s) then map (fun kv => if String.eqb (fst kv) k then (k, v) else kv) s else (s ++ [(k, v)])%list.
Definition convert_key (config_name : string) (s : settings) (key : string) : settings :=
  let s' := if ends_with "[sdk=iphoneos*]" key && ends_with "iphoneos" config_name then match assoc key s with Some v => set_value (before_bracket key) v s | None => s end else s in
  filter (fun kv => negb (String.eqb (fst kv) key)) s'.
Definition convert (config_name : string) (s : settings) : settings := fold_left (convert_key config_name) (filter (ends_with "]") (map fst s)) s.
Definition test (s : settings) (key cond default : string) : bool := is_text (get s key (Text default)) cond.
(** str(value) *)
Definition shown (m : machine) (v : value) : string := match v with Text x => x | Items l => listed m l end.
Definition appendf (m : machine) (s : settings) (key front : string) (default : option string) : list string :=
  match assoc key s with
  | Some v => [front ++ shown m v]
  | None => match default with Some (String _ _ as d) => [front ++ d] | _ => [] end
  end.
Definition flag_if (b : bool) (flag : string) : list string := if b then [flag] else [].
(** What Python's += or [for] makes of a value. *)
Definition letters (s : string) : list string := map (fun c => String c "") (list_ascii_of_string s).
Definition items (v : value) : list string := match v with Items l => l | Text s => letters s end.
Definition items_of (s : settings) (key : string) : list string := match assoc key s with Some v => items v | None => [] end.

(** 531-554: _SdkPath with the settings of one configuration; the outer None is an
    AttributeError *)
Definition sdk_path (m : machine) (s : settings) : option (option string) :=
  match get s "SDKROOT" (Text "") with
  | Text root => Some (if String.prefix "/" root then Some root else sdk m root)
  | Items _ => None
  end.
Definition truthy (o : option string) : bool := match o with Some (String _ _) => true | _ => false end.
Definition or_empty (o : option string) : string := match o with Some s => s | None => "" end.
(** 30-38, 106-147: the expansions of variables in ARCHS *)
Inductive platform := Mac | Ios | Simulator.
Definition default_archs (m : machine) : string :=
  if String.ltb (version m) "0500" then "$(ARCHS_STANDARD)" else if String.ltb (version m) "0510" then "$(ARCHS_STANDARD_INCLUDING_64_BIT)" else "$(ARCHS_STANDARD)".
Definition mapping (m : machine) (p : platform) : list (string * list string) :=
  let std a := [("$(ARCHS_STANDARD)", a)] in
  let both a b := [("$(ARCHS_STANDARD)", a); ("$(ARCHS_STANDARD_INCLUDING_64_BIT)", b)] in
  if String.ltb (version m) "0500" then match p with Mac => std ["i386"] | Simulator => std ["i386"] | Ios => std ["armv7"] end
  else if String.ltb (version m) "0510" then
    match p with Mac => both ["x86_64"] ["x86_64"] | Simulator => both ["i386"] ["i386"; "x86_64"] | Ios => both ["armv7"; "armv7s"] ["armv7"; "armv7s"; "arm64"] end
  else match p with Mac => both ["x86_64"] ["x86_64"] | Simulator => both ["i386"; "x86_64"] ["i386"; "x86_64"] | Ios => both ["armv7"; "armv7s"; "arm64"] ["armv7"; "armv7s"; "arm64"] end.
(** 54-62 *)
Definition platform_of (sdkroot : string) : platform :=
  let r := Model_Build.to_lower sdkroot in if contains "iphoneos" r then Ios else if contains "iphonesimulator" r then Simulator else Mac.
(** 48: the pattern; a newline at the end is left out *)
Definition letter (a : ascii) : bool := let n := N_of_ascii a in ((65 <=? n) && (n <=? 90) || (97 <=? n) && (n <=? 122) || (n =? 95))%N.
Definition digit (a : ascii) : bool := let n := N_of_ascii a in ((48 <=? n) && (n <=? 57))%N.
Definition is_variable (s : string) : bool :=
  match list_ascii_of_string s with
  | d :: p :: l :: rest => Ascii.eqb d "$" && Ascii.eqb p "(" && letter l &&
      match rev rest with c :: name => Ascii.eqb c ")" && forallb (fun a => letter a || digit a) name | [] => false end
  | _ => false
  end.
(** 64-79 *)
Definition expand_archs (m : machine) (sdkroot : string) (archs : list string) : list string :=
  fold_left (fun out a => if is_variable a then match assoc a (mapping m (platform_of sdkroot)) with Some l => fold_left (fun o x => oset_add x o) l out | None => out end
                          else oset_add a out) archs [].
(** 81-93; an empty ARCHS or VALID_ARCHS is as if there were none; [a in valid] for a
    text is about its parts *)
Definition empty (v : value) : bool := match v with Text "" => true | Items [] => true | _ => false end.
Definition active_archs (m : machine) (s : settings) : option (list string) :=
  match get s "SDKROOT" (Text "") with
  | Items (_ :: _) => None
  | r =>
    let root := match r with Text t => t | Items _ => "" end in
    let archs := match assoc "ARCHS" s with Some v => if empty v then [default_archs m] else items v | None => [default_archs m] end in
    let out := expand_archs m root archs in
    Some match assoc "VALID_ARCHS" s with
         | Some v => if empty v then out else filter (fun a => match v with Items l => mem a l | Text t => contains a t end) out
         | None => out
         end
  end.
(** 658-667, 939-948 *)
Definition one_arch (m : machine) (c : config) : option string :=
  match arch c with
  | Some a => Some a
  | None => match active_archs m (xcode c) with Some [a] => Some a | Some _ => Some "i386" | None => None end
  end.
(** 556-569; the outer None: os.path.basename(None) *)
Definition version_min (m : machine) (s : settings) : option (list string) :=
  let mac := appendf m s "MACOSX_DEPLOYMENT_TARGET" "-mmacosx-version-min=" None in
  match assoc "IPHONEOS_DEPLOYMENT_TARGET" s with
  | None => Some mac
  | Some _ =>
    match sdk_path m s with
    | Some (Some p) =>
      let front := if String.prefix "iphonesimulator" (Model_Build.to_lower (snd (path_split p))) then "-mios-simulator-version-min=" else "-miphoneos-version-min=" in
      Some (mac ++ appendf m s "IPHONEOS_DEPLOYMENT_TARGET" front None)%list
    | _ => None
    end
  end.
Definition bind {A B} (o : option A) (f : A -> option B) : option B := match o with Some x => f x | None => None end.
Notation "x <- a ;; b" := (bind a (fun x => b)) (at level 61, a at next level, right associativity).

(** 571-697: GetCflags; None: an exception *)
Definition debug_flags (s : settings) : option (list string) :=
  if test s "GCC_GENERATE_DEBUGGING_SYMBOLS" "YES" "YES" then
    let f := get s "DEBUG_INFORMATION_FORMAT" (Text "dwarf") in
    if is_text f "dwarf" then Some ["-gdwarf-2"] else if is_text f "stabs" then None else if is_text f "dwarf-with-dsym" then Some ["-gdwarf-2"] else None
  else Some [].
Definition framework_flags (root : string) (c : config) : list string := map (fun d => "-F" ++ replace "$(SDKROOT)" root d) (framework_dirs c).
Definition arch_flags (m : machine) (c : config) : option (list string) :=
  if crossing m then Some []
  else
    a <- one_arch m c ;;
    let s := xcode c in
    Some (["-arch"; a] ++
      (if String.eqb a "i386" || String.eqb a "x86_64" then
         flag_if (test s "GCC_ENABLE_SSE3_EXTENSIONS" "YES" "NO") "-msse3" ++
         flag_if (test s "GCC_ENABLE_SUPPLEMENTAL_SSE3_INSTRUCTIONS" "YES" "NO") "-mssse3" ++
         flag_if (test s "GCC_ENABLE_SSE41_EXTENSIONS" "YES" "NO") "-msse4.1" ++
         flag_if (test s "GCC_ENABLE_SSE42_EXTENSIONS" "YES" "NO") "-msse4.2"
       else []))%list.
Definition root_flags (s : settings) (root : option string) : list string := if truthy root && match assoc "SDKROOT" s with Some _ => true | None => false end then ["-isysroot"; or_empty root] else [].
Definition get_cflags (m : machine) (c : config) : option (list string) :=
  let s := xcode c in
  root <- sdk_path m s ;;
  debug <- debug_flags s ;;
  least <- version_min m s ;;
  archs <- arch_flags m c ;;
  Some (root_flags s root ++
    flag_if (test s "CLANG_WARN_CONSTANT_CONVERSION" "YES" "NO") "-Wconstant-conversion" ++
    flag_if (test s "GCC_CHAR_IS_UNSIGNED_CHAR" "YES" "NO") "-funsigned-char" ++
    flag_if (test s "GCC_CW_ASM_SYNTAX" "YES" "YES") "-fasm-blocks" ++
    flag_if (match assoc "GCC_DYNAMIC_NO_PIC" s with Some v => is_text v "YES" | None => false end) "-mdynamic-no-pic" ++
    flag_if (test s "GCC_ENABLE_PASCAL_STRINGS" "YES" "YES") "-mpascal-strings" ++
    appendf m s "GCC_OPTIMIZATION_LEVEL" "-O" (Some "s") ++
    debug ++
    (match assoc "GCC_STRICT_ALIASING" s with
     | Some v => if is_text v "YES" then ["-fstrict-aliasing"] else if is_text v "NO" then ["-fno-strict-aliasing"] else []
     | None => []
     end) ++
    flag_if (test s "GCC_SYMBOLS_PRIVATE_EXTERN" "YES" "NO") "-fvisibility=hidden" ++
    flag_if (test s "GCC_TREAT_WARNINGS_AS_ERRORS" "YES" "NO") "-Werror" ++
    flag_if (test s "GCC_WARN_ABOUT_MISSING_NEWLINE" "YES" "NO") "-Wnewline-eof" ++
    flag_if (test s "LLVM_LTO" "YES" "NO") "-flto" ++
    least ++ archs ++
    items_of s "WARNING_CFLAGS" ++
    framework_flags (or_empty root) c)%list.
(** 699-709 *)
Definition get_cflags_c (m : machine) (c : config) : list string :=
  let s := xcode c in
  ((if is_text (get s "GCC_C_LANGUAGE_STANDARD" (Text "")) "ansi" then ["-ansi"] else appendf m s "GCC_C_LANGUAGE_STANDARD" "-std=" None) ++ items_of s "OTHER_CFLAGS")%list.
(** 711-751 *)
Definition inherited (f : string) : bool := mem f ["$inherited"; "$(inherited)"; "${inherited}"; "$OTHER_CFLAGS"; "$(OTHER_CFLAGS)"; "${OTHER_CFLAGS}"].
Definition get_cflags_cc (m : machine) (c : config) : list string :=
  let s := xcode c in
  ((match assoc "CLANG_CXX_LANGUAGE_STANDARD" s with Some v => if empty v then [] else [append "-std=" (shown m v)] | None => [] end) ++
   appendf m s "CLANG_CXX_LIBRARY" "-stdlib=" None ++
   flag_if (test s "GCC_ENABLE_CPP_RTTI" "NO" "YES") "-fno-rtti" ++
   flag_if (test s "GCC_ENABLE_CPP_EXCEPTIONS" "NO" "YES") "-fno-exceptions" ++
   flag_if (test s "GCC_INLINES_ARE_PRIVATE_EXTERN" "YES" "NO") "-fvisibility-inlines-hidden" ++
   flag_if (test s "GCC_THREADSAFE_STATICS" "NO" "YES") "-fno-threadsafe-statics" ++
   flag_if (test s "GCC_WARN_ABOUT_INVALID_OFFSETOF_MACRO" "NO" "YES") "-Wno-invalid-offsetof" ++
   flat_map (fun f => if inherited f then items_of s "OTHER_CFLAGS" else [f]) (items (get s "OTHER_CPLUSPLUSFLAGS" (Items ["$(inherited)"]))))%list.
(** 753-790 *)
Definition get_cflags_objc (c : config) : list string :=
  let s := xcode c in
  let gc := get s "GCC_ENABLE_OBJC_GC" (Text "unsupported") in
  ((if is_text gc "supported" then ["-fobjc-gc"] else if is_text gc "required" then ["-fobjc-gc-only"] else []) ++
   flag_if (test s "CLANG_ENABLE_OBJC_ARC" "YES" "NO") "-fobjc-arc" ++
   flag_if (test s "CLANG_WARN_OBJC_MISSING_PROPERTY_SYNTHESIS" "YES" "NO") "-Wobjc-missing-property-synthesis")%list.
Definition get_cflags_objcc (c : config) : list string := (get_cflags_objc c ++ flag_if (test (xcode c) "GCC_OBJC_CALL_CXX_CDTORS" "YES" "NO") "-fobjc-call-cxx-cdtors")%list.

(** ** the product *)
Record spec := { target_name : string; type : kind; product_name : option string; product_prefix : option string; product_extension : option string; configurations : list (string * config) }.
Definition drop_lib (n : string) : string := if String.prefix "lib" n then substring 3 (String.length n - 3) n else n.
(** 447-492; None: an AssertionError *)
Definition product (t : spec) : option string :=
  match type t with
  | None_ => None
  | k =>
    let base := match k with Executable => target_name t | _ => drop_lib (target_name t) end in
    let prefix := match product_prefix t with Some p => p | None => match k with Static_library | Shared_library => "lib" | _ => "" end end in
    let suffix := match product_extension t with Some e => "." ++ e | None => match k with Static_library => ".a" | Shared_library => ".dylib" | Loadable_module => ".so" | _ => "" end end in
    Some (prefix ++ match product_name t with Some n => n | None => base end ++ suffix)
  end.
(** 1019-1034: GetPerTargetSettings *)
Definition value_eqb (a b : value) : bool :=
  match a, b with Text x, Text y => String.eqb x y | Items x, Items y => if list_eq_dec String.string_dec x y then true else false | _, _ => false end.
Definition sorted_configs (t : spec) : list settings := map (fun n => match assoc n (configurations t) with Some c => xcode c | None => [] end) (sort (map fst (configurations t))).
Definition per_target_settings (t : spec) : settings :=
  match sorted_configs t with
  | [] => []
  | s :: rest => fold_left (fun r s' => filter (fun kv => match assoc (fst kv) s' with Some v => value_eqb (snd kv) v | None => true end) r) rest s
  end.
(** 1042-1058: GetPerTargetSetting; the outer None: an AssertionError *)
Definition per_target (t : spec) (key : string) : option (option value) :=
  match sorted_configs t with
  | [] => Some None
  | s :: rest => if forallb (fun s' => match assoc key s, assoc key s' with Some a, Some b => value_eqb a b | None, None => true | _, _ => false end) rest then Some (assoc key s) else None
  end.
(** 792-864: DYLIB_INSTALL_NAME_BASE and LD_DYLIB_INSTALL_NAME; the outer None: an
    exception *)
Definition standardize (p : string) : string :=
  if has_char "/" p then
    let '(front, rest) := if String.prefix "@" p then match Model_Args.split1 "/" p with Some (a, b) => (a, b) | None => ("", p) end else ("", p) in
    path_join front (normpath rest)
  else p.
Definition default_install : string := "$(DYLIB_INSTALL_NAME_BASE:standardizepath)/$(EXECUTABLE_PATH)".
Definition install_name (t : spec) : option (option string) :=
  match type t with
  | Shared_library | Loadable_module =>
    v <- per_target t "LD_DYLIB_INSTALL_NAME" ;;
    match v with
    | Some (Items _) => None
    | _ =>
      let n := match v with Some (Text x) => x | _ => default_install end in
      if has_char "$" n then
        if String.eqb n default_install then
          b <- per_target t "DYLIB_INSTALL_NAME_BASE" ;;
          match b with
          | Some (Items _) => None
          | _ =>
            let base := match b with Some (Text x) => x | _ => "/usr/local/lib" end in
            p <- product t ;;
            let n := replace "$(DYLIB_INSTALL_NAME_BASE:standardizepath)" (standardize base) n in
            if contains "$(WRAPPER_NAME)" n || contains "$(PRODUCT_NAME)" n then None else Some (Some (replace "$(EXECUTABLE_PATH)" p n))
          end
        else None
      else Some (Some n)
    end
  | _ => Some None
  end.

(** ** 866-1001: the linker *)
(** 874-890: a pattern of words after a flag, each behind a blank or a comma; the first
    words take as much as they can. *)
Fixpoint run_length (s : string) : nat := match s with "" => 0 | String a s' => if is_space a then 0 else S (run_length s') end.
Definition after_sep (s : string) : option string := match s with String a s' => if Ascii.eqb a " " || Ascii.eqb a "," then Some s' else None | "" => None end.
Fixpoint first_some {A} (f : nat -> option A) (n : nat) : option A :=
  match n with O => None | S k => match f n with Some x => Some x | None => first_some f k end end.
(** [words] words, then the file: what is before the file, the file, what is behind it. *)
Fixpoint match_words (words : nat) (done s : string) : option (string * string * string) :=
  match after_sep s with
  | None => None
  | Some r =>
    let done := done ++ substring 0 1 s in
    let n := run_length r in
    match words with
    | O => match n with O => None | _ => Some (done, substring 0 n r, substring n (String.length r - n) r) end
    | S w => first_some (fun k => match_words w (done ++ substring 0 k r) (substring k (String.length r - k) r)) n
    end
  end.
Definition match_flag (flag : string) (words : nat) (s : string) : option (string * string * string) :=
  let '(front, s') := if String.prefix "-Wl," s then ("-Wl,", substring 4 (String.length s - 4) s) else ("", s) in
  if String.prefix flag s' then match_words words (front ++ flag) (substring (String.length flag) (String.length s' - String.length flag) s') else None.
Definition file_flags : list (string * nat) := [("-exported_symbols_list", 0); ("-unexported_symbols_list", 0); ("-reexported_symbols_list", 0); ("-sectcreate", 2)].
Definition map_linker_flag (to_build : string -> string) (f : string) : string :=
  let f := fold_left (fun f fw => match match_flag (fst fw) (snd fw) f with Some (a, file, b) => a ++ to_build file ++ b | None => f end) file_flags f in
  if String.prefix "-L" f then "-L" ++ to_build (substring 2 (String.length f - 2) f) else f.
(** ORDER_FILE as a list would be an error in the way to the build; it is one here. *)
Definition get_ldflags (m : machine) (t : spec) (c : config) (product_dir : string) (to_build : string -> string) : option (list string) :=
  let s := xcode c in
  least <- version_min m s ;;
  root <- sdk_path m s ;;
  order <- (match assoc "ORDER_FILE" s with Some (Text f) => Some ["-Wl,-order_file"; "-Wl," ++ to_build f] | Some (Items _) => None | None => Some [] end) ;;
  archs <- (if crossing m then Some [] else a <- one_arch m c ;; Some ["-arch"; a]) ;;
  name <- install_name t ;;
  Some (map (map_linker_flag to_build) (items_of s "OTHER_LDFLAGS") ++
    flag_if (test s "DEAD_CODE_STRIPPING" "YES" "NO") "-Wl,-dead_strip" ++
    flag_if (test s "PREBINDING" "YES" "NO") "-Wl,-prebind" ++
    appendf m s "DYLIB_COMPATIBILITY_VERSION" "-compatibility_version " None ++
    appendf m s "DYLIB_CURRENT_VERSION" "-current_version " None ++
    least ++ root_flags s root ++
    map (fun p => append "-L" (to_build p)) (items_of s "LIBRARY_SEARCH_PATHS") ++
    order ++ archs ++
    [append "-L" (if String.eqb product_dir "." then "./" else product_dir)] ++
    (match name, type t with
     | _, Loadable_module => []
     | Some (String _ _ as n), _ => ["-install_name"; replace " " "\ " n]
     | _, _ => []
     end) ++
    map (append "-Wl,-rpath,") (items_of s "LD_RUNPATH_SEARCH_PATHS") ++
    framework_flags (or_empty root) c ++
    appendf m s "CLANG_CXX_LIBRARY" "-stdlib=" None)%list.
(** 1003-1017 *)
Definition get_libtoolflags (c : config) : list string := items_of (xcode c) "OTHER_LDFLAGS".

(** ** 1251-1283: libraries *)
(** the pattern of 187; a newline at the end is left out *)
Definition library_name (l : string) : option string :=
  if String.prefix "lib" l then
    let r := substring 3 (String.length l - 3) l in
    match rsplit1 "." r with
    | Some (n, e) => if (String.eqb e "a" || String.eqb e "dylib") && negb (String.eqb n "") && negb (has_char "/" n) then Some n else None
    | None => None
    end
  else None.
Definition l_flag (l : string) : string :=
  if ends_with ".framework" l then "-framework " ++ fst (splitext (snd (path_split l)))
  else match library_name l with Some n => "-l" ++ n | None => l end.
(** SDKROOT of all configurations, as there is no name of one here *)
Definition target_sdk (m : machine) (t : spec) : option string :=
  v <- per_target t "SDKROOT" ;;
  match v with
  | Some (Text root) => Some (or_empty (if String.prefix "/" root then Some root else sdk m root))
  | None => Some (or_empty (sdk m ""))
  | Some (Items _) => None
  end.
Definition adjust_library (m : machine) (root l : string) : string :=
  let f := l_flag l in
  let library := replace "$(SDKROOT)" root f in
  if String.prefix "$(SDKROOT)" f then
    let '(base, ext) := splitext library in
    if String.eqb ext ".dylib" && negb (exists_ m library) && exists_ m (base ++ ".tbd") then base ++ ".tbd" else library
  else library.
Definition adjust_libraries (m : machine) (t : spec) (ls : list string) : option (list string) :=
  match ls with [] => Some [] | _ => root <- target_sdk m t ;; Some (map (adjust_library m root) ls) end.
