(** Model of the variables for compilers and linkers in a Makefile for macOS:
    gyp/pylib/gyp/generator/make.py:1397-1434 and 1475-1514 (WriteSources), 1618-1630
    (ComputeOutput), 1706-1766 (WriteTarget) and the commands of 210-222 and 592-596,
    where Model_Flags has what is the same on Linux.  What xcode_settings become is
    computed by Model_Xcode.  Without bundles, postbuilds and precompiled headers. *)
From Verif Require Import Lib Str Model_Path Model_Memo Model_Quote Model_Writer.
From Verif Require Import Model_Flags.
From Verif Require Model_Xcode.
Local Open Scope string_scope.

(** ** a target as it is in the .gyp file *)
Record settings := { own_defines : list string; own_include_dirs : list string; own_library_dirs : list string; xcode_config : Model_Xcode.config }.
Record project := { project_target : target; settings_of : list (string * settings); project_libraries : list string }.
Definition spec_of (p : project) : Model_Xcode.spec :=
  let t := project_target p in
  {| Model_Xcode.target_name := target_name t; Model_Xcode.type := type t; Model_Xcode.product_name := product_name t; Model_Xcode.product_prefix := product_prefix t; Model_Xcode.product_extension := product_extension t;
     Model_Xcode.configurations := map (fun nc => (fst nc, xcode_config (snd nc))) (settings_of p) |}.

(** ** what the lines are made of *)
Record config := { defines : list string; include_dirs : list string; cflags : list string; cflags_c : list string; cflags_cc : list string; cflags_objc : list string; cflags_objcc : list string;
  ldflags : list string; library_dirs : list string; libtoolflags : list string }.
Record built := { target_of : target; binary_of : string; configs : list (string * config); libraries : list string }.

(** 95: with Objective-C *)
Definition compilable (f : string) : bool := Model_Writer.compilable f || ends_with ".m" f || ends_with ".mm" f.
Definition all_sources (t : target) : list string := (sources t ++ extra_sources t)%list.
Definition compiled (t : target) : list string := filter compilable (all_sources t).
Definition objects (t : target) : list string := map (object_of t) (compiled t).
(** 1407-1413, 1711-1716, 1746; nothing is asked of XcodeSettings that is not written.
    None: an exception *)
Definition prepare_config (m : Model_Xcode.machine) (p : project) (c : settings) : option config :=
  let t := project_target p in
  match (match all_sources t with [] => Some [] | _ => Model_Xcode.get_cflags m (xcode_config c) end) with
  | None => None
  | Some all_flags =>
    match (match type t with None_ => Some [] | _ => Model_Xcode.get_ldflags m (spec_of p) (xcode_config c) "$(builddir)" (fun f => sourceify (absolutify t f)) end) with
    | None => None
    | Some link_flags =>
      Some {| defines := own_defines c; include_dirs := own_include_dirs c; cflags := all_flags; cflags_c := Model_Xcode.get_cflags_c m (xcode_config c); cflags_cc := Model_Xcode.get_cflags_cc m (xcode_config c);
              cflags_objc := Model_Xcode.get_cflags_objc (xcode_config c); cflags_objcc := Model_Xcode.get_cflags_objcc (xcode_config c); ldflags := link_flags; library_dirs := own_library_dirs c;
              libtoolflags := Model_Xcode.get_libtoolflags (xcode_config c) |}
    end
  end.
Fixpoint map_some {A B} (f : A -> option B) (l : list A) : option (list B) :=
  match l with [] => Some [] | x :: l' => match f x, map_some f l' with Some y, Some r => Some (y :: r) | _, _ => None end end.
(** 1618-1630; with bundles left out *)
Definition output_binary (p : project) : option string :=
  let t := project_target p in
  match type t with
  | None_ => Some (binary t)
  | ty =>
    match Model_Xcode.product (spec_of p) with
    | Some b => Some (expand t (path_join (match product_dir t with Some d => d | None => match ty with Executable => "$(builddir)" | _ => if String.eqb (toolset t) "target" then "$(builddir)" else path_join ("$(obj)." ++ toolset t) (path t) end end) b))
    | None => None
    end
  end.
(** 1749-1754 *)
Definition prepare (m : Model_Xcode.machine) (p : project) : option built :=
  match output_binary p, map_some (fun nc => match prepare_config m p (snd nc) with Some c => Some (fst nc, c) | None => None end) (settings_of p),
        (match type (project_target p) with None_ => Some [] | _ => Model_Xcode.adjust_libraries m (spec_of p) (uniquer string string string_dec (fun x => x) (project_libraries p)) end) with
  | Some b, Some cs, Some libs => Some {| target_of := project_target p; binary_of := b; configs := cs; libraries := libs |}
  | _, _, _ => None
  end.

(** ** the lines *)
Definition sorted_configs (t : built) : list (string * config) :=
  flat_map (fun n => match assoc n (configs t) with Some c => [(n, c)] | None => [] end) (sort (map fst (configs t))).
(** 1397-1434 *)
Definition compile_texts (t : built) (c : config) : list (string * string) :=
  [("DEFS_", write_list escape_cpp_define "-D" (defines c));
   ("CFLAGS_", write_list quote_if_necessary "" (cflags c));
   ("CFLAGS_C_", write_list quote_if_necessary "" (cflags_c c));
   ("CFLAGS_CC_", write_list quote_if_necessary "" (cflags_cc c));
   ("CFLAGS_OBJC_", write_list quote_if_necessary "" (cflags_objc c));
   ("CFLAGS_OBJCC_", write_list quote_if_necessary "" (cflags_objcc c));
   ("INCS_", write_list quote_if_necessary "-I" (map (fun i => sourceify (absolutify (target_of t) i)) (include_dirs c)))].
Definition lines_for (texts : config -> list (string * string)) (nc : string * config) : list assignment := map (fun pt => Assign (fst pt ++ fst nc) (snd pt)) (texts (snd nc)).
(** 1475-1514 *)
Definition object_lines (t : built) : list assignment :=
  let o := objects (target_of t) in
  [Assign_for o "TOOLSET" "$(TOOLSET)";
   Assign_for o "GYP_CFLAGS" "$(DEFS_$(BUILDTYPE)) $(INCS_$(BUILDTYPE))  $(CFLAGS_$(BUILDTYPE)) $(CFLAGS_C_$(BUILDTYPE))";
   Assign_for o "GYP_CXXFLAGS" "$(DEFS_$(BUILDTYPE)) $(INCS_$(BUILDTYPE))  $(CFLAGS_$(BUILDTYPE)) $(CFLAGS_CC_$(BUILDTYPE))";
   Assign_for o "GYP_OBJCFLAGS" "$(DEFS_$(BUILDTYPE)) $(INCS_$(BUILDTYPE))  $(CFLAGS_$(BUILDTYPE)) $(CFLAGS_C_$(BUILDTYPE)) $(CFLAGS_OBJC_$(BUILDTYPE))";
   Assign_for o "GYP_OBJCXXFLAGS" "$(DEFS_$(BUILDTYPE)) $(INCS_$(BUILDTYPE))  $(CFLAGS_$(BUILDTYPE)) $(CFLAGS_CC_$(BUILDTYPE)) $(CFLAGS_OBJCC_$(BUILDTYPE))"].
Definition compile_lines (t : built) : list assignment :=
  (flat_map (lines_for (compile_texts t)) (sorted_configs t) ++
   Assign "OBJS" (write_list quote_if_necessary "" (map (fun c => objectify (target_of t) (absolutify (target_of t) (object_name c))) (compiled (target_of t)))) ::
   match compiled (target_of t) with [] => [] | _ => object_lines t end)%list.
(** 1741-1748 *)
Definition link_texts (c : config) : list (string * string) :=
  [("LDFLAGS_", write_list quote_if_necessary "" (ldflags c ++ map (append "-L") (library_dirs c))%list);
   ("LIBTOOLFLAGS_", write_list quote_if_necessary "" (libtoolflags c))].
(** 1706-1766, and 2143 for the target itself *)
Definition binary_lines (t : built) : list assignment :=
  [Assign_for [binary_of t] "GYP_LDFLAGS" "$(LDFLAGS_$(BUILDTYPE))";
   Assign_for [binary_of t] "LIBS" "$(LIBS)";
   Assign_for [binary_of t] "GYP_LIBTOOLFLAGS" "$(LIBTOOLFLAGS_$(BUILDTYPE))";
   Assign_for [binary_of t] "TOOLSET" "$(TOOLSET)"].
Definition link_lines (t : built) : list assignment :=
  match type (target_of t) with
  | None_ => []
  | _ => (flat_map (lines_for link_texts) (sorted_configs t) ++ Assign "LIBS" (write_list quote_if_necessary "" (libraries t)) :: binary_lines t)%list
  end.
(** 888-889, 928-943, 957 *)
Definition target_lines (t : built) : list assignment :=
  (Assign "TOOLSET" (toolset (target_of t)) :: Assign "TARGET" (target_name (target_of t)) ::
   (match all_sources (target_of t) with [] => [] | _ => compile_lines t end) ++ link_lines t)%list.
Definition all_lines (m : Model_Xcode.machine) (ps : list project) : option (list assignment) :=
  match map_some (prepare m) ps with Some ts => Some (flat_map target_lines ts) | None => None end.

(** ** the commands *)
(** 592-596; those for C and C++ are in Model_Flags *)
Definition cmd_objc : string := "$(CC.$(TOOLSET)) $(GYP_OBJCFLAGS) $(DEPFLAGS) -c -o $@ $<".
Definition cmd_objcxx : string := "$(CXX.$(TOOLSET)) $(GYP_OBJCXXFLAGS) $(DEPFLAGS) -c -o $@ $<".
(** 210-222, with INPUTS for the calls of filter-out and filter; of the one for
    archives what is behind "rm -f $@ &&" and Python *)
Definition cmd_link : string := "$(LINK.$(TOOLSET)) $(GYP_LDFLAGS) $(LDFLAGS.$(TOOLSET)) -o ""$@"" $(LD_INPUTS) $(LIBS)".
Definition cmd_solink : string := "$(LINK.$(TOOLSET)) -shared $(GYP_LDFLAGS) $(LDFLAGS.$(TOOLSET)) -o ""$@"" $(LD_INPUTS) $(LIBS)".
Definition cmd_solink_module : string := "$(LINK.$(TOOLSET)) -bundle $(GYP_LDFLAGS) $(LDFLAGS.$(TOOLSET)) -o $@ $(INPUTS) $(LIBS)".
Definition cmd_alink : string := "gyp-mac-tool filter-libtool libtool $(GYP_LIBTOOLFLAGS) -static -o $@ $(INPUTS)".
Definition link_command (ty : kind) : option string :=
  match ty with
  | Executable => Some cmd_link
  | Shared_library => Some cmd_solink
  | Loadable_module => Some cmd_solink_module
  | Static_library => Some cmd_alink
  | None_ => None
  end.
