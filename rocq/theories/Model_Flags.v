(** Model of the variables for compilers and linkers in a generated Makefile:
    gyp/pylib/gyp/generator/make.py:2070-2081 (WriteList), 729-739
    (QuoteIfNecessary, replace_sep), 888-889, 1397-1438 and 1475-1496
    (WriteSources), 1706-1760 (WriteTarget), 2143 (WriteMakeRule, for the target
    itself).  For flavor linux, so without Xcode's settings and precompiled headers
    (GetInclude gives ""), and not for Windows, where replace_sep would do
    something.

    A line of the Makefile is given as the variable it sets and the text behind
    ":=", with the files it is set for if it is target-specific; those are given as
    in Model_Writer, where $(OBJS) is replaced by what it stands for. *)
From Verif Require Import Lib Str Model_Path Model_Memo Model_Quote Model_Writer.
Local Open Scope string_scope.

(** The parts of a configuration that are used; a list that is not there is empty
    (config.get(...) of None is written like an empty list). *)
Record config := { defines : list string; include_dirs : list string; cflags : list string; cflags_c : list string; cflags_cc : list string; ldflags : list string; library_dirs : list string }.
Record built := { target_of : target; configs : list (string * config); libraries : list string; deps_of : list string }.
Inductive assignment := Assign (variable text : string) | Assign_for (files : list string) (variable text : string).

(** 729-734 *)
Definition quote_if_necessary (s : string) : string :=
  if has_char dquote s then str1 dquote ++ replace1 dquote (String backslash (str1 dquote)) s ++ str1 dquote else s.
(** 2070-2081: WriteList, the text behind ":=" *)
Definition write_list (quoter : string -> string) (prefix : string) (l : list string) : string :=
  match l with
  | [] => ""
  | _ => continuation ++ join_with continuation (map (fun v => quoter (prefix ++ v)) l)
  end.

(** sorted(configs.keys()); a dict, so the first of two entries is the one *)
Definition sorted_configs (t : built) : list (string * config) :=
  flat_map (fun n => match assoc n (configs t) with Some c => [(n, c)] | None => [] end) (sort (map fst (configs t))).

(** 1397-1434 *)
Definition config_lines (t : built) (nc : string * config) : list assignment :=
  let '(n, c) := nc in
  [Assign ("DEFS_" ++ n) (write_list escape_cpp_define "-D" (defines c));
   Assign ("CFLAGS_" ++ n) (write_list quote_if_necessary "" (cflags c));
   Assign ("CFLAGS_C_" ++ n) (write_list quote_if_necessary "" (cflags_c c));
   Assign ("CFLAGS_CC_" ++ n) (write_list quote_if_necessary "" (cflags_cc c));
   Assign ("INCS_" ++ n) (write_list quote_if_necessary "-I" (map (fun i => sourceify (absolutify (target_of t) i)) (include_dirs c)))].
(** 1436-1438, 1475-1496 *)
Definition compile_lines (t : built) : list assignment :=
  (flat_map (config_lines t) (sorted_configs t) ++
   Assign "OBJS" (write_list quote_if_necessary "" (map (fun c => objectify (target_of t) (absolutify (target_of t) (object_name c))) (compiled (target_of t)))) ::
   match compiled (target_of t) with
   | [] => []
   | _ =>
     [Assign_for (objects (target_of t)) "TOOLSET" "$(TOOLSET)";
      Assign_for (objects (target_of t)) "GYP_CFLAGS" "$(DEFS_$(BUILDTYPE)) $(INCS_$(BUILDTYPE))  $(CFLAGS_$(BUILDTYPE)) $(CFLAGS_C_$(BUILDTYPE))";
      Assign_for (objects (target_of t)) "GYP_CXXFLAGS" "$(DEFS_$(BUILDTYPE)) $(INCS_$(BUILDTYPE))  $(CFLAGS_$(BUILDTYPE)) $(CFLAGS_CC_$(BUILDTYPE))"]
   end)%list.

(** 1736: dep.endswith(".so") or ".so." in dep *)
Definition shared (f : string) : bool := ends_with ".so" f || contains ".so." f.
(** 1734-1742 *)
Definition link_flags (t : built) (c : config) : list string :=
  (ldflags c ++ (if existsb shared (deps_of t) then ["-Wl,-rpath=\$$ORIGIN/"; "-Wl,-rpath-link=\$(builddir)/"] else []) ++ map (append "-L") (library_dirs c))%list.
(** 1706-1760, and 2143 for the target itself: all but an archive go by WriteDoCmd,
    which has actions, and so do archives *)
Definition link_lines (t : built) : list assignment :=
  match type (target_of t) with
  | None_ => []
  | _ =>
    (map (fun nc => Assign ("LDFLAGS_" ++ fst nc) (write_list quote_if_necessary "" (link_flags t (snd nc)))) (sorted_configs t) ++
     [Assign "LIBS" (write_list quote_if_necessary "" (uniquer string string string_dec (fun x => x) (libraries t)));
      Assign_for [binary (target_of t)] "GYP_LDFLAGS" "$(LDFLAGS_$(BUILDTYPE))";
      Assign_for [binary (target_of t)] "LIBS" "$(LIBS)";
      Assign_for [binary (target_of t)] "TOOLSET" "$(TOOLSET)"])%list
  end.

(** 888-889, 928-943, 957: one target, then the next.  What other lines set is left
    out: the commands of actions and rules, their target-specific obj and builddir,
    LD_INPUTS and all_deps. *)
Definition target_lines (t : built) : list assignment :=
  (Assign "TOOLSET" (toolset (target_of t)) :: Assign "TARGET" (target_name (target_of t)) ::
   (match sources (target_of t) ++ extra_sources (target_of t) with [] => [] | _ => compile_lines t end) ++ link_lines t)%list.
Definition all_lines (ts : list built) : list assignment := flat_map target_lines ts.

(** 472-476 (SHARED_HEADER), the commands for C and C++ *)
Definition cmd_cc : string := "$(CC.$(TOOLSET)) -o $@ $< $(GYP_CFLAGS) $(DEPFLAGS) $(CFLAGS.$(TOOLSET)) -c".
Definition cmd_cxx : string := "$(CXX.$(TOOLSET)) -o $@ $< $(GYP_CXXFLAGS) $(DEPFLAGS) $(CXXFLAGS.$(TOOLSET)) -c".
(** 159, 203, 206 (LINK_COMMANDS_LINUX), 1851-1935: the commands that link, with
    INPUTS for the call of filter-out, which drops FORCE_DO_CMD from the
    prerequisites.  Archives are not made by the flags. *)
Definition cmd_link : string := "$(LINK.$(TOOLSET)) -o $@ $(GYP_LDFLAGS) $(LDFLAGS.$(TOOLSET)) -Wl,--start-group $(LD_INPUTS) $(LIBS) -Wl,--end-group".
Definition cmd_solink : string := "$(LINK.$(TOOLSET)) -o $@ -shared $(GYP_LDFLAGS) $(LDFLAGS.$(TOOLSET)) -Wl,-soname=$(@F) -Wl,--whole-archive $(LD_INPUTS) -Wl,--no-whole-archive $(LIBS)".
Definition cmd_solink_module : string := "$(LINK.$(TOOLSET)) -o $@ -shared $(GYP_LDFLAGS) $(LDFLAGS.$(TOOLSET)) -Wl,-soname=$(@F) -Wl,--start-group $(INPUTS) -Wl,--end-group $(LIBS)".
Definition link_command (t : built) : option string :=
  match type (target_of t) with
  | Executable => Some cmd_link
  | Shared_library => Some cmd_solink
  | Loadable_module => Some cmd_solink_module
  | _ => None
  end.
