{"claims": [
  {"property": "C01", "status": "proved", "theorems": ["C01_build_order", "C01_total"], "note": "RemoveDuplicateDependencies + BuildDependencyList on arbitrary target dicts"},
  {"property": "C02", "status": "proved", "theorems": ["C02_cycle_iff_error", "C02_reported_cycles_are_real", "C02_cycle_named_refuted"], "note": "error iff cyclic; reported cycles are real; that at least one cycle is named is refuted by a witness"},
  {"property": "C03", "status": "proved", "theorems": ["C03_enumeration_independent"], "note": "same graph, any enumeration: same order"},
  {"property": "C04", "status": "proved", "theorems": ["C04_missing_dependency"], "note": "missing dependency error iff some dependency is not a target"},
  {"property": "C05", "status": "proved", "theorems": ["C05_gyp_file_cycles"], "note": "VerifyNoGYPFileCircularDependencies over all target dicts; iff in both directions"},
  {"property": "C06", "status": "proved", "theorems": ["C06_deep_dependencies", "C06_cycle_diverges"], "note": "exact transitive closure in dependency order; divergence on cycles"},
  {"property": "C07", "status": "proved", "theorems": ["C07_imported_dependencies"], "note": "closure of direct dependencies under export"},
  {"property": "C08", "status": "proved", "theorems": ["C08_link_dependencies"], "note": "exact set of link dependencies"},
  {"property": "C09", "status": "proved", "theorems": ["C09_ordered_set"], "note": "heap-level linked list refines the insertion-ordered list for every operation history"},
  {"property": "C10", "status": "proved", "theorems": ["C10_topological_sort", "C10_node_order_irrelevant", "C10_edge_order_refuted"], "note": "correct on all finite graphs; dependence on edge enumeration order shown by witness"},
  {"property": "C100", "status": "proved", "theorems": ["C100_verdict", "C100_one_rule", "C100_all", "C100_nameless_rule_refuted", "C100_action_names_refuted"], "note": "For targets whose rules, sources and actions have the documented types; with other types Python raises its own errors."},
  {"property": "C101", "status": "proved", "theorems": ["C101_listed", "C101_again", "C101_accepted", "C101_taken_over", "C101_collapsed", "C101_directory_refuted", "C101_absolute_refuted", "C101_absolute_twice_refuted", "C101_variable_refuted", "C101_directory", "C101_tree"], "note": "Paths with hierarchical set; no line feeds in paths. Directories, absolute paths and variables in the middle are mishandled: see the refuted theorems."},
  {"property": "C102", "status": "proved", "theorems": ["C102_words", "C102_asked", "C102_nobody", "C102_windows", "C102_macros", "C102_flavor", "C102_platform", "C102_one", "C102_named", "C102_given", "C102_os", "C102_suffix", "C102_same_compiler_refuted", "C102_always_refuted", "C102_flags_refuted", "C102_file_refuted"], "note": "shlex.split is proved to be exactly the grammar in Spec_Flavor. The compiler is a parameter. Not modelled: cmd.exe on Windows, output that is not UTF-8."},
  {"property": "C103", "status": "proved", "theorems": ["C103_digits", "C103_id", "C103_fed", "C103_refused", "C103_by_path", "C103_kept", "C103_apart", "C103_named_refuted", "C103_variable_refuted", "C103_groups_refuted"], "note": "Groups and files of the source group; SHA-1 is a parameter. The ids of groups are not kept apart (C103_groups_refuted)."},
  {"property": "C104", "status": "proved", "theorems": ["C104_one_writer", "C104_done", "C104_all_done", "C104_never_gives_up", "C104_never_waits", "C104_later", "C104_mended", "C104_early_refuted", "C104_killed_refuted", "C104_library_refuted", "C104_gives_up_refuted"], "note": "Downloads that fail and the rollback are in C98. What killed runs leave behind is not noticed by --ensure (C104_killed_refuted, C104_library_refuted)."},
  {"property": "C105", "status": "proved", "theorems": ["C105_written", "C105_dependencies", "C105_kept", "C105_refused", "C105_exported", "C105_regex_refuted", "C105_exclude_wildcard_refuted", "C105_excluded_exported_refuted", "C105_excluded_none_refuted"], "note": "Findings: dependencies cannot be filtered by regular expressions at all; a target that only a wildcard stands for cannot be excluded; settings of an excluded dependency are still exported; an excluded dependency may be missing, except for targets of type none."},
  {"property": "C106", "status": "proved", "theorems": ["C106_restored", "C106_shared_first", "C106_missing", "C106_shared", "C106_action", "C106_endpoint", "C106_endpoint_only", "C106_leak_refuted", "C106_order_refuted", "C106_endpoint_given"], "note": "Values without control characters; letters outside ASCII have no case. Macros in shared directories are not expanded in the model. Findings: with shared directories, those of x86 are searched for x64 too; shared directories are searched in the order of the last target."},
  {"property": "C107", "status": "proved", "theorems": ["C107_printed", "C107_once", "C107_run", "C107_null", "C107_errors_refuted", "C107_indentation_refuted"], "note": "util.format is not modelled. The refuted theorems show what does not hold: an unknown level, such as timing of npm 7 and 8, silences errors too; the indentation of lines is lost."},
  {"property": "C108", "status": "proved", "theorems": ["C108_folders", "C108_items", "C108_identifier_refuted", "C108_once_refuted"], "note": "For projects without rules, and with msvs_list_excluded_files as by default; the file is modelled as names and values, not as XML. The refuted theorems show what does not hold: folders with one last name have one identifier, and a folder is listed once for each file in it."},
  {"property": "C109", "status": "proved", "theorems": ["C109_printed", "C109_ends", "C109_no_command", "C109_null", "C109_message_refuted"], "note": "For commands other than list that give no value; remove gives a string if the version is not installed, and the refuted theorem shows that it is printed without its first letter and with blanks between all others."},
  {"property": "C11", "status": "proved", "theorems": ["C11_prune"], "note": "exact characterisation of what is kept, order, unknown root error"},
  {"property": "C110", "status": "proved", "theorems": ["C110_configured", "C110_override", "C110_selected", "C110_key_error", "C110_script", "C110_setenv", "C110_newer_refuted", "C110_ninja_refuted", "C110_absent", "C110_override_needs", "C110_targets"], "note": "Findings: a value for 2019 or 2022 under the side-by-side keys ends the detection with a KeyError; with the year node-gyp sets, the script of Visual Studio 2017 and later is not found. The registry read through reg.exe, and cygwin, are not modelled."},
  {"property": "C111", "status": "proved", "theorems": ["C111_libtool", "C111_mac_flock", "C111_flock_tool_refuted"], "note": "Finding: the tool for AIX, OS/400 and Solaris drops the exit code of the command. Locks, the decoding of the text and its division into lines are not modelled."},
  {"property": "C112", "status": "proved", "theorems": ["C112_graph", "C112_written", "C112_unknown", "C112_ends"], "note": "The name of the file and its writing as JSON are not modelled."},
  {"property": "C113", "status": "proved", "theorems": ["C113_arguments", "C113_empty_refuted", "C113_backslash_refuted"], "note": "Findings: empty arguments are lost, and a quoted argument that ends with a backslash swallows what follows. The rest of the user file is not modelled."},
  {"property": "C12", "status": "proved", "theorems": ["C12_round_trip", "C12_no_collision", "C12_parse_spelled", "C12_any_name_refuted"], "note": "proved for target names without ':'; the unrestricted statement is refuted (a colon in a target name merges two targets)"},
  {"property": "C13", "status": "proved", "theorems": ["C13_append", "C13_new_items", "C13_prepend", "C13_prepend_repeats_refuted", "C13_members", "C13_append_twice"], "note": "the prepend clause holds when the incoming list does not repeat a once-only item; with a repeat the code puts the item behind old ones (refuted theorem)"},
  {"property": "C14", "status": "proved", "theorems": ["C14_policies", "C14_single_entry", "C14_untouched", "C14_one_key", "C14_keys", "C14_contradictory", "C14_accepts"], "note": ""},
  {"property": "C15", "status": "proved", "theorems": ["C15_kinds", "C15_mismatch", "C15_other_in_dict", "C15_other_in_list", "C15_replace_refuted"], "note": "holds except for a 'key=' entry, which silently replaces a scalar or dict by a list (refuted theorem)"},
  {"property": "C16", "status": "proved", "theorems": ["C16_partition", "C16_split_nothing_lost", "C16_filter_keys_gone", "C16_others_unchanged", "C16_terminates", "C16_filtered_filter_refuted"], "note": "Regular expression search and compilation are oracles. Holds when no filter is applied to a filter list; C16_filtered_filter_refuted shows the KeyError otherwise."},
  {"property": "C17", "status": "proved", "theorems": ["C16_partition", "C17_last_match", "C17_no_match"], "note": "C16_partition gives the exact characterisation; C17_* read it off."},
  {"property": "C18", "status": "proved", "theorems": ["C18_first_true"], "note": "Variable expansion and Python expression evaluation are oracles."},
  {"property": "C19", "status": "proved", "theorems": ["C19_routes", "C19_own_wins", "C19_inherited", "C19_terminates", "C19_set_up"], "note": "inherit_from given as a list; non_configuration_keys and invalid_configuration_keys are parameters"},
  {"property": "C20", "status": "proved", "theorems": ["C20_expanded", "C20_idempotent", "C20_terminates", "C20_string_refuted"], "note": "toolsets given as lists; a string is taken letter by letter (refuted)"},
  {"property": "C21", "status": "proved", "theorems": ["C21_closure", "C21_total"], "note": "aux_data given as the included list of each file"},
  {"property": "C22", "status": "proved", "theorems": ["C22_outcome", "C22_once", "C22_no_deadlock", "C22_terminates", "C22_sequential", "C22_same_data", "C22_no_files_refuted"], "note": "small-step model of main thread, worker pool and callbacks; a worker never dies silently; loading one file is a function of the file; C22_no_files_refuted: with no build files the program crashes"},
  {"property": "C23", "status": "proved", "theorems": ["C23_path_section"], "note": ""},
  {"property": "C24", "status": "proved", "theorems": ["C24_shape", "C24_round_trip"], "note": "ASCII strings"},
  {"property": "C25", "status": "proved", "theorems": ["C25_group", "C25_failure"], "note": ""},
  {"property": "C26", "status": "proved", "theorems": ["C26_relative_path", "C26_relative_path_leads", "C26_invert_leads_back", "C26_invert_normalises", "C26_invert_docstring_refuted", "C26_unrelative", "C26_fix_if_relative"], "note": "POSIX; realpath is a parameter in C26_relative_path; the docstring claim of InvertRelativePath is refuted for paths with '..' and proved for the rest"},
  {"property": "C27", "status": "proved", "theorems": ["C27_posix_argument", "C27_posix_literal", "C27_posix_list", "C27_make_argument", "C27_ninja_argument", "C27_ninja_backslash_refuted", "C27_ninja_newline_refuted"], "note": "The shell reader gives up at any unquoted special character, so success means nothing special happens. Ninja's quoting leaves backslashes and a final newline unquoted: refuted there."},
  {"property": "C28", "status": "proved", "theorems": ["C28_defines", "C28_define", "C28_ninja_define", "C28_hash_refuted", "C28_newline_refuted"], "note": "For every define without newline and without backslash-hash; outside that the code cuts the define off (refuted)."},
  {"property": "C29", "status": "proved", "theorems": ["C29_c_string", "C29_trigraphs", "C29_trigraphs_refuted"], "note": "All byte strings; trigraphs treated separately."},
  {"property": "C30", "status": "proved", "theorems": ["C30_lines", "C30_path", "C30_path_literal", "C30_build", "C30_dollars_refuted", "C30_dollar_colon_refuted", "C30_bar_refuted", "C30_final_dollar_refuted", "C30_two_spaces_refuted"], "note": "For all texts, paths, widths and indents under the stated conditions; the excluded inputs are refuted by witnesses."},
  {"property": "C31", "status": "proved", "theorems": ["C31_round_trip", "C31_text", "C31_value", "C31_tab_refuted"], "note": "Tab in an attribute value is refuted: read back as a space."},
  {"property": "C32", "status": "proved", "theorems": ["C32_argument", "C32_list", "C32_trailing_refuted", "C32_swallow_refuted", "C32_percent_refuted"], "note": "os.path.normpath is a parameter. Refuted for arguments ending in a backslash and for percent signs read without a batch interpreter."},
  {"property": "C33", "status": "proved", "theorems": ["C33_comparisons", "C33_total_order"], "note": "All six comparison operators on the keys built by _cmpkey, with Python's tuple comparison and the reflected methods of the infinities; versions with normalised letters, as parsing produces them."},
  {"property": "C34", "status": "proved", "theorems": ["C34_list", "C34_table", "C34_whole", "C34_pieces", "C34_sources", "C34_names", "C34_clash_refuted"], "note": "Assumes no target is named like a piece (C34_clash_refuted shows the code loses sources otherwise) and non-negative shard counts."},
  {"property": "C35", "status": "proved", "theorems": ["C35_tests"], "note": "for any acyclic target table and any set-iteration orders; the changed predicate (which sources/build files changed) is a parameter"},
  {"property": "C36", "status": "proved", "theorems": ["C36_atomic", "C36_untouched", "C36_done", "C36_raised", "C36_windows_refuted", "C36_write_refuted"], "note": "Crash of the process, not of the machine; permissions and other processes are not modelled"},
  {"property": "C37", "status": "proved", "theorems": ["C37_installed", "C37_failed", "C37_skips", "C37_succeeds", "C37_history", "C37_killed_before_comparison_refuted", "C37_killed_reinstalling_refuted", "C37_killed_copying_refuted", "C37_failure_removes_refuted", "C37_hidden_checksum_refuted", "C37_left_overs_refuted", "C37_busy_refuted", "C37_iojs_refuted"], "note": "Histories of whole runs and kills; the refuted theorems show the kill points and inputs outside the claim where the code does not keep it."},
  {"property": "C38", "status": "proved", "theorems": ["C38_parse", "C38_unique", "C38_inherited_refuted"], "note": "nopt is not modelled: the input is the positional arguments it leaves"},
  {"property": "C39", "status": "proved", "theorems": ["C39_run", "C39_rebuild", "C39_rebuild_last_refuted"], "note": "How each command ends is an oracle over the history"},
  {"property": "C40", "status": "proved", "theorems": ["C40_first", "C40_fails", "C40_exit_status_refuted"], "note": "The semver test of the version text is a parameter; trim is modelled for ASCII white space"},
  {"property": "C41", "status": "proved", "theorems": ["C41_list", "C41_found", "C41_fails", "C41_zero_refuted"], "note": "PowerShell, registry, file system and path.win32 functions are parameters; numbers are exact integers"},
  {"property": "C42", "status": "proved", "theorems": ["C42_stringified", "C42_no_integers", "C42_nothing_to_do"], "note": "dictionaries with string keys"},
  {"property": "C43", "status": "proved", "theorems": ["C43_value", "C43_rejects", "C43_reason"], "note": "syntax trees; the parser is not modelled"},
  {"property": "C44", "status": "proved", "theorems": ["C44_wildcards", "C44_star_name_refuted"], "note": "index loop refined to per-entry replacement; \"no wildcard remains\" needs no target called \"*\" (refuted otherwise)"},
  {"property": "C45", "status": "proved", "theorems": ["C45_unify", "C45_filter", "C45_uniquer"], "note": ""},
  {"property": "C46", "status": "proved", "theorems": ["C46_loaded", "C46_set_overrides", "C46_default_respects", "C46_default_applies"], "note": "Complete characterisation of every variable's value after loading a section."},
  {"property": "C47", "status": "proved", "theorems": ["C47_graph", "C47_all", "C47_direct", "C47_link", "C47_taken_out", "C47_order", "C47_left_over_refuted"], "note": "Under the hypothesis that settings blocks do not rewrite their own key or the keys deciding who receives settings. C47_left_over_refuted: a later kind of block can bring back an earlier kind, which is then published to nobody."},
  {"property": "C48", "status": "proved", "theorems": ["C48_colliding_targets"], "note": "iff in both directions"},
  {"property": "C49", "status": "proved", "theorems": ["C49_adjust_static_libraries"], "note": "full effect of AdjustStaticLibraryDependencies on every target"},
  {"property": "C50", "status": "proved", "theorems": ["C50_memoize", "C50_condition_cache"], "note": "function assumed pure; aliasing of mutable results not modelled"},
  {"property": "C51", "status": "proved", "theorems": ["C51_plain", "C51_references", "C51_undefined", "C51_command_fails", "C51_list", "C51_words", "C51_command_words", "C51_unambiguous", "C51_numeric_name_refuted", "C51_bracket_refuted", "C51_self_refuted", "C51_leading_space_refuted", "C51_context_refuted"], "note": "Model of ExpandVariables and its regular expressions; commands, shlex and file writing are parameters. Findings: numeric names and names with unmatched brackets cannot be referred to, self reference never ends, a space before a command changes its meaning, list or text context can depend on other variables."},
  {"property": "C52", "status": "proved", "theorems": ["C52_duplicate_targets"], "note": "iff in both directions"},
  {"property": "C53", "status": "proved", "theorems": ["C53_make_path_relative", "C53_backslash_refuted"], "note": "for items without backslashes; refuted for items with one (replace of backslash by slash)"},
  {"property": "C54", "status": "proved", "theorems": ["C54_resolve_target", "C54_resolve_canonical", "C54_absolute_refuted"], "note": "canonical spelling for references that are not absolute; refuted when one is absolute"},
  {"property": "C55", "status": "proved", "theorems": ["C55_copy_dict", "C55_copy_list", "C55_repeated_items_refuted", "C55_filter_pair_refuted"], "note": "the two refuted theorems show what a copy loses outside the stated condition"},
  {"property": "C56", "status": "proved", "theorems": ["C56_no_section_left", "C56_suffix_refuted"], "note": "Needs that no key is 'conditions' plus a policy suffix; C56_suffix_refuted shows that such a section comes back unevaluated."},
  {"property": "C57", "status": "proved", "theorems": ["C57_terminates", "C57_no_deeper"], "note": "For an expansion oracle that terminates and yields flat lists."},
  {"property": "C58", "status": "proved", "theorems": ["C58_compile", "C58_order_refuted"], "note": "C58_order_refuted: the compile targets also depend on the order of targets"},
  {"property": "C59", "status": "proved", "theorems": ["C59_parse", "C59_version", "C59_urls", "C59_name", "C59_running", "C59_directories", "C59_fallback", "C59_fallback_refuted", "C59_mirror_refuted", "C59_minimum"], "note": "The part on the second attempt holds only when the arguments name no version, and the part on libraries only for sites without /win-ARCH/ in their address; both failures are proved. url and path are modelled for addresses in normal form."},
  {"property": "C60", "status": "proved", "theorems": ["C60_remove", "C60_undoes", "C60_iojs_refuted", "C60_outside_refuted"], "note": "An argument that is no version is used as a path and can lead outside; releases kept under iojs- are not found."},
  {"property": "C61", "status": "proved", "theorems": ["C61_build", "C61_gyp", "C61_null_refuted"], "note": "A null anywhere in the configuration makes the file unreadable for gyp."},
  {"property": "C62", "status": "proved", "theorems": ["C62_same", "C62_apostrophe_refuted", "C62_hash_refuted"], "note": "Holds for the plain style; two refutations for other texts that Python accepts."},
  {"property": "C63", "status": "proved", "theorems": ["C63_options", "C63_variables", "C63_defaults", "C63_rest", "C63_environment", "C63_debug_refuted", "C63_spelling_refuted", "C63_inherited_refuted", "C63_marmasm_refuted"], "note": "Four refutations: debug=false from the environment, two spellings, inherited names, Visual Studio 15.0-15.8."},
  {"property": "C64", "status": "proved", "theorems": ["C64_make", "C64_msbuild", "C64_unconfigured", "C64_configured", "C64_make_reads_unique", "C64_msbuild_reads_unique", "C64_solution_refuted", "C64_windows_make_refuted"], "note": "make and MSBuild command lines are read by small specifications whose readings are unique; refuted for a .sln argument (it becomes a target, and no solution is passed) and for make on Windows (targets get /t:)"},
  {"property": "C65", "status": "proved", "theorems": ["C65_scope", "C65_determined", "C65_neighbours"], "note": "The pass is shown to do what a declarative scoping description says, for every expansion and condition oracle whose list results are flat; the description determines the result when the oracles depend on variables' values only."},
  {"property": "C66", "status": "proved", "theorems": ["C66_command_line", "C66_determined", "C66_unknown_option_refuted", "C66_text_refuted"], "note": "ASCII digits; the search for a depth and ~/.gyp are left out."},
  {"property": "C67", "status": "proved", "theorems": ["C67_configure", "C67_stops", "C67_format_refuted", "C67_dashes_refuted"], "note": "path.resolve, path.join and path.dirname are parameters; resolved paths do not begin with a dash."},
  {"property": "C68", "status": "proved", "theorems": ["C68_regenerates", "C68_arrives", "C68_parallel_refuted", "C68_circular_refuted", "C68_config_dir_refuted", "C68_empty_refuted", "C68_toplevel_refuted", "C68_nodedir_refuted"], "note": "Without symbolic links. Values behind short options are not empty and do not begin with an equals sign (the refutations show why); whether worker processes and the check for circular build files are used is lost."},
  {"property": "C69", "status": "proved", "theorems": ["C69_headers", "C69_version", "C69_dollar_refuted", "C69_user_refuted", "C69_visual_studio", "C69_joined_refuted", "C69_node_directory", "C69_layouts", "C69_local_npm_refuted"], "note": "Texts are ASCII. Assumes a home directory without dollar signs, without which it is refuted; refuted too: ~user, -fmake on Windows, a local copy of npm."},
  {"property": "C70", "status": "proved", "theorems": ["C70_comparison", "C70_recorded"], "note": "Recording assumes a command without number signs and line ends, no blank at the start, no backslash at the end."},
  {"property": "C71", "status": "proved", "theorems": ["C71_incremental", "C71_nothing_twice", "C71_killed_refuted", "C71_killed_in_depfile_refuted", "C71_reverted_refuted", "C71_failed_refuted", "C71_number_sign_refuted", "C71_sign_again_refuted", "C71_no_inputs_refuted"], "note": "Times are never equal; rules with several outputs and postbuilds are not modelled. Refuted when make is killed between a command and its depfile, when a failing command leaves something behind, for number signs in commands and for rules without inputs."},
  {"property": "C72", "status": "proved", "theorems": ["C72_depfile", "C72_pattern_refuted"], "note": "For names without characters special to the shell, sed or make, and target names whose last part, as a pattern, does not fit the start of the target; the refutation shows an object Release.o losing its dependencies."},
  {"property": "C73", "status": "proved", "theorems": ["C73_dependencies_first", "C73_within", "C73_header_only_refuted", "C73_several_outputs_refuted"], "note": "For flavor linux and names without blanks. Dependence through targets that compile or generate something or are of type none; actions and rules with one output; the refutations show why both are needed."},
  {"property": "C74", "status": "proved", "theorems": ["C74_asked"], "note": "For flavor linux. The product's file name must differ from the target's name."},
  {"property": "C75", "status": "proved", "theorems": ["C75_again", "C75_rules_refuted", "C75_archive_refuted", "C75_several_outputs_refuted"], "note": "the reasons are stated without the helpers of the model; rules, static libraries and actions with several outputs are refuted"},
  {"property": "C76", "status": "proved", "theorems": ["C76_incremental", "C76_nothing_twice", "C76_history"], "note": "for projects without what C75 refutes; the build with the written rules is proved equal to the incremental build of C71"},
  {"property": "C77", "status": "proved", "theorems": ["C77_own_command", "C77_names", "C77_same_variable_refuted", "C77_two_targets_refuted"], "note": "for actions with one output; colliding names are refuted"},
  {"property": "C78", "status": "proved", "theorems": ["C78_compiled", "C78_nearest", "C78_unlisted_refuted", "C78_absolute_refuted", "C78_product_dir_refuted", "C78_apart", "C78_same_object", "C78_same_base_refuted", "C78_generated_refuted", "C78_twin_targets_refuted", "C78_prebuilt_refuted"], "note": "make's choice among pattern rules is modelled (shortest stem, then order); names without dollar and percent signs. Refuted: unlisted files next to sources may be compiled, absolute sources and sources in PRODUCT_DIR find no rule, same base names share an object."},
  {"property": "C79", "status": "proved", "theorems": ["C79_inputs", "C79_root", "C79_linked", "C79_copies", "C79_one_file"], "note": "file names without blanks and percent signs, copies of files in the tree or with variables in their path"},
  {"property": "C80", "status": "proved", "theorems": ["C80_run", "C80_once", "C80_restored", "C80_own", "C80_word_refuted", "C80_unknown_refuted", "C80_module_refuted", "C80_signal_refuted", "C80_module", "C80_directory"], "note": "What subprocess.run, eval, shlex.split, str of a list, module code and the import of a file do is quantified over; packages are not modelled. The refuted theorems are findings: the word before the parenthesis is not in the cache key, modules are found by name only and a command ended by a signal counts as a success."},
  {"property": "C81", "status": "proved", "theorems": ["C81_compile", "C81_link", "C81_leak_refuted", "C81_names_refuted", "C81_number_sign_refuted", "C81_include_space_refuted", "C81_libraries_refuted"], "note": "For flavor linux, in terms of a reader of make's variables and of shell words written from their manuals. Flags are of ordinary characters, or contain a double quote and no dollar sign, backquote, backslash or number sign; defines are as in C28. A target that lacks the configuration gets another target's flags, configurations named alike share variables, a number sign in a flag drops the flags after it, an include directory with a space becomes two arguments, and repeated entries of libraries are dropped (refuted)."},
  {"property": "C82", "status": "proved", "theorems": ["C82_compiled", "C82_spelling", "C82_only", "C82_objects", "C82_written", "C82_twice_refuted", "C82_input_refuted", "C82_rule_outputs_refuted", "C82_same_object_refuted", "C82_precompiled_refuted", "C82_escape_refuted", "C82_rule_case_refuted"], "note": "For MSBuild and relative paths with no macros in them, for .gyp files at the top and in subdirectories. The _refuted theorems show what does not hold: a source that an action also reads is not compiled, one listed a second time by way of the directory above is compiled twice, outputs of rules are looked for in the wrong place, files above and in a directory share an object, an excluded precompiled source stops gyp, percent signs are not escaped, rules for extensions in capital letters get no files."},
  {"property": "C83", "status": "proved", "theorems": ["C83_once", "C83_order"], "note": "Command lines of actions are taken as given (one line, no percent sign, no dollar sign). Copying of directories, failures of copies, actions without inputs below the top directory and one file in two spellings are refuted: C83_directory_refuted, C83_directory_place_refuted, C83_copy_failure_refuted, C83_no_inputs_refuted, C83_spelling_refuted."},
  {"property": "C84", "status": "proved", "theorems": ["C84_arguments"], "note": "For msvs_cygwin_shell 0, as node's common.gypi sets it. Arguments with double quotes, options that end in a backslash, addresses and programs given by a path are refuted: C84_quotes_refuted, C84_backslash_refuted, C84_address_refuted, C84_program_refuted."},
  {"property": "C85", "status": "proved", "theorems": ["C85_defines", "C85_directories", "C85_libraries", "C85_options"], "note": "Refuted for the code: C85_string_refuted (a define with a backslash before a quote is a TypeError), C85_version_refuted (-lfoo-1.2 gets no .lib), C85_library_path_refuted (relative libraries are looked for from the project), C85_root_refuted (the root of a drive), C85_text_refuted (AdditionalDependencies as one text is a TypeError)."},
  {"property": "C86", "status": "proved", "theorems": ["C86_properties", "C86_group", "C86_product", "C86_extension_refuted", "C86_librarian_refuted", "C86_importlibrary_refuted", "C86_spelling_refuted", "C86_product_dir_refuted"], "note": "Values after MSBuild's evaluation, by a specification of it; the product for the default directories and a plain name. The refuted theorems are findings."},
  {"property": "C87", "status": "proved", "theorems": ["C87_labels", "C87_switches", "C87_texts", "C87_numbers", "C87_culture", "C87_new", "C87_unsigned", "C87_preprocessed", "C87_warnings", "C87_crash", "C87_silent", "C87_only", "C87_written", "C87_unsigned_refuted", "C87_options_refuted", "C87_list_refuted", "C87_precompiled_refuted", "C87_importlibrary_refuted", "C87_dependencies_refuted", "C87_documented", "C87_appended", "C87_known"], "note": "The refuted theorems show what does not hold: /J is lost if options are given behind DefaultCharIsUnsigned, and a list of options is then written as Python prints it; a list for a switch ends in a TypeError; UsePrecompiledHeader always does, and IgnoreImportLibrary in every addon; the linker and the librarian share LinkLibraryDependencies."},
  {"property": "C88", "status": "proved", "theorems": ["C88_projects", "C88_configurations", "C88_cross", "C88_place", "C88_guid", "C88_order_refuted", "C88_underscore_refuted", "C88_host_refuted", "C88_lacking_refuted", "C88_guid_accepted"], "note": "The refuted theorems show what does not hold: the order of configurations depends on Python's sets; a configuration with an underscore has another name in the project than in the solution; a host target replaces a target of its name with _host; configurations are enabled for projects that lack them."},
  {"property": "C89", "status": "proved", "theorems": ["C89_compile", "C89_language", "C89_product", "C89_link", "C89_libraries", "C89_conditional", "C89_string_refuted", "C89_archs_refuted", "C89_arch_string_refuted", "C89_per_target_refuted", "C89_separate_refuted", "C89_section_refuted", "C89_sdks_refuted"], "note": "Refuted for the code: a string where a list belongs becomes letters; two architectures, or one given as a string, give -arch i386; GetPerTargetSettings keeps keys that other configurations lack; files of linker flags in items of their own or behind a -sectcreate with more flags are not found; different SDKs per configuration fail if there are libraries."},
  {"property": "C90", "status": "proved", "theorems": ["C90_dependencies_first", "C90_generated_before_compiling", "C90_linking", "C90_all", "C90_linker", "C90_rules_refuted", "C90_target_all_refuted", "C90_no_output_refuted", "C90_linked_with", "C90_product"], "note": "For flavor linux. Hypotheses: the targets come in the order C01 gives, and ninja accepts the statements (each has an output, no output twice). Findings: rules behind one with many inputs and sources do not wait for the dependencies; a target named all; actions without outputs."},
  {"property": "C91", "status": "proved", "theorems": ["C91_action", "C91_rule", "C91_names", "C91_targets", "C91_dollar_refuted", "C91_directory_refuted", "C91_source_refuted", "C91_names_refuted"], "note": "Flavor linux. The commands of actions and rules; what ninja and the shell make of the file is in Spec_NinjaAction and Spec_Quote. Excluded and refuted: dollar signs, a directory with special characters, double quotes in names of sources, and names that differ only in other characters."},
  {"property": "C92", "status": "proved", "theorems": ["C92_compiled", "C92_own_object", "C92_targets", "C92_inside", "C92_extension_refuted", "C92_product_dir_refuted", "C92_dots_refuted", "C92_configurations_refuted"], "note": "Flavor linux. Places are those of Spec_Path, without symbolic links. Excluded and refuted: sources that differ in the extension, a generated source with the name of one of the tree, dots in names of targets, and sources two directories above the top."},
  {"property": "C93", "status": "proved", "theorems": ["C93_all", "C93_only", "C93_no_file", "C93_null_refuted"], "note": "The regular expression is modelled as the search for the two marks. C93_null_refuted: a file without certificates silently means the certificates of Node.js."},
  {"property": "C94", "status": "proved", "theorems": ["C94_found", "C94_missing", "C94_only"], "note": "The regular expression is modelled with its back-tracking. Names that begin with h are left out of C94_found, for the key's own line begins with HKEY_."},
  {"property": "C95", "status": "proved", "theorems": ["C95_normal", "C95_order", "C95_expand", "C95_bare_refuted"], "note": "The texts of the variables that a target always sets are arbitrary. C95_bare_refuted: $X is replaced also where a longer name stands."},
  {"property": "C96", "status": "proved", "theorems": ["C96_compile", "C96_link", "C96_objc_refuted", "C96_objects", "C96_binary"], "note": "make and the shell are as in Spec_Flags; bundles, postbuilds and precompiled headers are left out. C96_objc_refuted: the user's CFLAGS are not given for Objective-C."},
  {"property": "C97", "status": "proved", "theorems": ["C97_value", "C97_file", "C97_determined", "C97_written", "C97_return_refuted", "C97_newline_refuted", "C97_slashes_refuted"], "note": "Proved for every text except those of the three refuted statements, which show what happens to these. The reader is specified from how CoreFoundation reads property lists in the old style. Which objects a project has, and their ids, are given."},
  {"property": "C98", "status": "proved", "theorems": ["C98_done", "C98_all_done", "C98_never_fails", "C98_never_waits", "C98_later", "C98_emptied_refuted", "C98_rollback_refuted"], "note": "For runs that all get the genuine archive; the refuted statements show what the code does not guarantee: a header may be rewritten after a run is done, and a failing run removes what another has installed. Not on Windows, where files are copied from a temporary directory."},
  {"property": "C99", "status": "proved", "theorems": ["C99_files", "C99_every", "C99_determined", "C99_once", "C99_product_dir_refuted"], "note": "POSIX paths; characters up to code 255; the flags on macOS are what XcodeSettings answers (C96)."}
]}
