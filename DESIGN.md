# Formal model of node-gyp: design

The model is written in Rocq (Coq 8.16.1), in `rocq/theories/`, logical name
`Verif`.  It is a set of shallow, executable Gallina functions that follow the
functions of `/repo` branch by branch.  Python/JavaScript exceptions are
values.  Loops are structural recursion or folds; a loop without a structural
argument takes fuel, returns an explicit `OutOfFuel` outcome, and a theorem
rules that outcome out for the fuel actually used.

File naming, per area `X`:

* `Model_X.v` - definitions only, each citing `file:lines`;
* `Spec_X.v` - the small independent specification (relations such as
  "reachable", "cycle", "sublist", reader automata such as a POSIX shell word
  lexer), not using the model's helpers;
* `Proof_X.v` - lemmas;
* `Props_X.v` - only property theorems, each closed by `exact`, followed by
  `Print Assumptions`, with a non-vacuity `Example` beside it.

## Trusted base

* Coq's kernel (8.16.1), including `vm_compute`, which is used for concrete
  examples and for finite sweeps over the 256 bytes.
* Axioms: none.  `Print Assumptions` stands under every property theorem and
  prints "Closed under the global context" for each of them.  `vcheck` also
  lists seven constants `Coq.ssr.ssrunder.Under_rel.*` (`Under_rel`,
  `Under_rel_from_rel`, `Under_relE`, `Over_rel`, `over_rel`, `over_rel_done`,
  `under_rel_done`): these are fields of a sealed module of the standard
  library's own `ssrunder`, loaded with it; no theorem here depends on them.
* The reading of the source: the code is not run; the tie between code and
  model is the line citation on every definition.
* Behaviour of things outside the repo that the model takes as parameters
  (universally quantified in the theorems, so nothing is assumed about them
  unless a hypothesis says so): regular-expression matching of user-supplied
  patterns, `eval` of condition expressions, file-system contents, child
  process results, network download results, the order in which worker
  processes finish, PowerShell and registry answers.
* Readers used as specification (POSIX shell quoting, GNU make variable
  expansion and command line, ninja lexer, C lexer, XML attribute decoding,
  CommandLineToArgvW, MSBuild's command line, JSON, Python literals) are our
  transcription of those tools' documented rules.
* Library functions the code calls and the model contains as our transcription:
  Python's `posixpath`, `str` methods, `int`, dict and list semantics;
  JavaScript's `Array`/`String` methods, `parseInt`, property lookup (including
  inherited names); semver's parsing and comparison as far as they are used.
* Strings are byte strings.  Where a function depends on characters beyond
  ASCII, the comment on its model says what is left out.

## Plan per property

| id | model | how it is proved |
|----|-------|------------------|
| C01-C04 | `DependencyGraphNode.FlattenToList` and `BuildDependencyList` over association lists of targets; worklist with fuel | worklist invariant (everything in the flat list has its dependencies before it; every ready node is in the list or on the worklist); completeness by a minimal-element argument; permutation invariance by showing that sorting makes the inputs equal |
| C05 | derive the file graph from targets, reuse FlattenToList | reduction to C01/C02 |
| C06 | `DeepDependencies` post-order recursion with fuel | induction on the fuel / on the well-founded order given by the flat list |
| C07 | `_AddImportedDependencies` worklist | worklist invariant, measure = targets not yet in list |
| C08 | `_LinkDependenciesInternal` | path characterisation |
| C09 | `OrderedSet` doubly linked list as a map of (prev, next) cells | refinement to a duplicate-free list through a representation predicate |
| C10 | `TopologicallySorted` DFS with visiting set | DFS invariant |
| C11 | `PruneUnwantedTargets` | from C06 |
| C12 | `QualifiedTarget`, `ParseQualifiedTarget` on strings | round trip by rsplit lemmas |
| C13-C15 | gyp values as a nested inductive; `MergeLists`, `MergeDicts` | induction over values; closed-form specifications of the resulting list |
| C16-C17 | `ProcessListFiltersInDict` with regex oracle | fold invariant on the action array |
| C18 | `EvalCondition` | induction over the list |
| C19 | `MergeConfigWithInheritance` | recursion with visited list; measure |
| C20 | `ProcessToolsetsInDict` | induction |
| C21 | `GetIncludedBuildFiles` | DFS invariant |
| C22 | small-step transition system of the master and workers; any completion order | inductive invariant, termination measure, confluence of the final set |
| C23, C24, C25 | direct | agreement with separate grammar/regex specifications for every string |
| C26 | `RelativePath` on component lists | normalisation of joined path |
| C27-C32 | the escape functions, and readers as specification | induction over the string with a 256-value sweep for per-byte facts |
| C33 | `_cmpkey` keys and tuple comparison | order laws for lexicographic products |
| C34 | `ShardTargets` | arithmetic on list indices |
| C35 | analyzer memoised traversal | invariant: visited nodes carry their final answer |
| C36 | file-system states, every prefix of the operation sequence | invariants over prefixes |
| C37 | `install` as a sequence of effects on the dev directory with crash points | the full statement is expected to fail (installVersion is written before checksums are compared): refutation plus the part that holds |
| C38-C41 | the JavaScript functions with probe outcomes as parameters | induction over lists |
| C42, C43 | nested values / literal trees | induction |
| C44, C45, C46 | list functions | induction |
| C47 | `DoDependentSettings` | from C06, C07 |
| C48 | `VerifyNoCollidingTargets` | fold invariant |
| C49 | `AdjustStaticLibraryDependencies` | per-target characterisation |
| C50 | memoise as state machine | invariant over call histories |
| C51 | `ExpandVariables`: the scan for references, nesting, list and command forms; commands and pymod_do_main as an oracle (they are C80) | a declarative relation "text stands for value" with its own grammar; soundness, completeness and determinism against it |
| C52 | `BuildTargetsDict` | fold invariant |
| C53, C54 | `MakePathRelative`, `ResolveTarget` over posixpath | normalisation lemmas of C26 |
| C55 | merging into an empty list or dict | induction over values |
| C56, C57 | `ProcessVariablesAndConditionsInDict/List` with expansion and evaluation as oracles; fuel | depth measure: no fuel runs out, no section is left |
| C58 | analyzer `_GetCompileTargets` | path characterisation over the flat order |
| C59, C60 | `process-release.js`, version handling of `install.js`, `remove.js`; the part of semver they use | declarative version grammar, URL and path specifications |
| C61-C63 | `JSON.stringify/parse`, Python literal reading, `create-config-gypi.js`, options from the environment | writer/reader round trip; provenance relation for every entry |
| C64 | `build.js`; make's and MSBuild's reading of a command line as specification | the arguments are read back as exactly the request |
| C65 | the pass of C56 again | a big-step description without fuel of what is seen where; refinement, determinism, non-interference of neighbours |
| C66 | gyp_main's options and argparse's reading of them | a grammar of command lines and what each says; equivalence by induction on the line |
| C67 | the arguments configure.js adds | the run of the user's arguments against the run of all of them, through C66 |
| C68 | RegenerateFlags and the make generator's rule for the Makefile itself | reading the written flags back by C66; paths by C26; make and the shell by C27 |
| C69 | getNodeDir, the choice of Visual Studio, findNodeDirectory | a specification of the lines of node_version.h met by the matcher; the choices as equivalences; witnesses against the broader claims |
| C70 | command_changed and the recorded command in the generated Makefile | lengths of repeated texts; reading the line back with the make reader of C28 |
| C71 | do_cmd, prerequisites, depfiles and make's decisions, as transitions of files with times | an invariant over histories: every target is what its recorded command gives or is seen to be stale; simulation of a build from scratch |
| C72 | the sed and grep pipelines of fixup_dep, and how make reads the result | induction on the layout of the listing, for the rule of the target and for the rules of single files |
| C73 | MakefileWriter.Write and what it calls, as a function from the targets to the rules of the Makefile; schedules as orders that keep prerequisites first | an edge in the rules for every pair that must be ordered; composition of edges along chains of targets |
| C74 | the same rules; what make makes as the closure over prerequisites | paths from all and from the name of the target |
| C75 | the rules of the Makefile taken together per file, which depfiles are read, when make runs a recipe and when do_cmd runs the command | FORCE_DO_CMD and membership in all_deps for every kind of command, then the comparison of C70 |
| C76 | building: going through the files in any order allowed, running the recipes | the rules with recipes are exactly one per file of all_deps; the translation to the rules of C71 is good, with the ways of C73 for what is read; then C71 |
| C77 | the definitions of cmd_NAME with later ones replacing earlier ones | lookup in a list with distinct keys; injectivity of the variable name on word characters |
| C78 | the pattern rules for objects and GNU make's choice among them (file present, shortest stem, first) | shapes of object and source names by text replacement and normpath lemmas; uniqueness of extensions |
| C79 | the rules of Model_Writer for actions, rules, copies and sources | membership in the list of rules; text replacement for names |
| C80 | how a command reference is answered: the cache, subprocess.run and pymod_do_main with the process state around them | the cache agrees with the answers given so far, by induction on the history; determinism of the first answer |
| C81 | the variables of generated Makefiles for compilers and linkers, read by a model of make's variables and shell words | each text of a list is a piece that line joining, comments, expansion and words pass through; lookup in the list of assignments |
| C82 | the item groups of generated .vcxproj files: sources, exclusions, actions and copies, the folder hierarchy and the names of objects, with ntpath and the reading MSBuild gives an item | relative paths have a normal form determined by where they lead; the hierarchy and the groups permute the set of sources; what else could be written as the same file is followed back to the target |
| C83 | Model_Vcxproj: the jobs of actions and copies, grouped by first input, and their scripts; Spec_Custom has MSBuild's unescaping and lists, and a cmd.exe with lines, ampersands, quotes, cd, set ERRORLEVEL and a quantified program for all other commands | grouping is an invariant of the fold over the jobs; the script is split again into its lines by induction, and run by induction on the jobs |
| C84 | Model_Cmdline: the command line of an action, for cmd.exe and for cygwin's bash; Spec_Cmdline reads it as CommandLineToArgvW does | the quoted words are read back by induction on the characters and then on the list; paths by the lemmas for C82 |
| C85 | Model_Tools: the settings of the tools in a project, as appended one after the other (_FinalizeMSBuildSettings) and written (_GetMSBuildToolSettingsSections); Spec_Tools says what a list is read as by MSBuild | each setting is changed by one step only, shown by induction on the steps; the escapes by induction on the characters; directories by the lemmas for C82, those on a drive by normpath walked from its root; the last of equal libraries by induction on the list |
| C86 | Model_Properties: the table of properties with their conditions (_AddConditionalProperty), the group written from it in the order of a topological sort (_GetMSBuildPropertyGroup), and what is put in it for each configuration (_GetMSBuildAttributes, _GetMSBuildConfigurationGlobalProperties); Spec_Properties says how MSBuild evaluates a group: one property after the other, under its condition, with references expanded and names compared without case | the table is characterised by induction on what is added; a value recorded for all configurations is unconditional and the others hold for one each; the topological sort (C22's lemmas) puts what is referred to before what refers to it, so that the values found on evaluation are the final ones; for the product the shape of the group is computed from the steps of C85 |
| C87 | Model_Msvs: the table of MSVSSettings.py row by row (264 settings of 8 tools, with the five kinds of rule and five types of value) and ConvertToMSBuildSettings with its warnings; Spec_Msvs has what the numbers stand for by the documentation of Visual C++, which settings are called something else, which values a setting may have, and the reasons for warnings | the conversion is one pass over all settings; that no two rules change the same setting, but for two named ones, is computed from the table, so that what a setting becomes does not depend on the others; the words are then compared with the documented ones by computation over the table, the types by cases on the value; warnings and exceptions are characterised exactly by induction; what is written follows with the steps of C85 |
| C88 | Model_Solution: which targets are in the solution of a .gyp file (DeepDependencyTargets, walked in any order), the tree of folders, projects with their paths, GUIDs and overrides of configurations, and the text MSVSSolution.Write makes; Spec_Solution has reachability, qualified names, paths as pieces, where targets are shown and the lines of a project | the walk through the dependencies ends and visits what is reachable (invariant); inserting into the tree, collapsing and sorting keep the projects up to permutation (nested induction on trees); the lines by filters; configurations by the fold of the overrides |
| C89 | Model_Xcode: what xcode_settings of a configuration become for the compilers, the linker and libtool on macOS, the file that is made, its install name and the libraries; the SDK's path, Xcode's version and which files exist are parameters. Spec_Xcode says what is asked for in terms of what is written in the settings: tables of switches, architectures by era and SDK, files in linker flags. Proved as equivalences part by part (compilers), and from the specification to the code (linker, libraries, product). |
| C90 | Model_NinjaBuild: the build statements of every target and of the file that includes them, for flavor linux; an exception is None. Spec_NinjaBuild says what ninja may do with statements (events Begin and Finish of any number of jobs), what a target generates, compiles and links, and what it means that one file is made before another. Proved for one target under an invariant about what is known of those it depends on (Proof_NinjaBuild2), then by induction on the list of targets. |
| C91 | The commands of actions and rules in ninja's files: the model writes the lines, a reader of ninja's lines, variables and the shell's words is the specification; proved by reading what is written, piece by piece. |
| C92 | Model_NinjaBuild's statements for sources; the specification says where a source and its object are, as places on disk, and the proof computes where the paths written lead. |
| C93 | lib/download.js: the texts between the marks as a search with fuel; induction over the certificates of a bundle, and soundness and completeness for any file. |
| C94 | lib/util.js: the regular expression as matchers with continuations, tried at every beginning of a line; induction over the lines before the entry. |
| C95 | xcode_emulation.py: texts as lists of pieces; the regular expressions as scanners; the order from C10's theorem; induction over the sorted list, with the meaning of a text as an inductive relation. |
| C96 | Makefile flags on macOS: the lines of all targets from their settings (Model_FlagsMac over Model_Xcode and Model_Flags), read as make and the shell read them; by the value of each variable when it is used and the words of each flag. |
| C97 | Xcode project files: the text written for values, objects and the file (Model_Pbx), read by a separate reader of property lists (Spec_Pbx); by induction over values with a lemma on what may follow a text, sorting as a permutation, and uniqueness by mutual induction. |
| C98 | Concurrent installs: a transition system with any number of runs on one directory, each file written piece by piece at an offset (Model_Race); by an invariant on every byte of every header (right, or some run is still to write it). |
| C99 | The compilation database: entries per configuration, the command line and the JSON text (Model_CompileCommands); read back with the JSON reader of C61 and the shell reader of C27, the files named by walking paths (C26). |
| C100 | The checks at the end of loading, with their messages, and the sources of rules (Model_Validate); each check is compared with a declarative statement of validity, by induction over rules, sources, actions and targets. |
| C101 | AddOrGetFileByPath and TakeOverOnlyChild as functions on trees of groups and files; an independent reading of where Xcode looks for each file; by induction on the path's components with an invariant on the tree (unique keys, no empty groups, no plain files beside a localization), and by induction on trees for taking over. |
| C102 | Model shlex.split, the choice of the compiler, the reading of its macros, the flavors and the variables they set; the compiler is a quantified function. Prove the splitting equivalent to a grammar of words, the command and the macros equivalent to small specifications, and from these which flavor is found. |
| C103 | Model: Hashables of groups and files, the bytes fed to SHA-1 (a parameter), the folding of the digest, the ids of a whole tree, the check for collisions. Proof: the bytes fed determine the texts (lengths are in characters, so UTF-8 is needed); taking over only children keeps the concatenated path components by induction on the tree; ids of files are then a function of the path. |
| C104 | Model: the runs as a transition system on one directory; a copy opens its target for itself, a copy to an open file is EBUSY. Proof: an invariant that every file a run has passed is whole or open in some run; it is stable under all steps. Killed runs are a further step; counterexamples are executions with it. |
| C105 | The passes over the targets' lists as one function on a table of targets, with items that are strings or not; the spec says what a written name means and which targets a list stands for; each pass is shown to act on each target alone, and the passes are composed. |
| C106 | What the set-up script prints is a list of variables; the saved file is modelled as text and read back; the spec says which value each variable has for tools. Induction over variables, architectures and targets. |
| C107 | Model_Log: Logger as a machine whose events are messages and settings of the level; Spec_Log says for each message when it comes out and at which level; induction over the history gives the printed list, and lemmas about lines and trimming what each message looks like. |
| C108 | Model_Filters: the folders and entries appended for each tree of the hierarchy of Model_Vcxproj; each tree is read as a list of places (folder, file), and conversion, pruning and appending are followed on those lists. |
| C109 | Model_Stdout: the loop of the command line program with the values commands give, the list command, and console.log; induction over the run gives the lines written and the exit code. |
| C110 | Model_VsVersion: the table of versions, their detection in the registry, the selection and the script for the compiler; case analysis and induction over the versions looked for, against an inductive description of what is installed. |
| C111 | Model_MacTool: the regular expressions as matchers, the filter, the file touched and the exit status; the matchers are proved to accept exactly the lines of the stated forms, by induction over strings and command lines. |
| C112 | Model_Dump: the search of the dump generator; an invariant of the search gives the graph, and the number of targets not yet visited its end. |
| C113 | Model_UserFile: the quoting of arguments; Spec_UserFile has the rules by which programs on Windows take a command line apart, and induction over the characters shows that they undo it. |

## What is modelled

| files of /repo | model | theorems |
|---|---|---|
| gyp/input.py: loading (CheckedEval, includes, toolsets, parallel and serial loading) | Model_Load, Model_Toolset, Model_Parallel | C20-C22, C43 |
| gyp/input.py: expansion, conditions, variables, phases | Model_Expand, Model_Commands, Model_Cond, Model_Text | C18, C24, C25, C42, C46, C51, C56, C57, C65, C80 |
| gyp/input.py: merging, filters, configurations, path sections | Model_Merge, Model_Filter, Model_Config, Model_Path | C13-C17, C19, C23, C26, C53, C55 |
| gyp/input.py: graph, settings, names, wildcards, collisions | Model_Graph, Model_Settings, Model_Names | C01-C08, C11, C12, C44, C45, C47-C49, C52, C54 |
| gyp/common.py: OrderedSet, TopologicallySorted, memoize, WriteOnDiff, paths, quoting | Model_OrderedSet, Model_TopoSort, Model_Memo, Model_Write, Model_Path, Model_Quote | C09, C10, C26, C27, C36, C50 |
| gyp/generator: make, ninja, msvs quoting; ninja_syntax.py; easy_xml.py | Model_Quote, Model_Ninja, Model_Xml | C27-C32 |
| gyp/generator/analyzer.py, gyp/MSVSUtil.py | Model_Analyzer, Model_Shard | C34, C35, C58 |
| packaging/version.py (comparison) | Model_Version | C33 |
| lib/install.js, remove.js, process-release.js | Model_Install, Model_Release | C37, C59, C60 |
| lib/create-config-gypi.js, build.js, node-gyp.js (options, commands), bin/node-gyp.js | Model_Gypi, Model_Json, Model_Build, Model_Cli | C38, C39, C61-C64 |
| gyp/\_\_init\_\_.py: gyp_main's options, RegenerateFlags; argparse; generator/make.py: WriteAutoRegenerationRule | Model_Args | C66, C68 |
| lib/configure.js: runGyp, findConfigs; lib/util.js: findAccessibleSync | Model_Configure | C67 |
| lib/configure.js: getNodeDir, the scan for a make format; lib/find-node-directory.js | Model_Headers | C69 |
| gyp/generator/make.py: SHARED_HEADER's do_cmd, command_changed, prereq_changed; GNU make's decisions | Model_Make | C70, C71 |
| gyp/generator/make.py: SHARED_HEADER's fixup_dep (not for win32); make's reading of depfiles | Model_Depfile | C72 |
| gyp/generator/make.py: MakefileWriter.Write, WriteActions, WriteRules, WriteCopies, WriteSources, WriteTarget, WriteMakeRule, WriteDoCmd, ComputeDeps, ComputeOutput, Objectify, Absolutify, Sourceify, GenerateOutput's loop over the targets (flavor linux) | Model_Writer | C73, C74 |
| gyp/generator/make.py: what GNU make does with these rules, all_deps, the text of cmd_NAME for actions and rules | Model_Remake | C75, C76, C77 |
| gyp/generator/make.py: WriteRootHeaderSuffixRules, the suffix rules of MakefileWriter, Target, Objectify, Linkable | Model_Suffix, Model_Writer | C78, C79 |
| gyp/generator/make.py: WriteList, QuoteIfNecessary, the variables WriteSources and WriteTarget set, the commands cc, cxx, link, solink, solink_module (flavor linux) | Model_Flags | C81 |
| gyp/generator/msvs.py: _NormalizedSource, _FixPath, _PrepareListOfSources, _AdjustSourcesForRules, _AdjustSourcesAndConvertToFilterHierarchy, _AddActionStep, _AddActions, _GetCopies, _MapFileToMsBuildSourceType, _AddSources2, _GenerateActionsForMSBuild | Model_Vcxproj | C82, C83 |
| gyp/generator/msvs.py: _BuildCommandLineForRule, _BuildCommandLineForRuleRaw; gyp/MSVSSettings.py: FixVCMacroSlashes | Model_Cmdline | C84 |
| gyp/generator/msvs.py: _FinalizeMSBuildSettings, _GetIncludeDirs, _GetLibraryDirs, _GetLibraries, _GetDefines, _GetOutputFilePathAndTool, _GetOutputTargetExt, _GetModuleDefinition, _ToolAppend, _ToolSetOrAppend, _EscapeCppDefineForMSBuild, _GetMSBuildToolSettingsSections, _GetValueFormattedForMSBuild; gyp/MSVSSettings.py: ConvertVCMacrosToMSBuild. Not modelled of them: the conversion of the settings the user gives, warnings, and that the list of definitions of ResourceCompile is the same object as that of ClCompile | Model_Tools | C85 |
| gyp/generator/msvs.py: _AddConditionalProperty, _GetMSBuildPropertyGroup, _GetMSBuildAttributes, _ConvertMSVSBuildAttributes (output and intermediate directory), _GetMSBuildConfigurationGlobalProperties, _GetConfigurationCondition. Not modelled of them: property sheets, windows_driver's and external builders' attributes | Model_Properties | C86 |
| gyp/MSVSSettings.py: ConvertToMSBuildSettings and all rules and types it goes by. Not modelled: ValidateMSVSSettings and ValidateMSBuildSettings, escapes in Python's text of a list | Model_Msvs | C87 |
| gyp/generator/msvs.py: _GetPathDict, _DictsToFolders, _CollapseSingles, _GatherSolutionFolders, _GetPathOfProject, _GetGuidOfProject, _GetPlatformOverridesOfProject, _CreateProjectObjects, the solutions in GenerateOutput; gyp/MSVSNew.py; gyp/common.py: DeepDependencyTargets, BuildFileTargets. MD5 and RelativePath are parameters. Not modelled: generation for the ninja flavour, msvs_existing_vcproj's GUID read from the file | Model_Solution | C88 |
| gyp/xcode_emulation.py: XcodeArchsDefault, _ConvertConditionalKeys, GetActiveArchs, _SdkPath, GetCflags, GetCflagsC, GetCflagsCC, GetCflagsObjC, GetCflagsObjCC, GetInstallName, _MapLinkerFlagFilename, GetLdflags, GetLibtoolflags, GetPerTargetSetting(s), _AdjustLibrary, GetExecutablePath. Targets that are no bundles; no XCTest and no extensions; a list for an install name is an exception | Model_Xcode | C89 |
| gyp/generator/ninja.py: Target, ExpandSpecial, GypPathToNinja, GypPathToUniqueOutput, WriteCollapsedDependencies, WriteSpec, WriteActionsRulesCopies, WriteActions, WriteRules, WriteCopies, WriteSourcesForArch, WriteLinkForArch, WriteTarget, ComputeOutputFileName, ComputeOutput, GenerateOutputForConfig; the build statements with their inputs and the variable ld. Not: other flavors, bundles, postbuilds, rules without an action, the commands and the remaining variables | Model_NinjaBuild | C90 |
| gyp/generator/ninja.py: WriteNewNinjaRule, ExpandSpecial with a product directory, the variables of WriteRules, for flavor linux. Not: descriptions, pools, depfiles, Windows and macOS | Model_NinjaAction | C91 |
| gyp/generator/ninja.py: where GypPathToNinja and GypPathToUniqueOutput lead to (the functions are in Model_NinjaBuild) | Model_NinjaBuild | C92 |
| lib/download.js: readCAFile, the ca option of download. Not: proxy, headers, the request itself | Model_CaFile | C93 |
| lib/util.js: regGetValue, regSearchKeys. Not: starting reg.exe, the log | Model_Registry | C94 |
| gyp/xcode_emulation.py: _NormalizeEnvVarReferences, ExpandEnvVars, _TopologicallySortedEnvVarKeys, GetSortedXcodeEnv, the merging in _GetXcodeEnv. Not: the variables that _GetXcodeEnv takes from the target | Model_XcodeEnv | C95 |
| gyp/generator/make.py: WriteSources, WriteTarget, ComputeOutput, LINK_COMMANDS_MAC, SHARED_HEADER_MAC_COMMANDS (flavor mac, without bundles) | Model_FlagsMac | C96 |
| gyp/xcodeproj_file.py: _EncodeComment, _EncodeTransform, _EncodeString, _XCPrintableValue, _XCKVPrint, XCObject.Print, XCProjectFile.Print, _PrintObjects | Model_Pbx | C97 |
| lib/install.js: install, go, rollback by several runs at once; lib/remove.js (not on Windows) | Model_Race | C98 |
| gyp/pylib/gyp/generator/compile_commands_json.py: AddCommandsForTarget, GenerateOutput | Model_CompileCommands | C99 |
| gyp/pylib/gyp/input.py: ValidateTargetType, ValidateRulesInTarget, ValidateRunAsInTarget, ValidateActionsInTarget, and their calls in Load | Model_Validate | C100 |
| gyp/pylib/gyp/xcodeproj_file.py:171-193, 964-1007, 1123-1140, 1201-1486, 1549-1557: groups and file references | Model_XcodeGroups | C101 |
| gyp/common.py:118-124, 426-510, gyp/__init__.py:86-87, generator/make.py:66-109 (variables), shlex.split of Python | Model_Flavor | C102 |
| gyp/pylib/gyp/xcodeproj_file.py: ComputeIDs, EnsureNoIDCollisions, Hashables of XCHierarchicalElement and PBXGroup | Model_XcodeIds | C103 |
| lib/install.js: copyDirectory, and install by several runs at once on Windows. Not: the rollback and failing downloads (see C98) | Model_WinInstall | C104 |
| gyp/pylib/gyp/input.py: QualifyDependencies, RemoveSelfDependencies, RemoveLinkDependenciesFromNoneTargets, list filters on dependency lists, RemoveDuplicateDependencies, their order in Load | Model_TargetDeps | C105 |
| gyp/pylib/gyp/msvs_emulation.py: ExtractSharedMSVSSystemIncludes (not macros), _ExtractImportantEnvironment, _FormatAsEnvironmentBlock, GenerateEnvironmentFiles (files); gyp/pylib/gyp/win_tool.py: _GetEnv, _UseSeparateMspdbsrv, ExecActionWrapper (environment) | Model_WinEnv | C106 |
| lib/log.js: Logger; lib/node-gyp.js: parseArgv (level) | Model_Log | C107 |
| gyp/pylib/gyp/generator/msvs.py: _GenerateMSBuildFiltersFile, _AppendFiltersForMSBuild | Model_Filters | C108 |
| bin/node-gyp.js: run; lib/list.js; lib/log.js: stdout | Model_Stdout | C109 |
| gyp/pylib/gyp/MSVSVersion.py: all but the reading of the registry; lib/configure.js: the variables set for gyp | Model_VsVersion | C110 |
| gyp/pylib/gyp/mac_tool.py: main, ExecFilterLibtool, ExecFlock; gyp/pylib/gyp/flock_tool.py: main, Dispatch, ExecFlock | Model_MacTool | C111 |
| gyp/pylib/gyp/generator/dump_dependency_json.py: GenerateOutput (the graph) | Model_Dump | C112 |
| gyp/pylib/gyp/MSVSUserFile.py: _QuoteWin32CommandLineArgs, the attribute CommandArguments | Model_UserFile | C113 |
| lib/find-python.js, find-visualstudio.js | Model_Python, Model_Vs | C40, C41 |

Simplifications are in the comments at each definition.

## Not modelled

Writing of the actual project files by the generators beyond the functions
above (how the objects of an Xcode project other than groups and files are put together and their ids chosen, Visual Studio rule files), the
Xcode emulation's bundles, plists and postbuilds, the MSVS emulation of ninja, the helper tools run during a build
(the rest of `win_tool.py` and `mac_tool.py`, the locks of `flock_tool.py`), the reading of the Windows registry by gyp, the real file system,
processes and network (parameters), Python's own `eval`/`re` (parameters),
nopt, tar, and the wording of most messages.

## Findings: claims that are false of the code

Each is a theorem: the natural stronger claim does not hold, with a concrete
counterexample.  The text is the comment at the theorem.

<!-- findings -->

* `C02_cycle_named_refuted`: C02, the message names at least one cycle: false of the code. A cycle that no dependency-free target is behind is never visited by FindCycles, and the error lists nothing.
* `C100_action_names_refuted`: Two actions of one target may have the same name (input.py:2819-2835 look at each action by itself), although two rules may not.
* `C100_nameless_rule_refuted`: Not so for a rule without a name: the program stops with a KeyError and no word about the target (input.py:2736), although an action without a name is told (input.py:2825-2829).
* `C101_absolute_refuted`: A file whose path is absolute is listed below the project's directory: the path's first component is empty, and so is the path of the group that is made for it (1369-1379).
* `C101_absolute_twice_refuted`: ... and the same one added twice is listed twice.
* `C101_directory_refuted`: A directory of another target's resources, say, cannot be added a second time: it is kept without the slash at its end (xcodeproj_file.py:1552-1554) but looked up with it (1303-1304, 1332), is made anew, and ends in "Found multiple children with path" (1206-1211).
* `C101_variable_refuted`: What comes before a variable is dropped: each component is looked at on its own (983-998).
* `C102_always_refuted`: A compiler that cannot list its macros makes gyp fail with a CalledProcessError (common.py:463-466, check=True), although the platform is known.
* `C102_file_refuted`: A generator given as a file cannot have a dash in its path: what is before the dash is taken for the generator, what is behind it for the flavor (__init__.py:86-87).
* `C102_flags_refuted`: On Windows a flag with a backslash reaches the compiler as another one (common.py:431-432): -DNAME=\"x\" becomes -DNAME=/x/.
* `C102_same_compiler_refuted`: The compiler that is asked need not be the one that make runs. If CC_target is set but empty, CC is asked (common.py:434), while the Makefile is given the empty value (GetEnvironFallback, common.py:121-123, make.py:2452).
* `C103_groups_refuted`: Groups are not kept apart as files are: the names of a group's children are hashed after its path with nothing before them (1193-1197), so that a group whose children have the right names is hashed as one of its children is, and the project is refused with "Duplicate ID" (467-485).
* `C103_named_refuted`: A file's id does change when files are added, if all sources were in a directory with the name of the group: taking it over drops the name (xcodeproj_file.py:1463-1477), which is then missing from what is hashed (1036-1044).
* `C103_variable_refuted`: The same happens if all sources were below one variable: the group made for it has a name of its own (983-998), hashed only as long as it is not taken over.
* `C104_early_refuted`: A run with --ensure passes over a file that another run has open, as if it were there (install.js:140-145), so that it may say it is done while a header is still empty, and the addon it was run for is compiled with that.
* `C104_gives_up_refuted`: A run without --ensure that keeps meeting a file another run has open gives up (install.js:136-149), and rolls back what both are installing.
* `C104_killed_refuted`: If that other run is then killed, the header stays as it is: the first run has marked the directory as installed, and every later run with --ensure takes it to be so.
* `C104_library_refuted`: A run for x64 that is killed while it copies node.lib has copied installVersion before it (129-138: entries in the order of readdir), and --ensure only looks whether node.lib is there (96-100): every later run takes the part of it that was copied for all of it.
* `C105_exclude_wildcard_refuted`: All targets of a file but one cannot be had: to exclude a target that only a wildcard stands for is refused as it is not in the dependencies (input.py:1500-1513), which are expanded only later; and to exclude the wildcard excludes nothing, as excluded names are not expanded (input.py:1535).
* `C105_excluded_exported_refuted`: The settings of an excluded dependency are still exported: that they are those of a dependency is looked at before dependencies are excluded (input.py:1500-1513, 3009-3022).
* `C105_excluded_none_refuted`: An excluded dependency need not exist, but must if the target is of type none: there dependencies are looked up before any is excluded, and a missing one is a bare KeyError (input.py:1645-1649).
* `C105_regex_refuted`: Dependencies cannot be filtered by regular expressions ("dependencies/"): an item of such a list is a list of an action and a pattern, but QualifyDependencies parses every item of it as the name of a target (input.py:1479-1491), which fails with an AttributeError as a list has no rsplit (common.py:63); if it were a name, it would be no such list when it is used (input.py:2601-2604).
* `C106_leak_refuted`: With directories shared by all targets, the directories in INCLUDE for x86 are searched for x64 as well, and before those for x64: the variable to which the ones for x86 are added is used again for x64 (msvs_emulation.py:1190, 1203-1207).
* `C106_order_refuted`: Shared directories are searched in the order of the last target, not of the one that is built: an intersection of ordered sets goes by the order of the second (msvs_emulation.py:178).
* `C107_errors_refuted`: An error is not printed at every level but silent: a level that node-gyp does not know makes it print nothing at all (lib/log.js:98-104). The level timing of npm 7 and 8 is one; its variable npm_config_loglevel is taken over (lib/node-gyp.js:128-129).
* `C107_indentation_refuted`: A line is not printed as it is: its indentation is lost (lib/log.js:162).
* `C108_identifier_refuted`: Different folders do not have different identifiers, although MSBuild calls them unique: the identifier is made of the last name of the path only (msvs.py:2247).
* `C108_once_refuted`: A folder is not listed once: it is listed for each file in it, as each file has a hierarchy of its own (msvs.py:237-246, 2242-2249).
* `C109_message_refuted`: The string that a command gives is not printed as it is: that of remove for a version that is not installed (lib/remove.js:37) is printed without its first letter and with blanks between all others, as bin/node-gyp.js:90 spreads it as if it were an array.
* `C10_edge_order_refuted`: ... but it does depend on the order in which the edges of a node are enumerated; xcode_emulation.py:1869 passes a Python set of strings, whose order changes from run to run.
* `C110_newer_refuted`: An installation does not mean that a version is found: if the registry has a value 16.0 (2019) or 17.0 (2022) under one of the keys SxS\VC7 and SxS\VS7, gyp/pylib/gyp/MSVSVersion.py:515-522 takes it for the SDK of an express edition and fails with KeyError: '2019e', although a full edition is installed too. node-gyp itself is not affected, since it sets GYP_MSVS_OVERRIDE_PATH.
* `C110_ninja_refuted`: With the variables that node-gyp sets, the script of Visual Studio 2017 and later is not found although it is there: lib/configure.js:121 gives 2015 as the year, so gyp/pylib/gyp/MSVSVersion.py:121 looks for VC\vcvarsall.bat, not for VC\Auxiliary\Build\vcvarsall.bat. This concerns the ninja generator (gyp/pylib/gyp/msvs_emulation.py:1192); the default one does not use the script.
* `C111_flock_tool_refuted`: Under that of gyp-flock-tool, of AIX, OS/400 and Solaris, it succeeds also if the command fails: gyp/pylib/gyp/flock_tool.py:18 and 30 drop the exit code that ExecFlock returns (51). The tool is put beside the Makefile (gyp/pylib/gyp/generator/make.py:2632), but no command that gyp itself writes there uses it.
* `C113_backslash_refuted`: A directory with a blank and a backslash at its end swallows what follows, as gyp/pylib/gyp/MSVSUserFile.py:50-51 puts the quote behind the backslash.
* `C113_empty_refuted`: An empty argument is lost: gyp/pylib/gyp/MSVSUserFile.py:45-51 quotes only arguments with a quote or a blank.
* `C12_any_name_refuted`: C12 without the restriction on target names: false of the code. A colon in a target name makes two different targets share one name.
* `C13_prepend_repeats_refuted`: Finding: with a repeated item the prepend puts it behind old items.
* `C15_replace_refuted`: Finding: [key=] turns a string into a list without a type error.
* `C16_filtered_filter_refuted`: Finding: without [plain_filters] the pass can die with a KeyError.
* `C20_string_refuted`: Finding: toolsets given as a string are taken letter by letter.
* `C22_no_files_refuted`: Finding: with no build files at all the program dies of an internal error (pool is None) instead of returning.
* `C26_invert_docstring_refuted`: C26: the docstring's claim for all relative paths is false of the code.
* `C27_ninja_backslash_refuted`: Finding: an argument of harmless characters and backslashes is not quoted, and the shell drops the backslashes.
* `C27_ninja_newline_refuted`: Finding: nor is one that ends in a newline.
* `C28_hash_refuted`: Findings: a define with a backslash before a number sign, or with a newline, is cut off there.
* `C28_newline_refuted`: Findings: a define with a backslash before a number sign, or with a newline, is cut off there.
* `C29_trigraphs_refuted`: Finding: where the compiler honours trigraphs, two question marks may be taken for one.
* `C30_bar_refuted`: Findings: a path with an even number of dollar signs before a space, a dollar sign before a colon, a bar, or a dollar sign at its end is read as something else; a run of spaces at a place where the line is wrapped shrinks.
* `C30_dollar_colon_refuted`: Findings: a path with an even number of dollar signs before a space, a dollar sign before a colon, a bar, or a dollar sign at its end is read as something else; a run of spaces at a place where the line is wrapped shrinks.
* `C30_dollars_refuted`: Findings: a path with an even number of dollar signs before a space, a dollar sign before a colon, a bar, or a dollar sign at its end is read as something else; a run of spaces at a place where the line is wrapped shrinks.
* `C30_final_dollar_refuted`: Findings: a path with an even number of dollar signs before a space, a dollar sign before a colon, a bar, or a dollar sign at its end is read as something else; a run of spaces at a place where the line is wrapped shrinks.
* `C30_two_spaces_refuted`: Findings: a path with an even number of dollar signs before a space, a dollar sign before a colon, a bar, or a dollar sign at its end is read as something else; a run of spaces at a place where the line is wrapped shrinks.
* `C31_tab_refuted`: Refuted without the restriction on tabs: an attribute value with a tab is read back with a space instead.
* `C32_percent_refuted`: Findings: a backslash at the end swallows the closing quote, and with it the next argument; percent signs stay doubled where no batch interpreter reads the file.
* `C32_swallow_refuted`: Findings: a backslash at the end swallows the closing quote, and with it the next argument; percent signs stay doubled where no batch interpreter reads the file.
* `C32_trailing_refuted`: Findings: a backslash at the end swallows the closing quote, and with it the next argument; percent signs stay doubled where no batch interpreter reads the file.
* `C34_clash_refuted`: Refuted without [no_clash]: a piece named like another target is lost.
* `C36_windows_refuted`: Finding (documented in the code): on Windows the switch is not atomic; the old file is lost if the rename fails, and gone for a moment.
* `C36_write_refuted`: Finding: when a write fails the temporary file stays.
* `C37_busy_refuted`: A file in use on Windows keeps its old content.
* `C37_failure_removes_refuted`: A failed installation does not leave things as they were.
* `C37_hidden_checksum_refuted`: A checksum behind a line that is not understood is not seen, and a genuine archive refused.
* `C37_iojs_refuted`: The library looked for is always "node.lib", the one written is named after the release: io.js is never found complete on Windows.
* `C37_killed_before_comparison_refuted`: Killed after installVersion is written and before the checksums are compared, the process leaves an unverified archive that "--ensure" accepts.
* `C37_killed_copying_refuted`: On Windows the version file may be copied before the headers.
* `C37_killed_reinstalling_refuted`: Installing again over a complete directory and being killed leaves half a header, still marked.
* `C37_left_overs_refuted`: Headers left by an earlier installation stay.
* `C38_inherited_refuted`: Finding: an argument with the name of a property every object has is not passed on as it is: the command gets a function instead.
* `C39_rebuild_last_refuted`: Finding: commands given after rebuild are run before what rebuild stands for.
* `C40_exit_status_refuted`: Finding: whether the program ended with an error is not looked at; a Python that fails both times is accepted if it printed a path and a version.
* `C41_zero_refuted`: Finding: a requested version of 0000 is taken as no request.
* `C44_star_name_refuted`: C44, no wildcard remains whatever the target names: false of the code.
* `C47_left_over_refuted`: Finding: a settings block of a later kind may bring back a block of an earlier kind, which then stays in the target and is published to nobody.
* `C51_bracket_refuted`: Nor can one with an unmatched bracket in its name; the error names another variable.
* `C51_context_refuted`: Whether a text gives a list or a string can depend on the value of another variable.
* `C51_leading_space_refuted`: White space before a command matters.
* `C51_numeric_name_refuted`: C51, findings: a variable whose name is a number cannot be referred to.
* `C51_self_refuted`: A variable that refers to itself is expanded without end, whatever the bound on the recursion.
* `C53_backslash_refuted`: C53 for items with a backslash (a legal file-name character on POSIX): false of the code.
* `C54_absolute_refuted`: C54 with absolute references included: false of the code (one target gets two names).
* `C55_filter_pair_refuted`: ...and the copied filter ['exclude', 'exclude'] is no longer a pair.
* `C55_repeated_items_refuted`: Finding: a copied list of command arguments loses repeated arguments...
* `C56_suffix_refuted`: Finding: a 'conditions+' section inside a chosen branch comes back as an unevaluated 'conditions' section.
* `C58_order_refuted`: Finding: unlike the tests, the compile targets are not determined by the graph and the changed files. Two build orders of the same targets, both with dependencies first, give different answers: a changed target of type "none" without actions is reported only when it is reached before the changed targets it depends on.
* `C59_fallback_refuted`: The second attempt, in a directory that can be written, installs the same version unless it was named by the arguments.
* `C59_mirror_refuted`: A mirror whose own address has /win-x64/ in it gets that part replaced.
* `C60_iojs_refuted`: It does not for io.js, and an argument that is no version is used as a path: it can lead out of the directory of node-gyp.
* `C60_outside_refuted`: It does not for io.js, and an argument that is no version is used as a path: it can lead out of the directory of node-gyp.
* `C61_null_refuted`: Not so with a null, which is written as a word that Python does not know.
* `C62_apostrophe_refuted`: Texts that Python reads and node-gyp cannot, or reads differently.
* `C62_hash_refuted`: Texts that Python reads and node-gyp cannot, or reads differently.
* `C63_debug_refuted`: npm_config_debug=false asks for a debug build.
* `C63_inherited_refuted`: and when its name is one that every object has.
* `C63_marmasm_refuted`: Assembly for ARM64 is switched on for Visual Studio before 15.9 too.
* `C63_spelling_refuted`: A variable is lost when the command line has both spellings of the option.
* `C64_solution_refuted`: A solution of one's own as an argument is taken for a target, and then there is no solution at all.
* `C64_windows_make_refuted`: With make on Windows the targets are not the ones that were named.
* `C66_text_refuted`: C66 is false as: the value of -D NAME=VALUE keeps its text. What Python can read as a number becomes one: 007 and 0_7 are both 7.
* `C66_unknown_option_refuted`: C66 is false as: an option gyp does not know is an error. It is taken for the name of a build file.
* `C67_dashes_refuted`: C67 is false as: the user's arguments cannot keep node-gyp's from counting. After -- its definitions and directories are taken for build files.
* `C67_format_refuted`: C67 is false as: where the user chooses a format, only that is generated. The spellings -fninja and --format=ninja are overlooked and the platform's own is generated besides.
* `C68_circular_refuted`: C68 is false of --no-circular-check: build files that were accepted with it can be refused when the Makefile is remade.
* `C68_config_dir_refuted`: C68 is false of --config-dir, which is not made relative to where the command runs.
* `C68_empty_refuted`: C68 is false of an empty definition: the Makefile's command is an error.
* `C68_nodedir_refuted`: C68 is false of what configure passes under --nodedir: the $(Configuration) in node_lib_file is expanded by make.
* `C68_parallel_refuted`: C68 is false of --no-parallel (which node-gyp always passes): remaking uses worker processes.
* `C68_toplevel_refuted`: C68 is false where --toplevel-dir is not --depth: paths are made relative to the one, and the command runs in the other.
* `C69_dollar_refuted`: C69. Not so with dollar signs in the home directory: it is the replacement text of String.replace, so /srv/a$$b becomes /srv/a$b (configure.js:66).
* `C69_joined_refuted`: C69. Visual Studio is demanded although gyp will write a Makefile, if the format is joined to the option as in -fmake (configure.js:95-109).
* `C69_local_npm_refuted`: C69. A copy of npm in a project's node_modules is taken for the one that comes with node: with /p/app/node_modules/npm and /usr/bin/node the directory found is /p, where node is not (find-node-directory.js:19-27).
* `C69_user_refuted`: C69. The home directory of another user is not understood: --nodedir=~you/node is taken for /home/meyou/node (configure.js:66).
* `C71_failed_refuted`: C71. Nor if a command fails having written to its target: the Makefile has no .DELETE_ON_ERROR, so the next build takes the broken file for a good one.
* `C71_killed_in_depfile_refuted`: C71. Nor if it is killed while the depfile is written: with the command in it and the headers not, none of them is looked at (make.py:565-566; the comment at 401-403 says that a broken depfile cannot come about).
* `C71_killed_refuted`: C71. Not so if make is killed after a compiler has run and before its depfile is written: the object is new, but the depfile tells of the headers of before; a header that was added is not looked at from then on (make.py:562-566).
* `C71_no_inputs_refuted`: C71. Nor for a rule without inputs, such as an action that only generates: if its output is removed it is not made again, and make says that all is well.
* `C71_number_sign_refuted`: C71. Nor with a number sign in a command: make reads what is behind it as a comment, so a change there goes unnoticed.
* `C71_reverted_refuted`: C71. Nor if it is killed after a changed command and the change is taken back: the depfile has the old command, so the result of the new one is kept.
* `C71_sign_again_refuted`: C71. And such a command is run at every build.
* `C72_pattern_refuted`: C72. Not without the condition on the name: it is used as a pattern that may fit the start of the target. An object Release.o in build/Release, that is, a source file Release.c or Release.cc, fits Release/o, and what it depends on is noted for a file that does not exist: an edited header does not make it be compiled again (make.py:450).
* `C73_header_only_refuted`: C73. Not through targets that compile and generate nothing: a library with headers only is there without what it depends on, so a target behind it may be compiled before that (make.py:1455, 1726, 1880).
* `C73_several_outputs_refuted`: C73. Not for an action with several outputs: its command is the recipe of an intermediate file that has the inputs as prerequisites but not what the target depends on; only the outputs have that (make.py:1726-1733, 2160-2177).
* `C75_archive_refuted`: C75. Not a static library: it is made with neither do_cmd nor FORCE_DO_CMD, so if a source is taken away, its object stays in the archive and is linked (make.py:1884-1904).
* `C75_rules_refuted`: C75. Not what the rules of a target make: these are written without FORCE_DO_CMD, so do_cmd is not even asked, and a changed command is not noticed (make.py:1207-1209).
* `C75_several_outputs_refuted`: C75. And an action with several outputs is run at every build: its command is recorded for the intermediate file, which is not in all_deps, so the record is never read (make.py:2107, 2160-2177).
* `C77_same_variable_refuted`: C77. It is not enough that they differ: of two actions "gen-a" and "gen_a" both run the command of the second, as both have the same variable (make.py:741-743, 1029).
* `C77_two_targets_refuted`: C77. Nor is it enough in two targets that all names are of letters, digits and underscores: action "y_target_z" of target "x" and action "z" of target "x_target_y" have the same variable.
* `C78_absolute_refuted`: C78. For a source with an absolute path there is no rule: the object is put under the directory of the target with all of the path, and the pattern looks for that in the source tree (make.py:2309-2315).
* `C78_generated_refuted`: C78. So do a source in the tree and a generated one with the same path (make.py:2311-2312).
* `C78_prebuilt_refuted`: C78. An object among the sources is linked under the path that is written, not under that relative to the build file (make.py:1534).
* `C78_product_dir_refuted`: C78. Nor is there one for a source generated in PRODUCT_DIR (make.py:2309-2315).
* `C78_same_base_refuted`: C78. Two that differ only in the extension do have the same object, so one of them is not linked (make.py:701-703); there is a check for this only in static libraries.
* `C78_twin_targets_refuted`: C78. And so do targets with the same name in different build files that have a source in common, whatever their flags are.
* `C78_unlisted_refuted`: C78. But a file next to a source that nobody listed is compiled in its place, if it has an extension that another source of the target has, and that comes first in the set (make.py:939-943).
* `C80_module_refuted`: Finding: a module named in one directory is taken for the one of the same name in another: Python has loaded it, and does not look for it again.
* `C80_signal_refuted`: Finding: a command that a signal ends is taken to have succeeded, its status being negative: what it printed until then is the answer.
* `C80_unknown_refuted`: Finding: a reference with a word gyp does not know is an error, but not if its text was that of a command met before in the same directory.
* `C80_word_refuted`: Finding: what a reference is answered with depends on the ones met before it, even if nothing ever changes: the word before the parenthesis is not part of what answers are kept under. A pymod_do_main reference with the text of a shell command met before in the same directory is answered with what the shell command printed, and the other way round.
* `C81_include_space_refuted`: An include directory with a space in its name becomes two arguments.
* `C81_leak_refuted`: The flags of a configuration are kept in variables for the whole Makefile. If a target does not have the configuration that is built (a .gyp file that names no configurations has one named Default), its sources are compiled with the flags of whichever target came before it.
* `C81_libraries_refuted`: As each entry of libraries is only used once, flags around libraries that are there twice are lost: here the second library is not linked as a whole.
* `C81_names_refuted`: Of two configurations one of which is named as the other with C_ in front, the one with the longer name is built without its own flags: they have the same variable.
* `C81_number_sign_refuted`: A number sign in a flag ends the variable: that flag is cut and those after it are not given at all.
* `C82_escape_refuted`: A file whose name has a percent sign and two hexadecimal digits in it is written as it is, and read as another.
* `C82_input_refuted`: A source that is also an input of an action is not compiled on Windows, while make compiles it: it is put among the excluded files, and one that is the first input is an item of a custom build only.
* `C82_precompiled_refuted`: If an excluded file is the precompiled source of one configuration and not of another, gyp stops with a TypeError: the configuration's condition is asked for with an argument too few.
* `C82_rule_case_refuted`: A rule for files with an extension in capital letters never gets any: that of the file is compared in small letters, that of the rule as it is.
* `C82_rule_outputs_refuted`: The files that a rule makes to be compiled are looked for in the wrong place: the way up to the directory of the .gyp file is put before their names three times.
* `C82_same_object_refuted`: Files of the same name in the directory above the .gyp file and in its own are compiled to one object.
* `C82_twice_refuted`: A source of a .gyp file in a subdirectory that is listed twice, once by way of the directory above, is compiled twice.
* `C83_copy_failure_refuted`: The failure of a copy goes unnoticed: each copy sets a variable ERRORLEVEL, whose value is what the check after it sees, so that what comes after it is run too. Here, the same file is copied to two directories.
* `C83_directory_place_refuted`: One that is further down is found, but is copied to another place than the destination: the path of the destination is meant for the directory of the project, and is used below another.
* `C83_directory_refuted`: A directory next to the .gyp file that is to be copied is not found: it is looked for in the directory of the project, build.
* `C83_no_inputs_refuted`: An action with no inputs is to be attached to the .gyp file, but for one in a subdirectory it is attached to a file that is not there, deps/deps/deps.gyp below.
* `C83_spelling_refuted`: Two actions that begin with the same file in two spellings have a custom build each for it, not one for both as those that spell it alike have.
* `C84_address_refuted`: An argument that is no path and no option is changed as if it were a path: an address loses a slash and has the way to the .gyp file put before it.
* `C84_backslash_refuted`: An argument that ends in a backslash takes the one after it along: the double quote at its end is read as part of it.
* `C84_program_refuted`: A program that is given by its path is looked for below build, where cmd.exe runs, and not where the .gyp file is.
* `C84_quotes_refuted`: Double quotes in an argument are not escaped, and so are lost; with a blank between them there are two arguments.
* `C85_library_path_refuted`: A library with a relative path is not found where it is for the .gyp file. Its path is written as it is, and is relative to the project (msvs.py:1289-1313), while those of sources and directories are changed.
* `C85_root_refuted`: The root of a drive cannot be given as a directory. The backslash at its end is dropped, and what is left is the directory one is in on that drive (msvs.py:176-177).
* `C85_string_refuted`: Not every definition can be given. A string for the compiler needs a backslash before its quotes; with one, the generator ends in a TypeError, as the number of backslashes is divided by two, which is a float in Python 3 (msvs.py:863).
* `C85_text_refuted`: If the user gives AdditionalDependencies themselves as one text and not as a list, the generator ends in a TypeError, even if the target has no libraries to be appended to it (msvs.py:3396).
* `C85_version_refuted`: A library given as -lNAME is not looked for in NAME.lib if it has a version in its name: the number behind the last period is taken for an extension (msvs.py:1309).
* `C86_extension_refuted`: With two configurations that have different extensions of the product, both get the extension that sorts last: each is recorded twice for its configuration, and with two records for two configurations a value is taken to be that of both (msvs.py:3215-3227, 3308-3311).
* `C86_importlibrary_refuted`: For a loadable module with msvs_requires_importlibrary generation ends with a TypeError: IgnoreImportLibrary is set to false, and true is then appended to it (msvs.py:3432-3437).
* `C86_librarian_refuted`: For a static library with msvs_auto_output_file 0 and no settings of its own for the librarian, generation ends with a KeyError (msvs.py:3175).
* `C86_product_dir_refuted`: A relative product_dir: the linker writes the file relative to the project, but TargetPath names one relative to the .gyp file (msvs.py:1349-1350, 3177).
* `C86_spelling_refuted`: MSBuild does not tell upper from lower case in the names of properties. Where a reference is spelled differently from the property it refers to, the property may be set behind the one that refers to it, which then misses its value (msvs.py:3289-3295).
* `C87_dependencies_refuted`: The linker and the librarian cannot differ in LinkLibraryDependencies: the one that is given later decides for both (MSVSSettings.py:1013, 1196).
* `C87_importlibrary_refuted`: So it is with IgnoreImportLibrary, whatever its value, in each loadable module, which every addon is (msvs.py:3432-3435).
* `C87_list_refuted`: A value that a setting cannot have does not always give a warning. If it is a list, the generator ends in a TypeError (MSVSSettings.py:143-155, 170-176, 203-220).
* `C87_options_refuted`: Options that are given as a list are not passed on where characters are unsigned: instead of them the compiler gets one text, the list as Python prints it, with its brackets, quotes and commas (MSVSSettings.py:337-344).
* `C87_precompiled_refuted`: A precompiled header cannot be asked for with the setting that Visual Studio has for it: where it is given, the generator ends in a TypeError, as it sets PrecompiledHeader itself in every project (msvs.py:3413-3426, 287-297).
* `C87_unsigned_refuted`: Characters are not unsigned in each project that asks for it. /J is appended to the options, and lost if these are given behind DefaultCharIsUnsigned, as they then replace what was there (MSVSSettings.py:255-257, 337-344).
* `C88_host_refuted`: "Each target of a .gyp file is in its solution": in the tree of folders a target of the toolset host is kept under its name with _host behind it (msvs.py:1856-1861), and replaces another target that has that name. Only one of the two is then in the solution, though both are written and others may depend on them.
* `C88_lacking_refuted`: "A configuration of the solution builds only projects that have it": every configuration any target has is written for every project (MSVSNew.py:321-335). A project without it is told to build one it has not got.
* `C88_order_refuted`: "The same .gyp files give the same solution": the configurations are kept in a Python set (msvs.py:2111-2119) and are written in the order it is walked through (MSVSNew.py:307, 322), which for strings changes from one run of Python to the next unless PYTHONHASHSEED is set: the solution file is rewritten with its lines in another order although nothing has changed.
* `C88_underscore_refuted`: "What a configuration of the solution builds is a configuration of the project": the solution cuts the platform off the end of the name of a configuration (msvs.py:311-315), the project whatever is behind the last underscore (msvs.py:2898). A configuration called Release_static is Release_static|Win32 in the solution, and Release|Win32 in the project; Visual Studio then does not build the project.
* `C89_arch_string_refuted`: The same happens to one architecture that is given as a string: ARCHS of "arm64" is taken for the five architectures "a", "r", "m", "6" and "4", so the target is built for i386 (xcode_emulation.py:68, 664-667).
* `C89_archs_refuted`: Two architectures in ARCHS, for a universal binary, do not give two -arch flags, nor an error: everything is built for i386, which is in none of them, with just a warning on the console (xcode_emulation.py:664-667, 945-948).
* `C89_per_target_refuted`: GetPerTargetSettings is to "only fetch keys whose values are the same across all configurations", but a key that the first configuration has and another one lacks is kept: only the keys of the others are compared (xcode_emulation.py:1029-1033). So the actions of a release build may run with a setting of the debug build in their environment.
* `C89_sdks_refuted`: Configurations with different SDKs cannot be generated if the target has libraries: AdjustLibraries asks for the SDK of the target and not for that of a configuration, so there is an AssertionError (xcode_emulation.py:1258, 1051-1055, make.py:1754).
* `C89_section_refuted`: Of -sectcreate and more than three words behind it, the last one is taken for the file, even if that is in the next flag: the first of the three words takes as many commas as it can (xcode_emulation.py:880-890). In the flag below Info.plist is left as it is and b.exp is seen as a file though it belongs to another flag.
* `C89_separate_refuted`: A file that is an item of its own in OTHER_LDFLAGS is not found by the linker, which runs in another directory: of "-exported_symbols_list", "addon.exp" the second is passed on as it is, as only the items "-exported_symbols_list addon.exp" and "-Wl,-exported_symbols_list,addon.exp" are recognized (xcode_emulation.py:876-890).
* `C89_string_refuted`: OTHER_CFLAGS, WARNING_CFLAGS, OTHER_LDFLAGS and the like may be given as a string, as they can be in Xcode, but then each letter becomes a flag of its own: [cflags += "-O3"] and [for ldflag in "-O3"] go through the letters (xcode_emulation.py:683, 707, 745, 912).
* `C90_no_output_refuted`: C90. An action without outputs becomes a statement without outputs, which ninja rejects; the reader of .gyp files checks that an action has inputs, but not that it has outputs (ninja.py:646-685, input.py:2819-2835).
* `C90_rules_refuted`: C90. Not for every rule: with a rule that has three sources or more and two inputs or more, what the target waits for is moved to a stamp of that rule (ninja.py:750-756), and the list that is emptied by this is the one the rules behind it use too. Nothing makes these wait for the dependencies.
* `C90_target_all_refuted`: C90. What is written is not always accepted by ninja, even if no two targets have the same name: the name of a target is an output of its own (ninja.py:2863-2867), so with a target named all there are two statements for "all" (2881).
* `C91_directory_refuted`: The directory of the .gyp file is not quoted in the command (ninja.py:1959): with a blank in its name, "cd" gets two arguments, and the program does not run in it.
* `C91_dollar_refuted`: A dollar sign in an argument of an action (["echo", "${HOME}"]) is meant for the shell, which EncodePOSIXShellArgument (common.py:264-282) leaves it to, but WriteNewNinjaRule (ninja.py:1957-1959) writes it into the file for ninja as it is: ninja takes ${HOME} for a variable of its own, which is empty.
* `C91_names_refuted`: All characters but letters, digits and underscores become underscores in the name of a ninja rule (ninja.py:1921-1928), so two actions of a target called gen-a and gen_a have one name, and so have an action and a rule that are both called gen; ninja does not accept the file.
* `C91_source_refuted`: The name of a source is put by ninja into the double quotes of the command as it is (ninja.py:783-811): a double quote in it ends the argument there.
* `C92_configurations_refuted`: The object of a source two directories above a .gyp file at the top, ../../common/log.c, is outside of the directory of the configuration, and the same for Debug and Release (ninja.py:355-357): what was compiled for one is linked for the other.
* `C92_dots_refuted`: Two targets of a .gyp file, a with the source b.c.c, and a.b with the source c.c, have one object, a.b.c.o (ninja.py:353-354).
* `C92_extension_refuted`: Two sources that differ in the extension alone, src/addon.c and src/addon.cc, have one object, since the extension is cut off (ninja.py:1213, 1245); there are two statements for it, which ninja does not accept.
* `C92_product_dir_refuted`: A source that an action makes in <(PRODUCT_DIR) and one of the same name next to the .gyp file have one object: ExpandSpecial takes the directory away (ninja.py:271-275).
* `C93_null_refuted`: A file without a text of the form BEGIN CERTIFICATE ... END CERTIFICATE, for instance with certificates in OpenSSL's form BEGIN TRUSTED CERTIFICATE, or an empty one, gives null (download.js:33), and null means the certificates that come with Node.js: with --cafile, servers are trusted that none in the file vouches for, and nothing is said of it.
* `C95_bare_refuted`: ExpandEnvVars replaces $X wherever it stands (xcode_emulation.py:1848), also where the name goes on: with CONFIGURATION set, $CONFIGURATION_BUILD_DIR, which is another variable, becomes Release_BUILD_DIR. The doc string promises to expand $VARIABLES.
* `C96_objc_refuted`: What the user sets in CFLAGS (or CXXFLAGS) for a toolset is given to the compiler for C and C++ sources, but not for Objective-C and Objective-C++ sources: the commands for these name neither (make.py:592-596).
* `C97_newline_refuted`: A newline at the end of a text of letters is lost: the pattern for texts which need no quotes ends in a dollar sign, which also holds before a newline at the end (xcodeproj_file.py:160, 579), so the text is written without quotes.
* `C97_return_refuted`: A carriage return in a text is written as the escape for a newline, and read as one: the table of escapes has that escape for it (xcodeproj_file.py:283).
* `C97_slashes_refuted`: A text which starts with two slashes may be written without quotes, because slashes are among what needs none (xcodeproj_file.py:160), and is then read as a comment.
* `C98_emptied_refuted`: A run may say it is done, and another then empty a header and write it anew: on systems other than Windows every run extracts straight into the version directory (install.js:207), and one that has looked for the directory before it was complete does so even if it is complete by then (install.js:57-70). Whoever compiles with the headers the first run has installed may find them cut short.
* `C98_rollback_refuted`: A run whose download fails removes the whole version directory, also what another run has installed there and has said is done (install.js:367-372).
* `C99_product_dir_refuted`: Not so: an include directory below the product directory, written <(PRODUCT_DIR)/gen in a .gyp file, is kept in the command as "$(builddir)/gen" after the directory of the build file (compile_commands_json.py:17-34, 71-73), because only directories that begin with $(obj) are left out. A shell that reads the command runs a program called builddir there.

<!-- end findings -->
