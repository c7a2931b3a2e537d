{"id": "C01", "title": "Build order respects every dependency", "statement": "When the dependency phase of gyp succeeds on a set of targets, the flat target list handed to the generators contains every target exactly once and lists each target after all the targets it depends on.", "quantifier": "every finite set of targets, every dependency relation between them (any size, any shape) for which the phase succeeds", "why_tests_cant": "the guarantee is about all dependency graphs; a test fixes one graph", "anchors": ["gyp/pylib/gyp/input.py:BuildDependencyList", "gyp/pylib/gyp/input.py:DependencyGraphNode.FlattenToList"]}
{"id": "C02", "title": "Cycles between targets are always and only then rejected", "statement": "The dependency phase raises the circular-dependency error exactly when some target transitively depends on itself; an acyclic set of targets whose dependencies all exist is always accepted.", "quantifier": "every finite dependency graph whose edges point at existing targets", "why_tests_cant": "absence of false alarms and of missed cycles ranges over all graphs", "anchors": ["gyp/pylib/gyp/input.py:BuildDependencyList", "gyp/pylib/gyp/input.py:DependencyGraphNode.FlattenToList"]}
{"id": "C03", "title": "Build order does not depend on enumeration order", "statement": "The flat target list is a function of the set of targets and of each target's set of dependencies only: enumerating the targets, or listing the dependencies inside a target, in another order gives the identical list.", "quantifier": "every dependency graph and every permutation of its targets and of each dependency list", "why_tests_cant": "a test compares a handful of permutations; reproducible output needs all of them", "anchors": ["gyp/pylib/gyp/input.py:BuildDependencyList", "gyp/pylib/gyp/input.py:DependencyGraphNode.FlattenToList"]}
{"id": "C04", "title": "A dependency on a missing target is an error, never silently dropped", "statement": "If any target names a dependency that is not itself a target, the dependency phase fails with the unresolved-dependency error and yields no list.", "quantifier": "every target set with at least one dangling dependency", "why_tests_cant": "must hold for every position and combination of dangling references", "anchors": ["gyp/pylib/gyp/input.py:BuildDependencyList"]}
{"id": "C05", "title": "Circular .gyp files are detected", "statement": "With the circular check on, loading fails with the gyp-file cycle error exactly when the induced file-level dependency relation (ignoring dependencies inside one file) has a cycle.", "quantifier": "every set of targets spread over any number of files", "why_tests_cant": "the file graph is derived from the target graph; all derived shapes matter", "anchors": ["gyp/pylib/gyp/input.py:VerifyNoGYPFileCircularDependencies"]}
{"id": "C06", "title": "Deep dependencies are the transitive closure, each once", "statement": "The deep dependency list of a target is duplicate free, contains exactly the targets reachable from it through one or more dependency edges, and lists every member after the members it depends on.", "quantifier": "every acyclic dependency graph and every target in it", "why_tests_cant": "transitive closure correctness ranges over all graphs and path lengths", "anchors": ["gyp/pylib/gyp/input.py:DependencyGraphNode.DeepDependencies"]}
{"id": "C07", "title": "Imported dependencies follow export_dependent_settings exactly", "statement": "The direct-and-imported dependencies of a target are duplicate free and are exactly the direct dependencies plus everything reachable from them along export_dependent_settings links.", "quantifier": "every dependency graph and every export relation, of any depth, cyclic or not", "why_tests_cant": "a chain of re-exports may have any length; tests cover fixed ones", "anchors": ["gyp/pylib/gyp/input.py:DependencyGraphNode.DirectAndImportedDependencies", "gyp/pylib/gyp/input.py:DependencyGraphNode._AddImportedDependencies"]}
{"id": "C08", "title": "Link dependencies stop at linkable boundaries", "statement": "The list of targets a final target must link against is duplicate free, never contains a target hidden behind a shared library, loadable module or executable boundary, and contains every static library reachable without crossing one.", "quantifier": "every dependency graph and every assignment of target types", "why_tests_cant": "depends on all paths between two targets in arbitrary graphs", "anchors": ["gyp/pylib/gyp/input.py:DependencyGraphNode._LinkDependenciesInternal", "gyp/pylib/gyp/input.py:DependencyGraphNode.DependenciesToLinkAgainst"]}
{"id": "C09", "title": "Ordered set behaves as a duplicate-free insertion-ordered list", "statement": "After any sequence of add, discard and pop operations the ordered set contains exactly the members a mathematical set would, iterates them in order of first insertion since last removal, reverses that order under reversed(), and reports the matching length.", "quantifier": "every finite history of operations over any element type with decidable equality", "why_tests_cant": "linked-list corruption depends on the operation history; all histories must be covered", "anchors": ["gyp/pylib/gyp/common.py:OrderedSet"]}
{"id": "C10", "title": "Topological sort of environment variables", "statement": "The topological sort returns every node of the graph exactly once with each node before the nodes that its edges point to, and raises the cycle error exactly when the graph has a cycle.", "quantifier": "every finite graph", "why_tests_cant": "all graphs, all cycles", "anchors": ["gyp/pylib/gyp/common.py:TopologicallySorted"]}
{"id": "C11", "title": "Pruning keeps exactly the roots and their closure", "statement": "Restricting generation to root targets keeps exactly the targets named by the roots together with everything they transitively depend on, in the original order, and a root pattern naming no target is an error.", "quantifier": "every target set, dependency relation and list of root patterns", "why_tests_cant": "closure over arbitrary graphs", "anchors": ["gyp/pylib/gyp/input.py:PruneUnwantedTargets", "gyp/pylib/gyp/common.py:DeepDependencyTargets", "gyp/pylib/gyp/common.py:FindQualifiedTargets"]}
{"id": "C12", "title": "Qualified target names are unambiguous", "statement": "Qualifying a build file, target and toolset and parsing the result gives back the same three components whenever the target contains no ':' or '#' and the toolset no ':' or '#'; hence two different triples never collide. Parsing never loses characters.", "quantifier": "every build-file path (including ones containing ':' and '#'), every target name, every toolset", "why_tests_cant": "separator handling must be right for every string, including ones containing separators", "anchors": ["gyp/pylib/gyp/common.py:ParseQualifiedTarget", "gyp/pylib/gyp/common.py:QualifiedTarget", "gyp/pylib/gyp/common.py:ResolveTarget"]}
{"id": "C13", "title": "List merging keeps order and never duplicates singletons", "statement": "Appending a list keeps all old items in order and adds, in order, exactly the new items that are not already-present singletons; prepending puts the new singletons first in their order, with older copies removed. Merging the same all-singleton list twice is the same as merging it once.", "quantifier": "every pair of lists of arbitrary nested values", "why_tests_cant": "interaction of duplicates, order and nesting over all lists", "anchors": ["gyp/pylib/gyp/input.py:MergeLists"]}
{"id": "C14", "title": "Dictionary merge policies", "statement": "For each key of the merged-in dictionary: scalars overwrite, dictionaries merge recursively, lists append by default, and a key ending in '=', '+' or '?' replaces, prepends or sets-if-absent. Keys not mentioned are untouched, and policies that contradict each other for the same list are rejected.", "quantifier": "every pair of nested dictionaries", "why_tests_cant": "recursion over unbounded nesting and all key combinations", "anchors": ["gyp/pylib/gyp/input.py:MergeDicts"]}
{"id": "C15", "title": "Merging is type safe", "statement": "A merge either fails with a type error or produces a dictionary in which every pre-existing key keeps a value of the same kind (scalar, list, dict).", "quantifier": "every pair of nested dictionaries", "why_tests_cant": "all type combinations at all depths", "anchors": ["gyp/pylib/gyp/input.py:MergeDicts", "gyp/pylib/gyp/input.py:MergeLists"]}
{"id": "C16", "title": "List filters partition the list", "statement": "Applying '!' and '/' filters to a list splits it: surviving items stay in the list in order, removed items appear in the companion '_excluded' list in order, nothing is lost, invented or duplicated, and the filter keys disappear.", "quantifier": "every list, every exclusion list, every sequence of regex actions, every matching behaviour of the regexes", "why_tests_cant": "all lists and filter sequences", "anchors": ["gyp/pylib/gyp/input.py:ProcessListFiltersInDict"]}
{"id": "C17", "title": "In regex filters the last matching action wins", "statement": "An item is excluded exactly when the last filter that matches it is an exclude, or when it is named in the '!' list and no later include matches it.", "quantifier": "every list, exclusion list, action sequence and regex oracle", "why_tests_cant": "ordering of arbitrarily many actions", "anchors": ["gyp/pylib/gyp/input.py:ProcessListFiltersInDict"]}
{"id": "C18", "title": "First matching condition wins", "statement": "Evaluating a conditional section selects the dictionary of the first true condition, else the trailing else-dictionary if present, else nothing; malformed sections are always rejected.", "quantifier": "every conditional list of any length and every truth assignment of its expressions", "why_tests_cant": "if/elif/else chains of any length", "anchors": ["gyp/pylib/gyp/input.py:EvalCondition", "gyp/pylib/gyp/input.py:EvalSingleCondition"]}
{"id": "C19", "title": "Configuration inheritance", "statement": "A configuration receives the settings of all its ancestors, each before the configuration's own, ancestors inherited twice are merged once per path exactly as documented, and an inheritance cycle still terminates.", "quantifier": "every inheritance relation among configurations, including cyclic ones", "why_tests_cant": "termination and precedence over all inheritance graphs", "anchors": ["gyp/pylib/gyp/input.py:MergeConfigWithInheritance", "gyp/pylib/gyp/input.py:SetUpConfigurations"]}
{"id": "C20", "title": "Toolset expansion produces each requested toolset once", "statement": "Every target listing toolsets T1..Tn is replaced by n targets identical except for the toolset, one for each Ti; targets that already fix a toolset are left as is; nothing else is lost.", "quantifier": "every list of targets with every list of toolsets, at any conditional nesting", "why_tests_cant": "all lists and nestings", "anchors": ["gyp/pylib/gyp/input.py:ProcessToolsetsInDict"]}
{"id": "C21", "title": "Included-file closure", "statement": "The list of build files a file includes is duplicate free, contains exactly the files reachable through include links from it, starts with the file itself, and the computation terminates even if includes are circular.", "quantifier": "every include graph", "why_tests_cant": "termination and closure over all graphs", "anchors": ["gyp/pylib/gyp/input.py:GetIncludedBuildFiles"]}
{"id": "C22", "title": "Parallel loading loads exactly the reachable files under every schedule", "statement": "However the worker processes interleave, parallel loading of build files finishes, dispatches every file at most once, and ends with exactly the files reachable from the starting files - the same set as sequential loading; and it reports failure exactly if some reachable file fails.", "quantifier": "every dependency relation between files, every number of workers, every completion order", "why_tests_cant": "interleavings are unbounded", "anchors": ["gyp/pylib/gyp/input.py:LoadTargetBuildFilesParallel", "gyp/pylib/gyp/input.py:ParallelState.LoadTargetBuildFileCallback", "gyp/pylib/gyp/input.py:LoadTargetBuildFile"]}
{"id": "C23", "title": "Path-section recognition matches its specification", "statement": "A key is treated as a path section exactly when, after dropping trailing '=', '+', '?' and '!' characters, it is one of the declared path sections or ends in _dir, _file or _path with an optional plural s.", "quantifier": "every string", "why_tests_cant": "hand-optimised slicing must agree with the regular expression on every string", "anchors": ["gyp/pylib/gyp/input.py:IsPathSection"]}
{"id": "C24", "title": "Canonical-integer recognition", "statement": "A string is converted to an integer exactly when it is the decimal rendering of an integer: no leading zeros, no '-0', no '+', no blanks; hence conversion followed by rendering gives back the identical string.", "quantifier": "every ASCII string", "why_tests_cant": "all strings", "anchors": ["gyp/pylib/gyp/input.py:IsStrCanonicalInt"]}
{"id": "C25", "title": "Bracket matching in expansions", "statement": "The enclosing-bracket search returns the smallest balanced bracket group starting at the first opening bracket, or reports failure exactly if there is none or if brackets are mismatched.", "quantifier": "every input string", "why_tests_cant": "arbitrary nesting depth and mix of brackets", "anchors": ["gyp/pylib/gyp/input.py:FindEnclosingBracketGroup"]}
{"id": "C26", "title": "Relative paths lead back to the original", "statement": "Joining the relative path computed from a directory to a path with that directory and normalising gives the original absolute path; inverting a relative path composes to the identity.", "quantifier": "every pair of absolute normalised paths", "why_tests_cant": "all pairs of paths of any depth", "anchors": ["gyp/pylib/gyp/common.py:RelativePath", "gyp/pylib/gyp/common.py:InvertRelativePath"]}
{"id": "C27", "title": "Shell quoting is lossless", "statement": "Every argument encoded for a POSIX shell is read back by the shell's word-splitting and quote-removal as exactly one word equal to the argument (or, where the documented behaviour keeps $ active, with only $ active); an encoded list reads back as the same list. The ninja generator's quoting is an exception for arguments with backslashes or a final newline, which it may leave unquoted (finding).", "quantifier": "every byte string, every list of byte strings", "why_tests_cant": "metacharacters may appear in any combination", "anchors": ["gyp/pylib/gyp/common.py:EncodePOSIXShellArgument", "gyp/pylib/gyp/common.py:EncodePOSIXShellList", "gyp/pylib/gyp/generator/make.py:EscapeShellArgument", "gyp/pylib/gyp/generator/ninja.py:QuoteShellArgument"]}
{"id": "C28", "title": "Defines reach the compiler unaltered through make and the shell", "statement": "A preprocessor define escaped for a makefile survives make's line joining, comment stripping and variable expansion and then the shell, and arrives at the compiler byte for byte, unless it contains a newline or a backslash right before a number sign, where it is cut off (finding).", "quantifier": "every define string", "why_tests_cant": "two layers of interpretation, all strings", "anchors": ["gyp/pylib/gyp/generator/make.py:EscapeCppDefine"]}
{"id": "C29", "title": "C string literals round-trip", "statement": "The escaped form of a string placed between double quotes is read by a C lexer as a single string literal denoting the original bytes (where trigraphs are honoured: if the string has no two question marks in a row).", "quantifier": "every byte string", "why_tests_cant": "escape sequences must not run into the following characters for any string", "anchors": ["gyp/pylib/gyp/__init__.py:EscapeForCString"]}
{"id": "C30", "title": "Ninja files are read back as written", "statement": "Paths escaped for ninja are read back by ninja's lexer as the same paths (with references to ninja variables kept live), and wrapping long lines changes nothing: a build statement is read back as the same outputs, rule and inputs at any width. Exceptions are paths with an even number of dollar signs before a space, a dollar sign before a colon or at the end, or a bar, and lines with two spaces in a row (findings).", "quantifier": "every path and every line, every width", "why_tests_cant": "wrapping positions depend on all characters", "anchors": ["gyp/pylib/gyp/ninja_syntax.py:escape_path", "gyp/pylib/gyp/ninja_syntax.py:Writer._line"]}
{"id": "C31", "title": "XML output round-trips", "statement": "An XML parser reading a generated XML file finds exactly the elements, attributes and text that were specified, in order: no attribute value or text can end its attribute or element early, and pretty printing only adds blanks around the document and between the children of elements that have child elements. (Attribute values with a literal tab are excluded: the parser reads the tab as a space.)", "quantifier": "every specification of any depth whose names are XML names, every attribute value without a tab, every text, both print modes", "why_tests_cant": "all strings and all trees", "anchors": ["gyp/pylib/gyp/easy_xml.py:XmlToString", "gyp/pylib/gyp/easy_xml.py:_ConstructContentList", "gyp/pylib/gyp/easy_xml.py:_XmlEscape"]}
{"id": "C32", "title": "Response-file quoting round-trips on Windows", "statement": "An argument quoted for a response file is read back (percent signs singled by the batch interpreter, then CommandLineToArgvW) as one argument equal to the original, path-like ones normalised, unless it ends in a backslash, which swallows the closing quote (finding).", "quantifier": "every string, including ones ending in backslashes", "why_tests_cant": "backslash/quote interplay over all strings", "anchors": ["gyp/pylib/gyp/msvs_emulation.py:QuoteForRspFile"]}
{"id": "C33", "title": "Version comparison is a total order compatible with the version syntax", "statement": "Comparison of parsed versions is reflexive, transitive, antisymmetric up to equality and total; trailing zeros do not matter; dev < pre < final < post for the same release.", "quantifier": "all versions (any number of components and tags)", "why_tests_cant": "order laws quantify over all pairs and triples", "anchors": ["gyp/pylib/packaging/version.py:_cmpkey", "gyp/pylib/packaging/version.py:Version"]}
{"id": "C34", "title": "Sharding a target preserves its sources and dependencies", "statement": "Splitting a target into n shards gives each source to exactly one shard, and every target that depended on the original depends on all the shards.", "quantifier": "every source list, every shard count, every dependency list", "why_tests_cant": "round-robin partition over all lengths", "anchors": ["gyp/pylib/gyp/MSVSUtil.py:ShardTargets"]}
{"id": "C35", "title": "Affected-target analysis is complete and sound", "statement": "Given changed files, the analyzer marks a target as affected exactly when it, or some target it transitively depends on, directly uses one of the changed files; the answer does not depend on the order of traversal.", "quantifier": "every target graph and every set of changed files", "why_tests_cant": "memoised traversal over all graphs and visiting orders", "anchors": ["gyp/pylib/gyp/generator/analyzer.py:_GenerateTargets", "gyp/pylib/gyp/generator/analyzer.py:_DoesTargetDependOnMatchingTargets"]}
{"id": "C36", "title": "Generated files are replaced atomically and only if changed", "statement": "Writing an output file leaves the very file untouched if the content is the same; otherwise at every point where the process may die the file is its old self or holds the complete new content (on POSIX); when writing returns, the file holds the content and no temporary file remains; when it raises, the file is unchanged (on POSIX). (On Windows the old file can be lost; a failing write leaves the temporary file.)", "quantifier": "every old state of the file, every sequence of writes, every crash point and every combination of failing system calls", "why_tests_cant": "crash points cannot be enumerated by unit tests", "anchors": ["gyp/pylib/gyp/common.py:WriteOnDiff"]}
{"id": "C37", "title": "Installed headers are complete and verified", "statement": "When install reports success, the version directory holds its version file and every header of an archive that came from the given local file or was downloaded whole with the checksum listed for it (and on Windows the import library checked the same way); a failed install leaves no directory or the one that was there; after any history of finished installs, failures, removals, and kills that left the directory unmarked (or interrupted, on POSIX, a run on an unmarked directory that would have succeeded), a directory accepted by 'install --ensure' holds the headers of a genuine archive.", "quantifier": "all archives, checksum lists, server answers, failing calls, listing orders, directory contents, kill points and histories of runs", "why_tests_cant": "Which call fails, what the server sends and when the process dies are not under a test's control; the claim is about every history.", "anchors": ["lib/install.js:install", "lib/remove.js:remove"]}
{"id": "C38", "title": "Command-line commands are extracted in order", "statement": "Parsing the command line yields exactly the recognised command words among the positional arguments (short forms ls and rm spelled out), in order, each carrying the words that follow it up to the next command; only words before the first command are ignored. (Words that name a property of every JavaScript object, such as constructor, are found to be mangled.)", "quantifier": "every argument vector", "why_tests_cant": "all interleavings of commands and arguments", "anchors": ["lib/node-gyp.js:parseArgv"]}
{"id": "C39", "title": "Commands run in order and stop at the first failure", "statement": "Running node-gyp executes the queue in order: the commands given, then the commands that other commands append, in the order they were appended (rebuild appends clean, configure and build); no command runs after one has failed; the process always comes to an end and exits with 0 exactly if the whole queue ran with success, with 1 if a command failed, with 6 if a command never settled.", "quantifier": "every queue, every outcome of every command at every point of the run", "why_tests_cant": "unbounded sequences", "anchors": ["bin/node-gyp.js:run", "lib/rebuild.js:rebuild", "lib/install.js:eaccesFallback"]}
{"id": "C40", "title": "The first acceptable Python is chosen", "statement": "The Python search returns the path of the first candidate, in documented priority order (a forced one alone; else the option, the environment, the launcher on Windows, python3, python, the default locations on Windows), that can be started, prints a path, and whose path prints a supported version; it fails exactly if no candidate does. (The exit status of the probes is found to be ignored.)", "quantifier": "every configuration and every outcome of every probe", "why_tests_cant": "combinations of failures over the whole candidate list", "anchors": ["lib/find-python.js:findPython", "lib/find-python.js:checkCommand", "lib/find-python.js:checkExecPath"]}
{"id": "C41", "title": "The Visual Studio search returns a usable installation, newest first", "statement": "The installation returned has the MSBuild, toolset and SDK required, is of a supported year for the Node.js version, matches the user's requested version and command prompt, and no newer installation in the same list qualifies; if any installation qualifies, one is returned.", "quantifier": "every list of reported installations and every configuration", "why_tests_cant": "all combinations of reported packages", "anchors": ["lib/find-visualstudio.js:processData", "lib/find-visualstudio.js:checkConfigVersion"]}
{"id": "C42", "title": "No integers remain after stringification", "statement": "After loading, the result contains no integer (or boolean) at any depth; each became its canonical decimal rendering, and every string, key, list length and nesting is unchanged.", "quantifier": "every nested value with string keys (for integer keys the outcome depends on the internals of the Python dict, which is changed while iterated over)", "why_tests_cant": "unbounded nesting", "anchors": ["gyp/pylib/gyp/input.py:TurnIntIntoStrInDict", "gyp/pylib/gyp/input.py:TurnIntIntoStrInList"]}
{"id": "C43", "title": "Duplicate dictionary keys are always rejected on load", "statement": "Loading a build file fails exactly if at some depth a dictionary literal repeats a key or an unsupported expression occurs; otherwise the value loaded is the literal's value.", "quantifier": "every literal expression tree", "why_tests_cant": "unbounded nesting", "anchors": ["gyp/pylib/gyp/input.py:CheckNode", "gyp/pylib/gyp/input.py:CheckedEval"]}
{"id": "C44", "title": "Wildcard dependencies expand to exactly the matching targets", "statement": "A wildcard dependency is replaced in place by exactly the targets of the named file that match name and toolset and do not suppress wildcards, a same-file wildcard is rejected, no wildcard remains, and non-wildcard dependencies are untouched in order.", "quantifier": "every dependency list and every target set", "why_tests_cant": "all lists and target sets", "anchors": ["gyp/pylib/gyp/input.py:ExpandWildcardDependencies"]}
{"id": "C45", "title": "Duplicate removal keeps first occurrences", "statement": "Removing duplicate dependencies keeps exactly the first occurrence of each, in order; filtering removes all occurrences of one item and nothing else.", "quantifier": "every list", "why_tests_cant": "all lists", "anchors": ["gyp/pylib/gyp/input.py:Unify", "gyp/pylib/gyp/input.py:Filter", "gyp/pylib/gyp/input.py:RemoveDuplicateDependencies", "gyp/pylib/gyp/common.py:uniquer"]}
{"id": "C46", "title": "Default-valued variables never override", "statement": "A variable spelled with a trailing '%' takes effect exactly if the variable is not already set; others always override.", "quantifier": "every variables dictionary and every prior environment", "why_tests_cant": "all combinations", "anchors": ["gyp/pylib/gyp/input.py:LoadVariablesFromVariablesDict"]}
{"id": "C47", "title": "Dependent settings reach exactly the intended dependents", "statement": "all_dependent_settings of a target are merged into each target that transitively depends on it, direct_dependent_settings exactly into direct-and-imported dependents, and no one else's settings change.", "quantifier": "every dependency graph", "why_tests_cant": "all graphs", "anchors": ["gyp/pylib/gyp/input.py:DoDependentSettings"]}
{"id": "C48", "title": "Output-name collisions are detected", "statement": "Loading fails with the collision error exactly if two of the targets would generate the same output name in the same directory.", "quantifier": "every target list", "why_tests_cant": "all pairs", "anchors": ["gyp/pylib/gyp/input.py:VerifyNoCollidingTargets"]}
{"id": "C49", "title": "Static library dependency adjustment", "statement": "After adjustment a static library no longer lists hard-dependency-free static libraries as build prerequisites, keeps every hard dependency reachable, and a linkable target gains every static library it must link, with no duplicates.", "quantifier": "every acyclic dependency graph", "why_tests_cant": "all graphs", "anchors": ["gyp/pylib/gyp/input.py:AdjustStaticLibraryDependencies"]}
{"id": "C50", "title": "Memoised pure functions", "statement": "Calling a memoised function any number of times in any order gives the same results as the plain function.", "quantifier": "every call history", "why_tests_cant": "histories", "anchors": ["gyp/pylib/gyp/common.py:memoize", "gyp/pylib/gyp/input.py:cached_conditions_asts"]}
{"id": "C51", "title": "Variable and command references expand to what they stand for", "statement": "Expanding a text in a phase replaces every reference to a defined variable and every command, nested in names, values, brackets and list items to any depth, by what it stands for at its position (lists as shell arguments; canonical integers become integers) and leaves all other text alone; a whole-text list reference gives the list of expanded items or words; an undefined variable or a failing command is an error that names it, except that an undefined name ending in ! or / is an empty list.", "quantifier": "every text with references of any nesting, every set of variables, every phase, every command behaviour", "why_tests_cant": "unit tests expand a handful of fixed strings; nesting depth, interaction of replacements at several positions and re-expansion of results are unbounded", "anchors": ["gyp/pylib/gyp/input.py: ExpandVariables", "gyp/pylib/gyp/input.py: early_variable_re", "gyp/pylib/gyp/input.py: FindEnclosingBracketGroup"]}
{"id": "C52", "title": "Two definitions of the same target are rejected", "statement": "Loading fails with a duplicate-target error exactly when two target dicts yield the same qualified name (file, name, toolset), the error names such a target, and otherwise every target of every file is present once under its qualified name.", "quantifier": "every set of loaded build files and every list of target dicts in each", "why_tests_cant": "The duplicates may be in any pair of files and at any positions; only a proof covers all combinations, including the absence of false alarms.", "anchors": ["gyp/pylib/gyp/input.py: BuildTargetsDict", "gyp/pylib/gyp/common.py: QualifiedTarget"]}
{"id": "C53", "title": "Moving a path between build files keeps the file it denotes", "statement": "When a relative path is merged from one build file into another, the adjusted path, taken from the directory of the receiving file, denotes the same file as the original taken from the directory of its own file, and a trailing slash is kept; absolute paths, flags and values starting with an expansion are left exactly as written.", "quantifier": "every current directory, pair of build-file names and path item", "why_tests_cant": "The result depends on the relative position of three arbitrary paths; a finite set of examples misses combinations of '..', '.', repeated and trailing slashes.", "anchors": ["gyp/pylib/gyp/input.py:MakePathRelative", "gyp/pylib/gyp/common.py:RelativePath"]}
{"id": "C54", "title": "Dependency references resolve to the file they name, canonically", "statement": "A dependency written FILE:TARGET#TOOLSET in a build file resolves to the file reached from that build file's directory, with the written target and toolset or the default toolset; two references that lead to the same file get the same spelling, whatever file they are written in.", "quantifier": "every current directory, referencing file and reference", "why_tests_cant": "All relative spellings of all paths; equality of spellings decides whether two references mean the same target.", "anchors": ["gyp/pylib/gyp/common.py:ResolveTarget", "gyp/pylib/gyp/input.py:QualifyDependencies"]}
{"id": "C55", "title": "Copies made by merging are exact", "statement": "Merging a dictionary or list into an empty one of the same file reproduces it exactly, at every depth, as long as no list repeats a once-only item and no list key carries a policy suffix.", "quantifier": "every nested value", "why_tests_cant": "the copy is recursive over arbitrarily deep literals and the exceptions depend on equality between arbitrary items", "anchors": ["gyp/pylib/gyp/input.py:MergeLists", "gyp/pylib/gyp/input.py:MergeDicts"]}
{"id": "C56", "title": "No conditional section survives its phase", "statement": "After the early phase no 'conditions' section is left anywhere in the build file's data, and after the late phase no 'target_conditions' section: every one has been evaluated and removed, including those nested in chosen branches, in lists and in the variables section.", "quantifier": "every build file without policy-suffixed condition keys, every variable expansion and condition evaluator", "why_tests_cant": "nesting and branch combinations are unbounded, and merging can bring keys back", "anchors": ["gyp/pylib/gyp/input.py:ProcessVariablesAndConditionsInDict", "gyp/pylib/gyp/input.py:ProcessConditionsInDict"]}
{"id": "C57", "title": "Variable and condition processing terminates", "statement": "For every build file and every behaviour of variable expansion that yields flat lists, the phase pass terminates with a recursion no deeper than the nesting of its input, and does not deepen the nesting.", "quantifier": "every nested build file, every expansion and evaluation oracle", "why_tests_cant": "unbounded nesting; merged branches are processed again after merging", "anchors": ["gyp/pylib/gyp/input.py:ProcessVariablesAndConditionsInDict", "gyp/pylib/gyp/input.py:ProcessVariablesAndConditionsInList"]}
{"id": "C58", "title": "Targets to compile cover every affected target and nothing needless", "statement": "Given changed files and requested targets, every target the analyzer lists for compilation is affected and is, or is needed by, a requested target; every affected executable among those is listed; every affected target that building does something for is built by some listed target; a listed target that is not an executable is not already built by another listed one, unless it is a changed static library nobody links", "quantifier": "every acyclic target graph, set of changed files, requested names and set iteration order", "why_tests_cant": "a memoised upward search over all graphs with flags inherited between targets", "anchors": ["gyp/pylib/gyp/generator/analyzer.py:_AddCompileTargets", "gyp/pylib/gyp/generator/analyzer.py:_GetCompileTargets"]}
{"id": "C59", "title": "The version asked for decides what is fetched and where it is kept", "statement": "The first argument if it is a version, else the target option, else the running version is the one installed; anything else is reported as invalid. Its tarball, checksum list and import libraries are all taken from the one site given by the options (or the one the running node names), under the address of that version, and different releases are kept in different directories; the second attempt in a writable directory installs the same version.", "quantifier": "all argument lists, options, running versions and release data", "why_tests_cant": "Version strings, options and mirrors are unbounded and combine; tests fix a few.", "anchors": ["lib/process-release.js: processRelease", "lib/process-release.js: resolveLibUrl", "lib/install.js: install, eaccesFallback"]}
{"id": "C60", "title": "Removing a version removes its development files only", "statement": "remove with a version deletes exactly the directory of that version, and so undoes an install of it; every other path stays, and it says so if nothing is installed.", "quantifier": "all version strings, directories and file systems", "why_tests_cant": "Paths and file systems are unbounded.", "anchors": ["lib/remove.js: remove"]}
{"id": "C61", "title": "The configuration written is the one read", "statement": "What configure writes to build/config.gypi is read back by build (as JSON after dropping the comment line) and by gyp (as a Python literal) as the very same configuration, with true and false turned into the strings \"true\" and \"false\". This holds for every string in it, whatever quotes, backslashes, hash signs or control characters it contains; the exception is null, which gyp cannot read.", "quantifier": "every configuration value (nested objects, lists, strings, integers, booleans), of any size and depth", "why_tests_cant": "strings and nesting are unbounded, and the file is parsed by two different languages", "anchors": ["lib/create-config-gypi.js createConfigGypi", "lib/build.js loadConfigGypi", "gyp/pylib/gyp/input.py LoadOneBuildFile"]}
{"id": "C62", "title": "Header config.gypi means to node-gyp what it means to Python", "statement": "A config.gypi shipped with the headers that is written with apostrophes, comments between values and strings continued over lines is read by node-gyp as exactly the value Python reads. For texts with a hash sign, an apostrophe or a double quote inside strings this fails.", "quantifier": "every value and every text writing it in the plain style, with arbitrary comments and white space between tokens", "why_tests_cant": "the conversion by regular expressions works on unbounded texts and depends on what surrounds each quote", "anchors": ["lib/create-config-gypi.js parseConfigGypi", "lib/create-config-gypi.js getBaseConfigGypi"]}
{"id": "C63", "title": "Where each setting in config.gypi comes from", "statement": "An option takes its value from the last npm_config_ variable that names it, else from the command line. Options that are not node-gyp's own become gyp variables with dashes turned into underscores; target_arch, nodedir, python, standalone_static_library and the Visual Studio settings are set by node-gyp; cflags, defines, include_dirs and libraries of the base configuration are emptied; everything else is as in the base configuration, which is the header's when nodedir or a dist URL is given and process.config otherwise. So the value of an npm_config_ variable reaches gyp unchanged.", "quantifier": "every environment, command line, base configuration, platform and Visual Studio installation", "why_tests_cant": "options, environment variables and base configurations combine without bound, and later steps may overwrite what earlier steps set", "anchors": ["lib/create-config-gypi.js getCurrentConfigGypi", "lib/create-config-gypi.js getBaseConfigGypi", "lib/node-gyp.js parseArgv"]}
{"id": "C64", "title": "build runs the build tool on what was configured and asked for", "statement": "node-gyp build runs make (gmake where GNU make has that name, or the command given by --make or MAKE) in build/ with exactly the named targets as goals, the build type given by --debug or else the configured one, and the number of jobs of --jobs or JOBS; on Windows it runs the configured MSBuild on the chosen or first solution with the same targets, configuration and platform. A build without configure runs nothing, and configure's choice of build type is kept by later builds.", "quantifier": "every platform, set of options, environment, configuration written by configure, list of targets and number of processors", "why_tests_cant": "the combinations of options, environment, platform and configuration are unbounded, and tests only look at a few argument lists", "anchors": ["lib/build.js:build", "lib/build.js:loadConfigGypi", "lib/build.js:doBuild", "lib/create-config-gypi.js:getCurrentConfigGypi"]}
{"id": "C65", "title": "Which variables are seen where in a .gyp file", "statement": "At each pass over a .gyp file, every string, condition and list item is expanded with exactly the variables that are in scope at its place: those set by the enclosing dict's variables section, else the dict's own strings, ints and lists under _name, else what is seen around the dict, else the defaults (name%) of the dict's variables section. A variables section sees all its own entries. What an inner dict sets or says is not seen beside it or around it.", "quantifier": "every dict, phase, surrounding variables, expansion and condition oracle, at any depth", "why_tests_cant": "Scoping bugs show only for particular nestings of variables, defaults, conditions and lists; the claim is about every nesting, and about the absence of leaks.", "anchors": ["gyp/pylib/gyp/input.py ProcessVariablesAndConditionsInDict", "gyp/pylib/gyp/input.py ProcessVariablesAndConditionsInList", "gyp/pylib/gyp/input.py LoadAutomaticVariablesFromDict", "gyp/pylib/gyp/input.py LoadVariablesFromVariablesDict", "gyp/pylib/gyp/input.py ProcessConditionsInDict"]}
{"id": "C66", "title": "gyp's command line means what its help says", "statement": "For every command line, gyp either stops or reads it in exactly one way: each option, in any of its spellings (short with its value attached or apart, long, cut short where that is unambiguous, with = or apart), counts; the last of an option that takes one value and the last definition of a name prevail; the environment comes before the command line and not at all under --ignore-environment; everything that is no option is a build file.", "quantifier": "all argument lists, environments and default formats", "why_tests_cant": "the grammar has unboundedly many spellings and orders, and what prevails depends on the whole line", "anchors": ["gyp/pylib/gyp/__init__.py: gyp_main, NameValueListToDict, ShlexEnv", "argparse.ArgumentParser.parse_known_args"]}
{"id": "C67", "title": "What configure hands to gyp", "statement": "For every package directory, platform and list of arguments the user passes through, configure makes gyp generate binding.gyp with the user's own arguments and node-gyp's: node-gyp's variables, depth, output directory and output_dir flag prevail over the user's, its include files follow the user's, the format is the platform's unless the user asks for one, and all other settings are the user's; it stops exactly where the exported symbols or zoslib's headers it needs are missing.", "quantifier": "all platforms, file systems, argument lists without --, environments", "why_tests_cant": "the two argument lists interact through gyp's parsing and last-wins rules, for every user argument list", "anchors": ["lib/configure.js: configure, runGyp, findConfigs", "lib/util.js: findAccessibleSync", "gyp/pylib/gyp/__init__.py: gyp_main"]}
{"id": "C68", "title": "A Makefile remakes itself the same way", "statement": "For every command line and environment whose depth is its top directory, the command that the generated Makefile contains for remaking itself, run in the top directory under any other environment, makes a run with the same build files, include files, directories, variables, generator flags and other settings, and its words reach gyp unchanged through make and the shell.", "quantifier": "all argument lists, environments (then and now), working directories", "why_tests_cant": "the flags are written from the merged options and read again by the same parser, and paths are rebased; it must hold for every combination", "anchors": ["gyp/pylib/gyp/__init__.py: RegenerateFlags, RegenerateAppendFlag, FormatOpt", "gyp/pylib/gyp/generator/make.py: WriteAutoRegenerationRule", "gyp/pylib/gyp/common.py: FixIfRelativePath, EncodePOSIXShellList"]}
{"id": "C69", "title": "Which headers an addon is compiled against", "statement": "With --nodedir the headers in that directory (a leading ~ being the home directory) are used; with a node built to look in its prefix, the headers there are used exactly if its node_version.h gives the version wanted; otherwise that version is installed into the development directory, or the configuration fails if it is no version. On Windows Visual Studio is looked for exactly if no make format was asked for, and node's own directory is found from where node-gyp is and else from where the executable is.", "quantifier": "every --nodedir, prefix, text of node_version.h, wanted version, home directory, argument list and location of node-gyp and node", "why_tests_cant": "tests use a handful of directories; the text of the header, the home directory and the layout of the installation vary without bound", "anchors": ["lib/configure.js: configure, getNodeDir, createBuildDir", "lib/find-node-directory.js: findNodeDirectory"]}
{"id": "C70", "title": "A changed command line is noticed", "statement": "The generated Makefile runs a command again exactly if its text differs from the one recorded when its target was last made; the comparison by substitution never takes two different commands for the same, and a recorded command is read back as it was written.", "quantifier": "every pair of command texts", "why_tests_cant": "the comparison is a trick with make's text functions that has to be right for all pairs of texts, including repetitions of one another", "anchors": ["gyp/pylib/gyp/generator/make.py: SHARED_HEADER (command_changed, do_cmd, escape_vars, exact_echo)"]}
{"id": "C71", "title": "An incremental build gives what a build from scratch gives", "statement": "After any history of edits, removed files, changed settings, completed, failed and stopped builds, building with the generated Makefile leaves every target with the contents that a build from scratch would give it, fails exactly if that would fail, and a build right after it runs nothing.", "quantifier": "every history, every order of commands that keeps prerequisites first, every set of commands that depend only on what they report to have read", "why_tests_cant": "a claim about all histories and crash points; tests build a few projects once or twice", "anchors": ["gyp/pylib/gyp/generator/make.py: SHARED_HEADER (do_cmd, prereq_changed, fixup_dep), SHARED_FOOTER, MakefileWriter.WriteDoCmd, MakefileWriter.WriteMakeRule"]}
{"id": "C72", "title": "make learns from a depfile just the headers the compiler listed", "statement": "For every compiler output listing the files an object was made from, on any number of lines, the processed depfile tells make that the object depends on exactly these files, and that any of them may be missing without an error.", "quantifier": "every list of names without special characters, every layout over lines and blanks, target named with or without its directory", "why_tests_cant": "sed and grep pipelines act on every text a compiler may write; tests see the output of one compiler for a few files", "anchors": ["gyp/pylib/gyp/generator/make.py: SHARED_HEADER fixup_dep, depfile, DEPFLAGS"]}
{"id": "C73", "title": "A parallel build never starts anything before what it depends on", "statement": "For every project and every number of parallel jobs, make starts an action, rule, copy or compilation of a target only after the products of all targets it depends on, directly or through others, are finished; generated files come before compiling, compiling and libraries before linking, linking before installing.", "quantifier": "every list of targets, every schedule that the prerequisites in the generated Makefile allow", "why_tests_cant": "a race shows up in a few of very many schedules; tests run one", "anchors": ["gyp/pylib/gyp/generator/make.py: MakefileWriter.Write, WriteActions, WriteRules, WriteCopies, WriteSources, WriteTarget, WriteMakeRule, ComputeDeps"]}
{"id": "C74", "title": "make builds every target asked for, with all its parts", "statement": "For every project, plain make builds the product of every target of the given build files, make NAME that of the named target, and each product brings its generated files, its objects and the products of its dependencies.", "quantifier": "every list of targets of every type, with any actions, rules, copies, sources and dependencies", "why_tests_cant": "a missing edge for one combination of type, product name and contents goes unnoticed until a project has it", "anchors": ["gyp/pylib/gyp/generator/make.py: MakefileWriter.WriteTarget, _InstallableTargetInstallPath, ComputeOutput, WriteMakeRule, GenerateOutput"]}
{"id": "C75", "title": "A command is run again exactly when there is a reason", "statement": "For every project and every state of the disk, make with the generated Makefile runs the command for a compiled, copied, linked or installed file, or for the single output of an action, exactly if the command line differs from the recorded one or some prerequisite, including the headers read last time, is newer or missing.", "quantifier": "all projects, all files on disk with any times and any recorded commands, all command lines", "why_tests_cant": "the reasons come from several rules, the recorded commands and which records are read at all; a test shows one state", "anchors": ["gyp/pylib/gyp/generator/make.py: WriteDoCmd, WriteMakeRule, command_changed, prereq_changed, do_cmd", "gyp/pylib/gyp/generator/make.py: WriteRules, WriteTarget"]}
{"id": "C76", "title": "Incremental builds of a whole project are right", "statement": "For every project of actions with one output, copies, sources, executables, shared libraries, addons and stamps, every order that make may take, and every history of edits, removals and earlier builds, a build with the generated Makefile leaves exactly what a build from scratch leaves, fails exactly if that fails, and a second build does nothing.", "quantifier": "all such projects, all orders, all histories, all commands that read only what they may and list", "why_tests_cant": "needs all histories and all orders at once, and that the prerequisites written for every kind of target suffice together", "anchors": ["gyp/pylib/gyp/generator/make.py: MakefileWriter.Write, WriteDoCmd, do_cmd, all_deps", "gyp/pylib/gyp/generator/make.py: GenerateOutput"]}
{"id": "C77", "title": "Each action runs its own command", "statement": "For every project in which the make variables made from target and action names differ, the recipe for an action runs that action's command line, in the directory of its build file, with the output's directory made first.", "quantifier": "all projects and all names of targets and actions", "why_tests_cant": "names are squeezed into variable names, so only certain pairs of names collide; tests use tame names", "anchors": ["gyp/pylib/gyp/generator/make.py: StringToMakefileVariable, WriteActions, WriteRules"]}
{"id": "C78", "title": "An object is compiled from its own source", "statement": "In a generated Makefile, the object of a source, whether it lies in the tree, was generated for all targets or for one, is compiled from that source with the compiler for its extension, as long as no other file fits the same pattern; targets with different names or toolsets share no object, and two sources of a target in the tree do only if they are the same file but for the extension.", "quantifier": "all lists of targets, all orders of the sets of extensions and toolsets, all sets of files present, all sources with plain names", "why_tests_cant": "which rule make takes depends on which files happen to exist and on the order of a Python set", "anchors": ["gyp/pylib/gyp/generator/make.py:WriteRootHeaderSuffixRules", "gyp/pylib/gyp/generator/make.py:MakefileWriter.__init__", "gyp/pylib/gyp/generator/make.py:Write", "gyp/pylib/gyp/generator/make.py:Objectify", "gyp/pylib/gyp/generator/make.py:Target"]}
{"id": "C79", "title": "Everything listed goes into the product", "statement": "In a generated Makefile each output of an action or rule is made from each of its inputs; every source in a language, listed or generated, is compiled and its object linked; copied files go to the directory named, under their own name; and no command stands for several files, so none is run twice in a build.", "quantifier": "all lists of targets with distinct names that the generator accepts, all rules, sources and copies", "why_tests_cant": "an omission shows only in an incremental or parallel build of the particular project", "anchors": ["gyp/pylib/gyp/generator/make.py:WriteActions", "gyp/pylib/gyp/generator/make.py:WriteRules", "gyp/pylib/gyp/generator/make.py:WriteCopies", "gyp/pylib/gyp/generator/make.py:WriteSources", "gyp/pylib/gyp/generator/make.py:WriteMakeRule", "gyp/pylib/gyp/generator/make.py:ExpandInputRoot"]}
{"id": "C80", "title": "A command reference gives what its command prints", "statement": "In a .gyp file <!(...) is replaced by what the command prints, run in the directory of the build file; the command is run once for each text and directory, a command that fails is an error, and the working directory of gyp is the same before and after, whatever commands and modules do.", "quantifier": "all sequences of command references, all behaviours of commands, modules and the file system", "why_tests_cant": "Which answer a reference gets depends on every reference met before it, on what commands do and when they fail; tests try a few sequences.", "anchors": ["gyp/pylib/gyp/input.py: ExpandVariables, cached_command_results, FixupPlatformCommand"]}
{"id": "C81", "title": "Compiled and linked with the flags of the configuration being built", "statement": "In a build from generated Makefiles each source is compiled by the compiler of its target's toolset with exactly the defines, include directories and flags its target has for the configuration that is built, each as one argument and character for character, C sources with the C flags and C++ sources with the C++ flags. Programs, shared libraries and addons are linked with the flags and library directories of that configuration, with run paths if they use shared libraries, and with each of their libraries once. It does not matter which targets were written before or after.", "quantifier": "every set of targets in every order, every configuration, every define, directory and flag of the described form, every setting of the compilers", "why_tests_cant": "flags pass through three languages (make's line joining, comments and expansion, and the shell's words) and through variables all targets share, so any text and any order of targets could interfere", "anchors": ["gyp/pylib/gyp/generator/make.py:WriteSources", "gyp/pylib/gyp/generator/make.py:WriteTarget", "gyp/pylib/gyp/generator/make.py:WriteList", "gyp/pylib/gyp/generator/make.py:QuoteIfNecessary", "gyp/pylib/gyp/generator/make.py:EscapeCppDefine", "gyp/pylib/gyp/common.py:uniquer"]}
{"id": "C82", "title": "A Visual Studio project compiles the target's sources and nothing else", "statement": "In a generated Visual Studio project each C or C++ source of a target, and each one an action makes for it, has exactly one item, in the group of files to compile, not excluded from the build, and read by MSBuild as that very file, provided no rule takes it and the target does not name it as excluded or as the input of an action or a copy. In a target without rules nothing else with a relative path is compiled. Two files below the directory of the .gyp file that are compiled to one object differ only in the extension. Without precompiled headers a project below another directory is always written.", "quantifier": "every target, every list of sources, actions, copies and rules, every way to write a relative path, every number of directories between project and .gyp file", "why_tests_cant": "the same file can be written in unboundedly many ways and be named by sources, exclusions, actions and copies at once, and each path passes through three normalisations before it is compared", "anchors": ["gyp/pylib/gyp/generator/msvs.py:_GenerateMSBuildProject", "gyp/pylib/gyp/generator/msvs.py:_PrepareListOfSources", "gyp/pylib/gyp/generator/msvs.py:_AdjustSourcesAndConvertToFilterHierarchy", "gyp/pylib/gyp/generator/msvs.py:_FixPath", "gyp/pylib/gyp/generator/msvs.py:_NormalizedSource", "gyp/pylib/gyp/generator/msvs.py:_AddSources2", "gyp/pylib/gyp/generator/msvs.py:_FilterActionsFromExcluded"]}
{"id": "C83", "title": "The actions and copies of a Visual Studio project are each run once, in order, up to the first failure", "statement": "For every target whose project is generated, there is exactly one custom build for each file that is the first input of an action (the .gyp file for an action without inputs) or that is copied. Its script runs the commands of the actions beginning with that file in the order of the .gyp file and then, for each directory the file is copied to, makes that directory and copies the file into it under its own name. As MSBuild reads it, it depends on every input of those actions and promises every output of them, and (without copies) no other. cmd.exe runs its commands one after the other up to the first that fails, with that exit code, if no command sets a variable ERRORLEVEL.", "quantifier": "every target with any number of actions and copies, inputs and outputs, every prefix of the .gyp file's directory, every behaviour of the programs run and every state of the disk", "why_tests_cant": "The lists are unbounded and the script is text that MSBuild unescapes and cmd.exe splits at ampersands and quotes; tests run a few scripts on one disk", "anchors": ["gyp/pylib/gyp/generator/msvs.py: _AddActions", "gyp/pylib/gyp/generator/msvs.py: _GetCopies", "gyp/pylib/gyp/generator/msvs.py: _AddActionStep", "gyp/pylib/gyp/generator/msvs.py: _GenerateActionsForMSBuild", "gyp/pylib/gyp/generator/msvs.py: _AddMSBuildAction"]}
{"id": "C84", "title": "A program run by an action in a Visual Studio project gets the arguments the action names", "statement": "For every action that is not run by cygwin, the command line written to the project is one command for cmd.exe, and the program, reading it by the rules of CommandLineToArgvW, gets exactly one argument for each of the action's: options (beginning with a slash or a dash, or with an equals sign in it, or empty) unchanged, every other one as a path with slashes that leads from the project's directory to the same file. Blanks and ampersands in an argument do not part it.", "quantifier": "every program name, every list of arguments of any length without characters that cmd.exe or MSBuild replace, every prefix of the .gyp file's directory", "why_tests_cant": "Any argument text and any number of arguments; quoting bugs show only for particular combinations of blanks, quotes and backslashes", "anchors": ["gyp/pylib/gyp/generator/msvs.py: _BuildCommandLineForRule", "gyp/pylib/gyp/generator/msvs.py: _BuildCommandLineForRuleRaw", "gyp/pylib/gyp/generator/msvs.py: _FixPath", "gyp/pylib/gyp/MSVSSettings.py: FixVCMacroSlashes"]}
{"id": "C85", "title": "Visual Studio projects pass the defines, directories and libraries of a target on to the compiler and the linker", "statement": "Whenever the settings of a configuration are generated, MSBuild reads in PreprocessorDefinitions of the compiler, behind what the user has set there themselves, every define of the configuration, in order and with its value, and then what is inherited: percent signs are doubled and a # is given by its number, nothing else is changed whatever characters are in it. In AdditionalIncludeDirectories (of the compiler, the resource compiler and midl) and AdditionalLibraryDirectories it reads, in order, the same directories as the target names, relative ones as seen from the project. In AdditionalDependencies it reads every library once, where it comes last, with -l taken off and .lib added if it has no extension.", "quantifier": "every prefix of the .gyp file's directory, all settings of the user, all lists of defines, directories and libraries of any length; directories without macros and wildcards", "why_tests_cant": "Any characters in a define and any lists and settings; escaping bugs show only for particular characters, and a lost or reordered item only with particular settings of the user", "anchors": ["gyp/pylib/gyp/generator/msvs.py: _FinalizeMSBuildSettings", "gyp/pylib/gyp/generator/msvs.py: _EscapeCppDefineForMSBuild", "gyp/pylib/gyp/generator/msvs.py: _GetIncludeDirs", "gyp/pylib/gyp/generator/msvs.py: _GetLibraries", "gyp/pylib/gyp/generator/msvs.py: _GetValueFormattedForMSBuild"]}
{"id": "C86", "title": "Properties of Visual Studio projects evaluate to what was asked for, and the linker writes the file that TargetPath names", "statement": "When MSBuild evaluates the property group of a project for one of its configurations, each property given for that configuration ends with the value given, in which references to other properties have been replaced by the final values of those, in whatever order and for whichever configurations they were given (a reference of a property to itself stands for the value it had before), and no other property changes; generation fails only if a property refers to itself by way of others. For an executable, shared library or loadable module with a product name and extension and the default directories the group is always generated, OutDir is the directory of the configuration, and the linker's OutputFile, TargetPath and TargetName with TargetExt all name the same file in it.", "quantifier": "every list of configurations and properties, every order in which Python walks through a set; names spelled alike, and each given once per configuration or with one plain value; for the product every target of these types and all other settings of the user", "why_tests_cant": "Which order is right depends on all references at once, and a value is made unconditional by counting; tests try a few fixed projects", "anchors": ["gyp/pylib/gyp/generator/msvs.py: _GetMSBuildPropertyGroup", "gyp/pylib/gyp/generator/msvs.py: _AddConditionalProperty", "gyp/pylib/gyp/generator/msvs.py: _GetMSBuildConfigurationGlobalProperties", "gyp/pylib/gyp/generator/msvs.py: _GetMSBuildAttributes", "gyp/pylib/gyp/common.py: TopologicallySorted"]}
{"id": "C87", "title": "Visual Studio settings reach the compiler and linker with their meaning, and none is lost without a warning", "statement": "A setting of a tool in msvs_settings is in the project under the name MSBuild has for it: a number as the word that is documented for it (RuntimeLibrary 2 as MultiThreadedDLL, and so on), switches, texts, lists and numbers with the value given, and settings that are new in MSBuild as they are; this does not depend on the other settings. Every setting of the documented list of each tool is known, as a switch, text, list, number or word, and no other one. There is a warning exactly for unknown tools, for unknown settings that are no exclusion list of a known one, and for values the setting cannot have. Each setting without a warning is in the output, except exclusion lists, the three settings MSBuild has no more, and flags that are off; and nothing is in the output that was not asked for. The conversion fails exactly if a list is given where there must be a text. Of the settings which the generator does not set itself, the value is written into the project. Options given as a text before characters are made unsigned are kept.", "quantifier": "every dictionary of tools, settings and values (texts and lists), and every order in it; texts without macros where the value is said to be unchanged", "why_tests_cant": "There are 264 settings, whose order and combination matter where two become the same one; tests check one dictionary", "anchors": ["gyp/pylib/gyp/MSVSSettings.py: ConvertToMSBuildSettings", "gyp/pylib/gyp/MSVSSettings.py: _Renamed", "gyp/pylib/gyp/MSVSSettings.py: _MovedAndRenamed", "gyp/pylib/gyp/MSVSSettings.py: _Enumeration", "gyp/pylib/gyp/MSVSSettings.py: _ConvertedToAdditionalOption", "gyp/pylib/gyp/generator/msvs.py: _FinalizeMSBuildSettings"]}
{"id": "C88", "title": "A Visual Studio solution has exactly the projects its .gyp file needs, and builds configurations they have", "statement": "The solution written for a .gyp file has each target of that file and each target those depend on, directly or through others, exactly once and no other project; each project has its name, its path relative to the solution and its GUID, and lists the GUIDs of its dependencies. Each configuration of a target is one of the solution, in which the project builds the configuration of that name, which is one of those in the project file; when compiling for arm64 on another machine, host tools are built for x64. The project file is beside the .gyp file, and its GUID is the one given, if it is well formed, or depends on the path only.", "quantifier": "all lists of targets with any dependencies (also cyclic), .gyp files in any directories, configurations and platforms, and all orders in which Python may walk through sets", "why_tests_cant": "the dependencies are walked by popping from a set, the folders are merged and collapsed in place, and the pieces of the file come from four different walks that must agree; a test has one set of targets and one order", "anchors": ["gyp/pylib/gyp/generator/msvs.py: _GatherSolutionFolders", "gyp/pylib/gyp/generator/msvs.py: _CreateProjectObjects", "gyp/pylib/gyp/generator/msvs.py: GenerateOutput", "gyp/pylib/gyp/MSVSNew.py: MSVSSolution.Write", "gyp/pylib/gyp/common.py: DeepDependencyTargets"]}
{"id": "C89", "title": "On macOS the compiler, the linker and the product are what xcode_settings ask for", "statement": "For every configuration of a target that is no bundle, whose settings are spelled as they should be (lists for the keys that take several things, texts for the others): the flags for all sources are exactly those that the settings ask for, with the documented meaning of a setting that is left out, for the SDK, the one active architecture and the least version of the system; the flags for C, C++, Objective-C and Objective-C++ likewise, C++ inheriting those for C where it refers to them; the linker gets its flags with the files in them named from the build directory, the install name, the search paths and the SDK; libraries become -framework, -l or paths into the SDK; the product has the name for its type; keys for another SDK count for nothing.", "quantifier": "all settings of all configurations, SDK paths, Xcode versions, sets of existing files, framework directories, names of targets and libraries", "why_tests_cant": "the settings combine freely, their meaning depends on the SDK, Xcode's version and the other settings, and tests run on one machine", "anchors": ["gyp/pylib/gyp/xcode_emulation.py XcodeSettings", "gyp/pylib/gyp/xcode_emulation.py XcodeArchsDefault", "gyp/pylib/gyp/generator/make.py WriteSources", "gyp/pylib/gyp/generator/make.py WriteTarget"]}
{"id": "C90", "title": "ninja makes what a target depends on first, and all of it", "statement": "With the build files of the ninja generator, in everything ninja may do: before an action, a rule (but see the finding) or a copy of a target is begun, everything that the targets it depends on, through any number of others, generate, compile and link has been made; a source is compiled after all that the target and those behind it generate; a target is linked after its objects, what it generates, and everything of what it depends on. \"ninja all\" sees to everything of the targets of the build files given, \"ninja NAME\" to everything of the target of that name, in both cases with all they depend on. A binary is linked with the C++ linker if and only if there are C++ sources in the target or behind it. It is linked from all its objects, its static libraries and the tables of contents of its shared libraries, under the name its type, prefix and extension give it.", "quantifier": "Every list of targets with any dependencies, actions, rules, copies and sources, every configuration name, digest, and way to the top; every run of ninja with any number of jobs.", "why_tests_cant": "The order must hold for every schedule of a parallel build and every shape of the dependency graph; a missing order-only dependency shows up only in rare runs.", "anchors": ["gyp/pylib/gyp/generator/ninja.py: NinjaWriter.WriteSpec", "gyp/pylib/gyp/generator/ninja.py: NinjaWriter.WriteActionsRulesCopies", "gyp/pylib/gyp/generator/ninja.py: NinjaWriter.WriteRules", "gyp/pylib/gyp/generator/ninja.py: NinjaWriter.WriteLinkForArch", "gyp/pylib/gyp/generator/ninja.py: GenerateOutputForConfig"]}
{"id": "C91", "title": "Ninja gives the programs of actions and rules the arguments that were named", "statement": "With the files of the ninja generator, the build statement of an action, and of a rule for each of its sources, names a ninja rule whose command line, as ninja and then the shell read it, goes to the directory of the .gyp file and runs there the program with exactly the arguments of the action or rule, with the build directory, the directory of generated files, the configuration and, for rules, the path, directory, name, root and extension of the source in their places, whatever quotes and other special characters there are; no two ninja rules share a name if the names in the .gyp file differ in letters, digits and underscores, and those of different targets never do", "quantifier": "every target, action, rule, source and list of arguments without newlines, dollar signs and two blanks in a row, any length of lines", "why_tests_cant": "quoting passes three readers (the folding of lines, ninja's variables and the shell), each with its own special characters, and a test fixes a few arguments", "anchors": ["gyp/pylib/gyp/generator/ninja.py:WriteNewNinjaRule", "gyp/pylib/gyp/generator/ninja.py:WriteActions", "gyp/pylib/gyp/generator/ninja.py:WriteRules", "gyp/pylib/gyp/generator/ninja.py:ExpandSpecial", "gyp/pylib/gyp/ninja_syntax.py:Writer._line", "gyp/pylib/gyp/common.py:EncodePOSIXShellArgument"]}
{"id": "C92", "title": "Ninja compiles each source to an object of its own", "statement": "With the files of the ninja generator, every source in C, C++ or assembler, in the tree or generated in the product or the intermediate directory, is compiled by the compiler for its extension, from the file the .gyp file names, to an object inside the build directory; two sources of a target that come from one of these places share an object only if they differ in the extension alone, and sources of different targets without dots in their names only if the names, toolsets, directories and stems are the same", "quantifier": "every project, target, source path without \"..\", and place of the build directory", "why_tests_cant": "the objects' names are made of four parts that are joined and normalised, and whether two of all possible ones coincide cannot be seen from examples", "anchors": ["gyp/pylib/gyp/generator/ninja.py:GypPathToUniqueOutput", "gyp/pylib/gyp/generator/ninja.py:GypPathToNinja", "gyp/pylib/gyp/generator/ninja.py:WriteSourcesForArch", "gyp/pylib/gyp/generator/ninja.py:ExpandSpecial"]}
{"id": "C93", "title": "The certificates of the --cafile file are the ones trusted", "statement": "With --cafile, a download trusts exactly the certificates in the named file, each of them and in their order, whatever text stands between them; texts that are not certificates are never taken for one; a file that cannot be read stops the download.", "quantifier": "every file of any number of certificates with any text before, between and behind them, and every other file", "why_tests_cant": "The file is the user's, of any length and form; a test reads one bundle.", "anchors": ["lib/download.js:readCAFile", "lib/download.js:download"]}
{"id": "C94", "title": "A value of the Windows registry is found under the first key that has it", "statement": "Looking up a value under several keys gives the data that reg.exe lists for the first key that has it, whole and without the end of the line; keys for which reg.exe fails or writes an error are passed over; if all do, nothing is found; and whatever reg.exe writes, what is found is one line of it.", "quantifier": "every list of keys, every name, type and data of a value, any key lines and empty lines before it, any text behind it, and any answer of reg.exe", "why_tests_cant": "The result depends on a regular expression with back-tracking over text of another program; a test shows it a few outputs.", "anchors": ["lib/util.js:regGetValue", "lib/util.js:regSearchKeys"]}
{"id": "C95", "title": "Variables of Xcode stand for what their definitions say", "statement": "On macOS the variables for a target's actions and post-build steps are listed so that each stands behind all that its text refers to; references in any of the three ways of writing are understood; a cycle is an error and nothing else is; and a text with references becomes what it stands for, through any number of definitions, with undefined variables left alone.", "quantifier": "every set of settings and variables, every text of plain text and references, and every order in which a set is enumerated", "why_tests_cant": "Definitions can refer to each other to any depth and in any graph; a test shows one chain, and the order of a set varies from run to run.", "anchors": ["gyp/pylib/gyp/xcode_emulation.py:_NormalizeEnvVarReferences", "gyp/pylib/gyp/xcode_emulation.py:ExpandEnvVars", "gyp/pylib/gyp/xcode_emulation.py:_TopologicallySortedEnvVarKeys", "gyp/pylib/gyp/xcode_emulation.py:GetSortedXcodeEnv"]}
{"id": "C96", "title": "What compilers and linkers are given on macOS", "statement": "With a Makefile generated for macOS, each source of a target is compiled by the compiler for the target's toolset with the target's defines and include directories and exactly the flags that xcode_settings ask for in the configuration being built, with those for its language (C, C++, Objective-C, Objective-C++), and each target is linked (a static library archived) with the flags, library directories and libraries, each once, that its settings ask for, every flag arriving as the words it consists of, whatever other targets are in the Makefile.", "quantifier": "every machine, list of targets, configuration, xcode_settings, defines, include directories, libraries and values of the user's variables, as long as no later target makes the same file", "why_tests_cant": "it must hold for every combination of settings, other targets and quoting, through make's variables and the shell", "anchors": ["gyp/pylib/gyp/generator/make.py: WriteSources, WriteTarget, ComputeOutput, LINK_COMMANDS_MAC, SHARED_HEADER_MAC_COMMANDS", "gyp/pylib/gyp/xcode_emulation.py: XcodeSettings"]}
{"id": "C97", "title": "Xcode project files are read back as they were meant", "statement": "The project file written for Xcode, read as the property list it is, is a dictionary with the project's properties and, below \"objects\", exactly the project's objects, each under its id with its class and its properties: texts of any characters, numbers, references, lists and nested dictionaries are read as they were given, whatever comments, quotes and escapes the file has, and it can be read in one way only; every project is written unless a build setting is a list of one item that is no text. Carriage returns, a newline after plain letters and plain texts starting with two slashes are not read back", "quantifier": "every list of objects with any classes, ids, comments and properties nested to any depth, and every text without carriage returns that the writer does not wrongly leave without quotes", "why_tests_cant": "quoting, escaping, comments and nesting interact, and must be undone by the reader for every text and depth", "anchors": ["gyp/pylib/gyp/xcodeproj_file.py: XCObject._EncodeComment, _EncodeTransform, _EncodeString, _XCPrintableValue, _XCKVPrint, Print", "gyp/pylib/gyp/xcodeproj_file.py: XCProjectFile.Print, _PrintObjects"]}
{"id": "C98", "title": "Installing the same version several times at once", "statement": "When any number of \"node-gyp install\" of one version run at the same time on one development directory (not on Windows), and each gets the genuine archive: none fails and none waits for another; when a run says it is done, every header is there whole except those another run is writing at that moment; when all runs that have begun are done, the directory is complete and marked as installed; from then on runs with --ensure change nothing. (A header can be empty for a moment after a run said it is done, and a run whose download fails removes what another has installed.)", "quantifier": "every number of runs, with or without --ensure, every interleaving of their steps, every archive, every way files are written in pieces, every earlier content of the directory that is not wrongly marked as installed, and runs killed at any point", "why_tests_cant": "races between processes show only under particular schedules, and there are unboundedly many of them", "anchors": ["lib/install.js: install, go, rollback", "lib/remove.js: remove"]}
{"id": "C99", "title": "The compilation database", "statement": "With the compile_commands_json generator, every configuration that some target has gets one compile_commands.json in the configuration's directory below the output directory; read as JSON it has one entry for each source with the extension .c, .cc, .cpp or .cxx of each target that has the configuration, in order, and no other, with the absolute path of that source and a command that a shell reads as cc or c++ with the configuration's defines, include directories (as absolute paths, without those in make's object directory) and flags, and that file. A dollar sign in an argument is left to the shell", "quantifier": "every list of targets, configurations, sources, defines, include directories and flags with any characters (up to code 255), every working directory, every output directory, on macOS whatever flags the settings give", "why_tests_cant": "it must hold for every text in a flag or path, which goes through two quotings (for the shell and for JSON), and every mixture of targets and configurations; tests try a few", "anchors": ["gyp/pylib/gyp/generator/compile_commands_json.py:AddCommandsForTarget", "gyp/pylib/gyp/generator/compile_commands_json.py:GenerateOutput", "gyp/pylib/gyp/common.py:EncodePOSIXShellList"]}
{"id": "C100", "title": "Targets that cannot be built are refused", "statement": "After loading, every target is checked: its type must be one of the seven, standalone_static_library is only for static libraries, rules must have different names and different extensions and must not bring rule_sources, run_as must be a dictionary with a non-empty list as action (and a text as working directory, a dictionary as environment), every action needs a name, inputs and a command that is not empty. If all targets are in order each rule is given exactly the sources with its extension, in order, no source goes to two rules, and nothing else changes; otherwise the first target that is not in order is refused with a message naming it", "quantifier": "every list of targets, each any dictionary whose rules, sources and actions have the documented types, every list of further source keys", "why_tests_cant": "it must hold for every combination of rules, extensions (with or without dot), paths and missing or wrong values; tests try a few", "anchors": ["gyp/pylib/gyp/input.py:ValidateTargetType", "gyp/pylib/gyp/input.py:ValidateRulesInTarget", "gyp/pylib/gyp/input.py:ValidateRunAsInTarget", "gyp/pylib/gyp/input.py:ValidateActionsInTarget"]}
{"id": "C101", "title": "The files of an Xcode project are listed where they are", "statement": "For every sequence of file paths (relative, with a variable at most as the first component) added to an Xcode project's group, Xcode finds each file at the place its path names, each exactly once and no others, adding one again changes nothing, files are refused only when one would be a directory holding another, and collapsing groups that hold only another group moves no file and leaves no such group.", "quantifier": "every list of paths in every order, with repetitions, localized files and any depth, before and after groups are collapsed", "why_tests_cant": "Paths, their order and the shapes of directory trees are unbounded; tests try a few projects.", "anchors": ["gyp/pylib/gyp/xcodeproj_file.py:PBXGroup.AddOrGetFileByPath", "gyp/pylib/gyp/xcodeproj_file.py:PBXGroup.TakeOverOnlyChild", "gyp/pylib/gyp/xcodeproj_file.py:SourceTreeAndPathFromPath", "gyp/pylib/gyp/xcodeproj_file.py:XCHierarchicalElement"]}
{"id": "C102", "title": "What is generated for follows the compiler, then the platform", "statement": "The OS that .gyp files see is the flavor named in the format if there is one; otherwise it is decided by the macros of the compiler in CC_target, CC, CXX_target or CXX (the first that is set), asked with its own flags, and by the platform gyp runs on if those macros do not tell or no compiler is set; the variables are split into words as Python's shlex spells them; an OS given as a variable is never overridden.", "quantifier": "all environments, all answers of compilers, all platform names", "why_tests_cant": "environments and compiler answers are unbounded texts: quoting, line ends, repeated macros and empty variables combine in ways that tests with a mocked compiler sample only at a few points", "anchors": ["gyp/pylib/gyp/common.py: GetCrossCompilerPredefines, GetFlavorByPlatform, GetFlavor, GetEnvironFallback", "gyp/pylib/gyp/__init__.py: Load", "gyp/pylib/gyp/generator/make.py: CalculateVariables"]}
{"id": "C103", "title": "The ids of files in an Xcode project depend on their paths alone", "statement": "The id of every object in an Xcode project is 24 hexadecimal digits into which all 160 bits of a SHA-1 digest are folded. Different lists of texts are never fed to the hash as the same bytes. The id of a source file is made from its path and the name of the group of sources, so it stays the same whatever other files are added or removed and however groups are collapsed. No two files of a project are hashed as the same bytes. A project in which two objects have the same id is refused, and only such a project.", "quantifier": "all digests, all hash functions, all lists of texts, all sequences of source paths without variables, all pairs of projects", "why_tests_cant": "the claim compares all projects that contain a path, and all trees that collapsing can make of it", "anchors": ["gyp/pylib/gyp/xcodeproj_file.py: XCObject.ComputeIDs, EnsureNoIDCollisions", "gyp/pylib/gyp/xcodeproj_file.py: XCHierarchicalElement.Hashables", "gyp/pylib/gyp/xcodeproj_file.py: PBXGroup.Hashables, HashablesForChild, TakeOverOnlyChild"]}
{"id": "C104", "title": "Installing the same version several times at once on Windows", "statement": "Several installs of one version may run at the same time on Windows, in any interleaving. No file is ever written by two of them at once. When one says it is done, all headers and the node.lib of its architecture are there whole, except files some other run is just writing; when all are done, everything is there whole. A run with --ensure neither fails nor waits because of others. Once everything is installed, runs with --ensure change nothing. A run without --ensure that has the directory to itself repairs whatever was left there.", "quantifier": "all numbers of runs, all interleavings of their steps, all contents and orders of the files, all states of the directory beforehand", "why_tests_cant": "the claims are about all schedules of several processes and all points at which they are interrupted", "anchors": ["lib/install.js: copyDirectory, go, install", "lib/install.js: --ensure"]}
{"id": "C105", "title": "Which targets a target's dependencies stand for", "statement": "After loading, the dependencies of each target (and its export_dependent_settings) are exactly the targets that what is written there stands for, in the order of first appearance and each once: a name in the same file, FILE:NAME seen from the file's directory, #TOOLSET if there is more than one toolset, and with a wildcard all matching targets of the file that do not object; left out are only the target itself if it asks for that, dependencies that are only for linking if the target links nothing, and what it excludes. Loading fails just if an item is not a name, a name outside dependencies is not in them, a wildcard stands for targets of the same or of an unknown file, a target of type none has a missing dependency, or dependencies are filtered by regular expressions. Unless dependencies are excluded, all whose settings are exported are dependencies.", "quantifier": "every set of files and targets, every list of dependencies, exclusions and exports of every target, and every spelling of a name", "why_tests_cant": "The result depends on six passes over all targets that rewrite the same lists one after another, while names can be spelled in unboundedly many ways; tests try a few lists.", "anchors": ["gyp/pylib/gyp/input.py: QualifyDependencies, ExpandWildcardDependencies, RemoveSelfDependencies, RemoveLinkDependenciesFromNoneTargets, ProcessListFiltersInDict, RemoveDuplicateDependencies, Load", "gyp/pylib/gyp/common.py: ResolveTarget, ParseQualifiedTarget"]}
{"id": "C106", "title": "The environment that tools get in ninja builds on Windows", "statement": "When ninja files are generated on Windows, the compiler, linker and other tools later run, for each architecture, with exactly the needed variables (INCLUDE, LIB, LIBPATH, PATH, PATHEXT, SYSTEMROOT, TEMP, TMP and GOMA_*) of what the set-up script printed for it, whatever their case and values, and with python's directory first in PATH; include directories that all targets share come first in INCLUDE, and no target loses a directory by this. Generation fails just if SYSTEMROOT, TEMP or TMP is missing for some architecture. Actions also get the other variables of the build, and linkers that run at the same time do not share a symbol server if they are not to.", "quantifier": "every list of variables printed for every architecture, every list of include directories of every target, every environment of a build, every two processes", "why_tests_cant": "What is saved in one process is read back in others, with values of any content and names in any case; tests try a few variables.", "anchors": ["gyp/pylib/gyp/msvs_emulation.py: ExtractSharedMSVSSystemIncludes, _ExtractImportantEnvironment, _FormatAsEnvironmentBlock, GenerateEnvironmentFiles", "gyp/pylib/gyp/win_tool.py: WinTool._GetEnv, WinTool._UseSeparateMspdbsrv, WinTool.ExecActionWrapper"]}
{"id": "C107", "title": "Each log message that is loud enough is printed once and in order, also those held back", "statement": "Whatever is logged, whenever the log is held back and let out again and whatever levels are set meanwhile: each message comes out at once, or when the log is next resumed, and is printed then exactly if its level is at least as grave as the level that is set at that time; messages are printed in the order in which they were logged, none twice, and nothing else is printed. The level of a run is that of the command line, or else npm's, or else info. Each line of a message is printed on a line of its own behind gyp, the name of the level and the word it was logged with, in colour exactly on a terminal. Without a stream nothing is printed.", "quantifier": "all histories of messages, holding back, resuming and setting levels; all texts, levels, environments and options", "why_tests_cant": "Tests run with the log switched off (NODE_GYP_NULL_LOGGER); histories and texts are without bound", "anchors": ["lib/log.js: Logger, isVisible, #onLog, #log", "lib/node-gyp.js: parseArgv"]}
{"id": "C108", "title": "Visual Studio shows each file of a project once, in the folder of its directory", "statement": "Each source, input of an action, file to copy, excluded file and the .gyp file itself is in the .filters file of its project exactly once, in the folder that its path names below the innermost directory that holds all of them; excluded files are in a folder of their own in each directory. A folder is listed exactly if a file is in it or below it. The tag of each file is that which it has in the project. If no file is in a folder there is no .filters file, and one of an earlier run is deleted.", "quantifier": "all projects without rules: any sources, exclusions, actions, copies, prefixes and configurations, with any depth of directories", "why_tests_cant": "The hierarchy depends on all paths of a project together; the existing tests only look at hierarchies of a few files", "anchors": ["gyp/pylib/gyp/generator/msvs.py: _GenerateMSBuildFiltersFile, _AppendFiltersForMSBuild, _ConvertSourcesToFilterHierarchy, _AdjustSourcesAndConvertToFilterHierarchy"]}
{"id": "C109", "title": "Standard output holds the installed versions and nothing else", "statement": "Whatever commands are given and however they end, standard output is, for each list command that is run, the versions installed at that time, each on a line of its own and without the entry current, or one notice that there are none; a directory that cannot be read for another reason than being absent ends the run with exit code 1. Without a command the version is printed if it is asked for, or else the usage. With the log switched off nothing is written and the exit code is the same. Each run ends.", "quantifier": "all queues of commands, all ways commands end, all contents of the directory as they change between commands", "why_tests_cant": "The queue and the directory can be anything, and the tests do not run the command line program", "anchors": ["bin/node-gyp.js: run", "lib/list.js: list", "lib/log.js: stdout"]}
{"id": "C110", "title": "Projects are for the Visual Studio that was found", "statement": "Run by node-gyp, gyp writes projects for the installation node-gyp found, in the format of its year or of 2015 if that is later, whatever is in the registry and whatever version is asked for in other ways. Run on its own, gyp takes the version the environment names, or else the first installed one in its order of preference; if none is installed it fails, or falls back to the version asked for without a directory; a lookup error happens exactly if a version is asked for or found that it does not know. The compiler is set up by the script of that version, with the argument for the host and the target, and a script that is absent is an error.", "quantifier": "all registries, file systems, environments, versions asked for, targets", "why_tests_cant": "The registry and the files can hold any combination of installations, and tests do not run on such machines", "anchors": ["gyp/pylib/gyp/MSVSVersion.py: SelectVisualStudioVersion", "gyp/pylib/gyp/MSVSVersion.py: _DetectVisualStudioVersions", "gyp/pylib/gyp/MSVSVersion.py: SetupScript", "lib/configure.js: createConfigFile"]}
{"id": "C111", "title": "Making a static library on macOS fails exactly if libtool does", "statement": "The step by which Makefiles make static libraries on macOS shows all that libtool writes to standard error, in its order, except the warnings that a file or library has no symbols; it succeeds exactly if libtool succeeds and the library it writes can be touched, and only then the library is touched, and no other file. A command run under the lock of the tool for macOS succeeds exactly if the command does.", "quantifier": "all command lines, all texts libtool writes, all exit codes and signals", "why_tests_cant": "Any text may come from libtool, and the tests do not run it", "anchors": ["gyp/pylib/gyp/mac_tool.py: ExecFilterLibtool", "gyp/pylib/gyp/mac_tool.py: ExecFlock", "gyp/pylib/gyp/flock_tool.py: main"]}
{"id": "C112", "title": "The dumped dependency graph is exactly what the targets need", "statement": "The graph written by the dependency dump holds the targets asked for and everything they need, directly or not, each once and with all its dependencies, and nothing else. It is written exactly if every needed target is known; otherwise the error names one that is needed and not known. The search ends, also if targets need each other.", "quantifier": "all sets of targets and dependencies, with cycles and missing targets", "why_tests_cant": "Graphs have any size and shape, and no test covers this generator", "anchors": ["gyp/pylib/gyp/generator/dump_dependency_json.py: GenerateOutput"]}
{"id": "C113", "title": "A program run for debugging gets the arguments named", "statement": "In the user files for Visual Studio 2005 and 2008, the command line for debugging a target, taken apart as programs on Windows do, gives back exactly the arguments of run_as, with their blanks and quotes, if none is empty, none has a backslash before a quote, and none that has a blank or quote ends with a backslash.", "quantifier": "all lists of arguments", "why_tests_cant": "Arguments hold any characters in any number, and the tests do not cover this file", "anchors": ["gyp/pylib/gyp/MSVSUserFile.py: _QuoteWin32CommandLineArgs", "gyp/pylib/gyp/MSVSUserFile.py: AddDebugSettings"]}
