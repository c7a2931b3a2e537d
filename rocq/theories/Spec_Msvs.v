(** What is said about the conversion of Visual Studio settings. *)
From Coq Require Import ZArith DecimalString.
From Verif Require Import Lib Str Model_Tools Model_Msvs.
From Verif Require Spec_Args.
From Coq Require HexadecimalString.
Local Open Scope string_scope.

(** The settings of all tools: each tool is given once, and each of its settings. *)
Definition dictionary (d : tools) : Prop := NoDup (map fst d) /\ forall tool l, In (tool, l) d -> NoDup (map fst l).
Definition given_as (d : tools) (tool name : string) (v : setting_value) : Prop := exists l, In (tool, l) d /\ In (name, v) l.
Definition found (d : tools) (tool name : string) : option setting_value := match assoc tool d with Some l => assoc name l | None => None end.

(** ** what the numbers of the older settings stand for, by the documentation of the
    object model of Visual C++: tool and setting, what they are in MSBuild, and its word
    for each of the numbers *)
Definition documented : list (string * string * string * string * list (string * string)) :=
  [("VCCLCompilerTool", "RuntimeLibrary", "ClCompile", "RuntimeLibrary", [("0", "MultiThreaded"); ("1", "MultiThreadedDebug"); ("2", "MultiThreadedDLL"); ("3", "MultiThreadedDebugDLL")]);
   ("VCCLCompilerTool", "Optimization", "ClCompile", "Optimization", [("0", "Disabled"); ("1", "MinSpace"); ("2", "MaxSpeed"); ("3", "Full")]);
   ("VCCLCompilerTool", "InlineFunctionExpansion", "ClCompile", "InlineFunctionExpansion", [("0", "Default"); ("1", "OnlyExplicitInline"); ("2", "AnySuitable")]);
   ("VCCLCompilerTool", "FavorSizeOrSpeed", "ClCompile", "FavorSizeOrSpeed", [("0", "Neither"); ("1", "Speed"); ("2", "Size")]);
   ("VCCLCompilerTool", "DebugInformationFormat", "ClCompile", "DebugInformationFormat", [("0", ""); ("1", "OldStyle"); ("3", "ProgramDatabase"); ("4", "EditAndContinue")]);
   ("VCCLCompilerTool", "ExceptionHandling", "ClCompile", "ExceptionHandling", [("0", "false"); ("1", "Sync"); ("2", "Async")]);
   ("VCCLCompilerTool", "BasicRuntimeChecks", "ClCompile", "BasicRuntimeChecks", [("0", "Default"); ("1", "StackFrameRuntimeCheck"); ("2", "UninitializedLocalUsageCheck"); ("3", "EnableFastChecks")]);
   ("VCCLCompilerTool", "WarningLevel", "ClCompile", "WarningLevel", [("0", "TurnOffAllWarnings"); ("1", "Level1"); ("2", "Level2"); ("3", "Level3"); ("4", "Level4")]);
   ("VCCLCompilerTool", "CompileAs", "ClCompile", "CompileAs", [("0", "Default"); ("1", "CompileAsC"); ("2", "CompileAsCpp")]);
   ("VCCLCompilerTool", "CallingConvention", "ClCompile", "CallingConvention", [("0", "Cdecl"); ("1", "FastCall"); ("2", "StdCall"); ("3", "VectorCall")]);
   ("VCCLCompilerTool", "FloatingPointModel", "ClCompile", "FloatingPointModel", [("0", "Precise"); ("1", "Strict"); ("2", "Fast")]);
   ("VCCLCompilerTool", "StructMemberAlignment", "ClCompile", "StructMemberAlignment", [("0", "Default"); ("1", "1Byte"); ("2", "2Bytes"); ("3", "4Bytes"); ("4", "8Bytes"); ("5", "16Bytes")]);
   ("VCCLCompilerTool", "EnableEnhancedInstructionSet", "ClCompile", "EnableEnhancedInstructionSet", [("0", "NotSet"); ("1", "StreamingSIMDExtensions"); ("2", "StreamingSIMDExtensions2"); ("3", "AdvancedVectorExtensions"); ("4", "NoExtensions"); ("5", "AdvancedVectorExtensions2")]);
   ("VCCLCompilerTool", "UsePrecompiledHeader", "ClCompile", "PrecompiledHeader", [("0", "NotUsing"); ("1", "Create"); ("2", "Use")]);
   ("VCLinkerTool", "SubSystem", "Link", "SubSystem", [("0", "NotSet"); ("1", "Console"); ("2", "Windows"); ("3", "Native"); ("4", "EFI Application"); ("5", "EFI Boot Service Driver"); ("6", "EFI ROM"); ("7", "EFI Runtime"); ("8", "WindowsCE")]);
   ("VCLinkerTool", "OptimizeReferences", "Link", "OptimizeReferences", [("0", ""); ("1", "false"); ("2", "true")]);
   ("VCLinkerTool", "EnableCOMDATFolding", "Link", "EnableCOMDATFolding", [("0", ""); ("1", "false"); ("2", "true")]);
   ("VCLinkerTool", "RandomizedBaseAddress", "Link", "RandomizedBaseAddress", [("0", ""); ("1", "false"); ("2", "true")]);
   ("VCLinkerTool", "DataExecutionPrevention", "Link", "DataExecutionPrevention", [("0", ""); ("1", "false"); ("2", "true")]);
   ("VCLinkerTool", "LinkIncremental", "", "LinkIncremental", [("0", ""); ("1", "false"); ("2", "true")]);
   ("VCLinkerTool", "LinkTimeCodeGeneration", "Link", "LinkTimeCodeGeneration", [("0", "Default"); ("1", "UseLinkTimeCodeGeneration"); ("2", "PGInstrument"); ("3", "PGOptimization"); ("4", "PGUpdate")]);
   ("VCLinkerTool", "TargetMachine", "Link", "TargetMachine", [("0", "NotSet"); ("1", "MachineX86"); ("3", "MachineARM"); ("4", "MachineEBC"); ("5", "MachineIA64"); ("7", "MachineMIPS"); ("8", "MachineMIPS16"); ("9", "MachineMIPSFPU"); ("10", "MachineMIPSFPU16"); ("14", "MachineSH4"); ("16", "MachineTHUMB"); ("17", "MachineX64")]);
   ("VCLibrarianTool", "TargetMachine", "Lib", "TargetMachine", [("0", "NotSet"); ("1", "MachineX86"); ("3", "MachineARM"); ("4", "MachineEBC"); ("5", "MachineIA64"); ("7", "MachineMIPS"); ("8", "MachineMIPS16"); ("9", "MachineMIPSFPU"); ("10", "MachineMIPSFPU16"); ("14", "MachineSH4"); ("16", "MachineTHUMB"); ("17", "MachineX64")]);
   ("VCCLCompilerTool", "AssemblerOutput", "ClCompile", "AssemblerOutput", [("0", "NoListing"); ("1", "AssemblyCode"); ("2", "All"); ("3", "AssemblyAndMachineCode"); ("4", "AssemblyAndSourceCode")]);
   ("VCCLCompilerTool", "BrowseInformation", "ClCompile", "BrowseInformation", [("0", "false"); ("1", "true"); ("2", "true")]);
   ("VCCLCompilerTool", "ErrorReporting", "ClCompile", "ErrorReporting", [("0", "None"); ("1", "Prompt"); ("2", "Queue")]);
   ("VCLinkerTool", "FixedBaseAddress", "Link", "FixedBaseAddress", [("0", ""); ("1", "false"); ("2", "true")]);
   ("VCLinkerTool", "LargeAddressAware", "Link", "LargeAddressAware", [("0", ""); ("1", "false"); ("2", "true")]);
   ("VCLinkerTool", "TerminalServerAware", "Link", "TerminalServerAware", [("0", ""); ("1", "false"); ("2", "true")]);
   ("VCLinkerTool", "AssemblyDebug", "Link", "AssemblyDebug", [("0", ""); ("1", "true"); ("2", "false")]);
   ("VCLinkerTool", "CLRImageType", "Link", "CLRImageType", [("0", "Default"); ("1", "ForceIJWImage"); ("2", "ForcePureILImage"); ("3", "ForceSafeILImage")]);
   ("VCLinkerTool", "CLRThreadAttribute", "Link", "CLRThreadAttribute", [("0", "DefaultThreadingAttribute"); ("1", "MTAThreadingAttribute"); ("2", "STAThreadingAttribute")]);
   ("VCLinkerTool", "Driver", "Link", "Driver", [("0", "NotSet"); ("1", "Driver"); ("2", "UpOnly"); ("3", "WDM")]);
   ("VCLinkerTool", "ShowProgress", "Link", "ShowProgress", [("0", "NotSet"); ("1", "LinkVerbose"); ("2", "LinkVerboseLib")]);
   ("VCLinkerTool", "UACExecutionLevel", "Link", "UACExecutionLevel", [("0", "AsInvoker"); ("1", "HighestAvailable"); ("2", "RequireAdministrator")]);
   ("VCLinkerTool", "ErrorReporting", "Link", "LinkErrorReporting", [("0", "NoErrorReport"); ("1", "PromptImmediately"); ("2", "QueueForNextLogin")]);
   ("VCMIDLTool", "DefaultCharType", "Midl", "DefaultCharType", [("0", "Unsigned"); ("1", "Signed"); ("2", "Ascii")]);
   ("VCMIDLTool", "TargetEnvironment", "Midl", "TargetEnvironment", [("0", "NotSet"); ("1", "Win32"); ("2", "Itanium"); ("3", "X64"); ("4", "ARM64")]);
   ("VCMIDLTool", "EnableErrorChecks", "Midl", "EnableErrorChecks", [("0", "EnableCustom"); ("1", "None"); ("2", "All")]);
   ("VCMIDLTool", "StructMemberAlignment", "Midl", "StructMemberAlignment", [("0", "NotSet"); ("1", "1"); ("2", "2"); ("3", "4"); ("4", "8")]);
   ("VCMIDLTool", "WarningLevel", "Midl", "WarningLevel", [("0", "0"); ("1", "1"); ("2", "2"); ("3", "3"); ("4", "4")])].
(** Settings that are called something else in MSBuild. *)
Definition renamed : list (string * string * string * string) :=
  [("VCCLCompilerTool", "EnableFunctionLevelLinking", "ClCompile", "FunctionLevelLinking"); ("VCCLCompilerTool", "EnableIntrinsicFunctions", "ClCompile", "IntrinsicFunctions");
   ("VCCLCompilerTool", "KeepComments", "ClCompile", "PreprocessKeepComments"); ("VCCLCompilerTool", "ObjectFile", "ClCompile", "ObjectFileName"); ("VCCLCompilerTool", "OpenMP", "ClCompile", "OpenMPSupport");
   ("VCCLCompilerTool", "PrecompiledHeaderThrough", "ClCompile", "PrecompiledHeaderFile"); ("VCCLCompilerTool", "PrecompiledHeaderFile", "ClCompile", "PrecompiledHeaderOutputFile"); ("VCCLCompilerTool", "WarnAsError", "ClCompile", "TreatWarningAsError");
   ("VCLinkerTool", "IgnoreDefaultLibraryNames", "Link", "IgnoreSpecificDefaultLibraries"); ("VCLinkerTool", "ResourceOnlyDLL", "Link", "NoEntryPoint"); ("VCLinkerTool", "SwapRunFromNet", "Link", "SwapRunFromNET");
   ("VCLinkerTool", "GenerateManifest", "", "GenerateManifest"); ("VCLinkerTool", "IgnoreImportLibrary", "", "IgnoreImportLibrary"); ("VCLinkerTool", "UseLibraryDependencyInputs", "ProjectReference", "UseLibraryDependencyInputs");
   ("VCMIDLTool", "DLLDataFileName", "Midl", "DllDataFileName"); ("VCMIDLTool", "ValidateParameters", "Midl", "ValidateAllParameters");
   ("VCManifestTool", "ManifestResourceFile", "ManifestResourceCompile", "ResourceOutputFileName"); ("VCManifestTool", "EmbedManifest", "", "EmbedManifest")].
(** Tools that are called something else. *)
Definition renamed_tools : list (string * string) :=
  [("VCCLCompilerTool", "ClCompile"); ("VCLinkerTool", "Link"); ("VCMIDLTool", "Midl"); ("VCResourceCompilerTool", "ResourceCompile"); ("VCLibrarianTool", "Lib"); ("VCManifestTool", "Manifest"); ("MASM", "MASM"); ("ARMASM", "ARMASM")].
(** Where a setting is in MSBuild. *)
Definition place (tool name mtool mname : string) : Prop :=
  In (tool, name, mtool, mname) renamed \/ (forall a b, ~ In (tool, name, a, b) renamed) /\ In (tool, mtool) renamed_tools /\ mname = name.

(** ** the types of settings: words and numbers that are the same in MSBuild *)
Definition switch (v : setting_value) : Prop := v = Text "true" \/ v = Text "false".
Definition macro_free (v : setting_value) : Prop := match v with Text s => has_char "$" s = false | Items l => Forall (fun s => has_char "$" s = false) l end.
Definition is_text (v : setting_value) : Prop := match v with Text _ => True | Items _ => False end.
(** Names of the exclusion lists of gyp. *)
Definition excluded_name (n : string) : Prop := exists root, n = root ++ "_excluded".
Definition decimal (z : Z) : string := NilZero.string_of_int (Z.to_int z).
Definition hexadecimal (s : string) : option Z := option_map (fun u => Z.of_N (N.of_hex_uint u)) (HexadecimalString.NilZero.uint_of_string s).
(** The value is one that a setting may have, where whole numbers are as Python reads
    them. *)
Definition fits (r : rule) (v : setting_value) : Prop :=
  match r with
  | Becomes _ _ Boolean => switch v
  | Becomes _ _ (Integer _) => exists s z, v = Text s /\ Spec_Args.whole_number s z
  | Becomes _ _ (Label l) => exists s k w, v = Text s /\ Spec_Args.whole_number s (Z.of_nat k) /\ nth_error l k = Some (Some w)
  | Preprocessed _ => v = Text "0" \/ v = Text "1" \/ v = Text "2"
  | _ => True
  end.
(** What the table says about a setting. *)
Definition says (tool name : string) (r : rule) : Prop := exists rs, assoc tool rules = Some rs /\ assoc name rs = Some r.
(** The reasons for which there are warnings: the tool is not in the table, or the
    setting is not and is no exclusion list of one that is, or the value does not fit. *)
Definition reason (d : tools) (w : warning) : Prop :=
  match w with
  | Unknown_tool tool => In tool (map fst d) /\ ~ In tool (map fst renamed_tools)
  | Unknown_setting tool name => (exists v, given_as d tool name v) /\ In tool (map fst renamed_tools) /\ (forall r, ~ says tool name r) /\ forall root r, name = root ++ "_excluded" -> ~ says tool root r
  | Bad_value tool name => exists v r, given_as d tool name v /\ says tool name r /\ ~ fits r v
  end.
(** A list where there must be a text. *)
Definition misplaced (r : rule) (v : setting_value) : Prop :=
  match r, v with
  | Becomes _ _ Several, _ | Becomes _ _ _, Text _ => False
  | Becomes _ _ One, Items l => In "$" l
  | Becomes _ _ _, Items _ => True
  | _, _ => False
  end.
(** What the generator sets itself. *)
Definition set_by_generator : list string :=
  ["AdditionalIncludeDirectories"; "AdditionalDependencies"; "AdditionalLibraryDirectories"; "OutputFile"; "TargetExt"; "PreprocessorDefinitions"; "DisableSpecificWarnings";
   "PrecompiledHeader"; "PrecompiledHeaderFile"; "ForcedIncludeFiles"; "CompileAsWinRT"; "IgnoreImportLibrary"; "ModuleDefinitionFile"; "Command"].
(** Where the value of a setting is found afterwards. *)
Definition goes_to (r : rule) (mtool mname : string) : Prop :=
  match r with
  | Becomes a b _ | As_is a b => mtool = a /\ mname = b
  | Flag a _ => mtool = a /\ mname = "AdditionalOptions"
  | Preprocessed a => mtool = a /\ (mname = "PreprocessToFile" \/ mname = "PreprocessSuppressLineNumbers")
  | Ignored => False
  end.

(** ** the settings that there are for each tool (MSVSSettings.py:580-1200): switches,
    texts, lists, numbers, words for numbers, those that are no more, those that are new,
    and two that become other ones *)
Inductive sort := A_switch | A_text | A_list | A_number | A_word | Dropped | New | Into_options | Into_two.
Definition known_settings : list (string * sort * list string) :=
  [("VCCLCompilerTool", A_list, ["AdditionalIncludeDirectories"; "AdditionalOptions"; "AdditionalUsingDirectories"; "DisableSpecificWarnings"; "ForcedIncludeFiles"; "ForcedUsingFiles"; "PreprocessorDefinitions"; "UndefinePreprocessorDefinitions"]);
   ("VCCLCompilerTool", A_text, ["AssemblerListingLocation"; "BrowseInformationFile"; "ProgramDataBaseFileName"; "XMLDocumentationFileName"; "ObjectFile"; "PrecompiledHeaderThrough"; "PrecompiledHeaderFile"]);
   ("VCCLCompilerTool", A_switch, ["BufferSecurityCheck"; "DisableLanguageExtensions"; "EnableFiberSafeOptimizations"; "EnablePREfast"; "ExpandAttributedSource"; "FloatingPointExceptions"; "ForceConformanceInForLoopScope"; "GenerateXMLDocumentationFiles"; "IgnoreStandardIncludePath"; "MinimalRebuild"; "OmitDefaultLibName"; "OmitFramePointers"; "RuntimeTypeInfo"; "ShowIncludes"; "SmallerTypeCheck"; "StringPooling"; "SuppressStartupBanner"; "TreatWChar_tAsBuiltInType"; "UndefineAllPreprocessorDefinitions"; "UseFullPaths"; "WholeProgramOptimization"; "CompileAsWinRT"; "EnableFunctionLevelLinking"; "EnableIntrinsicFunctions"; "KeepComments"; "OpenMP"; "WarnAsError"]);
   ("VCCLCompilerTool", A_word, ["AssemblerOutput"; "BasicRuntimeChecks"; "BrowseInformation"; "CallingConvention"; "CompileAs"; "DebugInformationFormat"; "EnableEnhancedInstructionSet"; "ErrorReporting"; "ExceptionHandling"; "FavorSizeOrSpeed"; "FloatingPointModel"; "InlineFunctionExpansion"; "Optimization"; "RuntimeLibrary"; "StructMemberAlignment"; "WarningLevel"; "UsePrecompiledHeader"]);
   ("VCCLCompilerTool", Into_options, ["DefaultCharIsUnsigned"]);
   ("VCCLCompilerTool", Dropped, ["Detect64BitPortabilityProblems"; "UseUnicodeResponseFiles"]);
   ("VCCLCompilerTool", New, ["BuildingInIDE"; "CompileAsManaged"; "CreateHotpatchableImage"; "LanguageStandard"; "LanguageStandard_C"; "MultiProcessorCompilation"; "PreprocessOutputPath"; "ProcessorNumber"; "TrackerLogDirectory"; "TreatSpecificWarningsAsErrors"; "UseUnicodeForAssemblerListing"]);
   ("VCCLCompilerTool", Into_two, ["GeneratePreprocessedFile"]);
   ("VCLinkerTool", A_list, ["AdditionalDependencies"; "AdditionalLibraryDirectories"; "AdditionalManifestDependencies"; "AdditionalOptions"; "AddModuleNamesToAssembly"; "AssemblyLinkResource"; "DelayLoadDLLs"; "EmbedManagedResourceFile"; "ForceSymbolReferences"; "IgnoreDefaultLibraryNames"]);
   ("VCLinkerTool", A_switch, ["AllowIsolation"; "CLRUnmanagedCodeCheck"; "DelaySign"; "EnableUAC"; "GenerateDebugInformation"; "GenerateMapFile"; "IgnoreAllDefaultLibraries"; "IgnoreEmbeddedIDL"; "MapExports"; "PerUserRedirection"; "Profile"; "RegisterOutput"; "SetChecksum"; "SupportUnloadOfDelayLoadedDLL"; "SuppressStartupBanner"; "SwapRunFromCD"; "TurnOffAssemblyGeneration"; "UACUIAccess"; "TreatLinkerWarningAsErrors"; "ResourceOnlyDLL"; "SwapRunFromNet"; "GenerateManifest"; "IgnoreImportLibrary"; "LinkLibraryDependencies"; "UseLibraryDependencyInputs"]);
   ("VCLinkerTool", A_text, ["BaseAddress"; "EntryPointSymbol"; "FunctionOrder"; "HeapCommitSize"; "HeapReserveSize"; "ImportLibrary"; "KeyContainer"; "KeyFile"; "ManifestFile"; "MapFileName"; "MergedIDLBaseFileName"; "MergeSections"; "MidlCommandFile"; "ModuleDefinitionFile"; "OutputFile"; "ProfileGuidedDatabase"; "ProgramDatabaseFile"; "StackCommitSize"; "StackReserveSize"; "StripPrivateSymbols"; "TypeLibraryFile"; "Version"; "MinimumRequiredVersion"]);
   ("VCLinkerTool", A_number, ["TypeLibraryResourceID"]);
   ("VCLinkerTool", A_word, ["EnableCOMDATFolding"; "FixedBaseAddress"; "LargeAddressAware"; "OptimizeReferences"; "RandomizedBaseAddress"; "TerminalServerAware"; "AssemblyDebug"; "CLRImageType"; "CLRThreadAttribute"; "DataExecutionPrevention"; "Driver"; "LinkTimeCodeGeneration"; "ShowProgress"; "SubSystem"; "TargetMachine"; "UACExecutionLevel"; "ErrorReporting"; "LinkIncremental"]);
   ("VCLinkerTool", Dropped, ["OptimizeForWindows98"; "UseUnicodeResponseFiles"]);
   ("VCLinkerTool", New, ["BuildingInIDE"; "ImageHasSafeExceptionHandlers"; "LinkDLL"; "LinkStatus"; "PreventDllBinding"; "SupportNobindOfDelayLoadedDLL"; "TrackerLogDirectory"; "MSDOSStubFileName"; "SectionAlignment"; "SpecifySectionAttributes"; "ForceFileOutput"; "CreateHotPatchableImage"; "CLRSupportLastError"]);
   ("VCMIDLTool", A_list, ["AdditionalIncludeDirectories"; "AdditionalOptions"; "PreprocessorDefinitions"; "UndefinePreprocessorDefinitions"]);
   ("VCMIDLTool", A_text, ["CPreprocessOptions"; "HeaderFileName"; "InterfaceIdentifierFileName"; "OutputDirectory"; "ProxyFileName"; "RedirectOutputAndErrors"; "TypeLibraryName"; "DLLDataFileName"]);
   ("VCMIDLTool", A_switch, ["ErrorCheckAllocations"; "ErrorCheckBounds"; "ErrorCheckEnumRange"; "ErrorCheckRefPointers"; "ErrorCheckStubData"; "GenerateStublessProxies"; "GenerateTypeLibrary"; "IgnoreStandardIncludePath"; "MkTypLibCompatible"; "SuppressStartupBanner"; "WarnAsError"; "ValidateParameters"]);
   ("VCMIDLTool", A_word, ["DefaultCharType"; "TargetEnvironment"; "EnableErrorChecks"; "StructMemberAlignment"; "WarningLevel"]);
   ("VCMIDLTool", New, ["ApplicationConfigurationMode"; "ClientStubFile"; "GenerateClientFiles"; "GenerateServerFiles"; "LocaleID"; "ServerStubFile"; "SuppressCompilerWarnings"; "TrackerLogDirectory"; "TypeLibFormat"]);
   ("VCResourceCompilerTool", A_list, ["AdditionalOptions"; "AdditionalIncludeDirectories"; "PreprocessorDefinitions"; "UndefinePreprocessorDefinitions"]);
   ("VCResourceCompilerTool", A_number, ["Culture"]);
   ("VCResourceCompilerTool", A_switch, ["IgnoreStandardIncludePath"; "ShowProgress"; "SuppressStartupBanner"]);
   ("VCResourceCompilerTool", A_text, ["ResourceOutputFileName"]);
   ("VCResourceCompilerTool", New, ["NullTerminateStrings"; "TrackerLogDirectory"]);
   ("VCLibrarianTool", A_list, ["AdditionalDependencies"; "AdditionalLibraryDirectories"; "AdditionalOptions"; "ExportNamedFunctions"; "IgnoreSpecificDefaultLibraries"]);
   ("VCLibrarianTool", A_text, ["ForceSymbolReferences"; "ModuleDefinitionFile"; "OutputFile"]);
   ("VCLibrarianTool", A_switch, ["IgnoreAllDefaultLibraries"; "SuppressStartupBanner"; "UseUnicodeResponseFiles"; "LinkTimeCodeGeneration"; "LinkLibraryDependencies"]);
   ("VCLibrarianTool", A_word, ["TargetMachine"]);
   ("VCLibrarianTool", New, ["DisplayLibrary"; "ErrorReporting"; "MinimumRequiredVersion"; "Name"; "RemoveObjects"; "SubSystem"; "TrackerLogDirectory"; "TreatLibWarningAsErrors"; "Verbose"]);
   ("VCManifestTool", A_list, ["AdditionalManifestFiles"; "AdditionalOptions"]);
   ("VCManifestTool", A_text, ["AssemblyIdentity"; "ComponentFileName"; "InputResourceManifests"; "OutputManifestFile"; "RegistrarScriptFile"; "ReplacementsFile"; "TypeLibraryFile"; "UpdateFileHashesSearchPath"; "ManifestResourceFile"]);
   ("VCManifestTool", A_switch, ["GenerateCatalogFiles"; "SuppressStartupBanner"; "UpdateFileHashes"; "VerboseOutput"; "EmbedManifest"]);
   ("VCManifestTool", Dropped, ["DependencyInformationFile"; "UseFAT32Workaround"; "UseUnicodeResponseFiles"]);
   ("VCManifestTool", New, ["EnableDPIAwareness"; "GenerateCategoryTags"; "ManifestFromManagedAssembly"; "OutputResourceManifests"; "SuppressDependencyElement"; "TrackerLogDirectory"]);
   ("MASM", A_switch, ["UseSafeExceptionHandlers"])].
Definition sort_of (r : rule) : sort :=
  match r with
  | Becomes _ _ One => A_text | Becomes _ _ Several => A_list | Becomes _ _ Boolean => A_switch | Becomes _ _ (Integer _) => A_number | Becomes _ _ (Label _) => A_word
  | Ignored => Dropped | As_is _ _ => New | Flag _ _ => Into_options | Preprocessed _ => Into_two
  end.
