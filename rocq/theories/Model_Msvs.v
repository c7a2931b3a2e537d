(** Model of the conversion of Visual Studio settings, gyp/pylib/gyp/MSVSSettings.py:
    ConvertToMSBuildSettings (445-490) and the tables it goes by (551-1272).

    The values of settings are strings or lists of strings: the numbers among them have
    been turned into strings (input.py:2838-2866). *)
From Coq Require Import HexadecimalString.
From Verif Require Import Lib Str Model_Path Model_Value Model_Vcxproj Model_Cmdline Model_Tools.
From Verif Require Model_Args Model_Text.
Local Open Scope string_scope.

(** ** the types of values: 67-231 *)
(** _String, _StringList, _Boolean, _Integer with base 10 or 16, _Enumeration *)
Inductive value_type := One | Several | Boolean | Integer (hex : bool) | Label (l : list (option string)).
(** The value, a ValueError, or another exception. *)
Inductive conversion := Converted (v : setting_value) | Invalid | Crash.
(** "%04x" *)
Fixpoint zeros (n : nat) : string := match n with O => "" | S n' => String "0" (zeros n') end.
Definition hex4 (z : Z) : string :=
  let sign := if Z.ltb z 0 then "-" else "" in
  let digits := NilZero.string_of_uint (N.to_hex_uint (Z.abs_N z)) in
  sign ++ zeros (4 - String.length sign - String.length digits) ++ digits.
(** ConvertToMSBuild; a list is no key of a set and no argument of int() *)
Definition convert_value (t : value_type) (v : setting_value) : conversion :=
  match t, v with
  | One, Text s | Several, Text s => Converted (Text (convert_macros s))
  | One, Items l => if mem "$" l then Crash else Converted v
  | Several, Items l => Converted (Items (map convert_macros l))
  | Boolean, Text s => if mem s ["true"; "false"] then Converted v else Invalid
  | Integer hex, Text s => match Model_Args.py_int s with None => Invalid | Some z => Converted (Text (if hex then "0x" ++ hex4 z else Model_Text.int_str z)) end
  | Label l, Text s =>
    match Model_Args.py_int s with
    | None => Invalid
    | Some z => if Z.ltb z 0 || Z.leb (Z.of_nat (length l)) z then Invalid else match nth_error l (Z.to_nat z) with Some (Some x) => Converted (Text x) | _ => Invalid end
    end
  | _, Items _ => Crash
  end.

(** ** the rules: 234-375 *)
(** _Same, _Renamed, _Moved, _MovedAndRenamed; _MSVSOnly; _MSBuildOnly;
    _ConvertedToAdditionalOption; _CustomGeneratePreprocessedFile *)
Inductive rule := Becomes (tool name : string) (t : value_type) | Ignored | As_is (tool name : string) | Flag (tool flag : string) | Preprocessed (tool : string).
Definition put (tool name : string) (v : setting_value) (out : tools) : tools := set_key tool (set_key name v (tool_settings out tool)) out.
Definition touch (tool : string) (out : tools) : tools := set_key tool (tool_settings out tool) out.
(** str() of a list; escapes in its items are left out *)
Definition list_text (l : list string) : string := "[" ++ String.concat ", " (map (fun s => "'" ++ s ++ "'") l) ++ "]".
(** The settings after it, and whether there was a ValueError. *)
Definition translate (r : rule) (v : setting_value) (out : tools) : option (tools * bool) :=
  match r with
  | Becomes tool name t => match convert_value t v with Converted v' => Some (put tool name v' out, false) | Invalid => Some (touch tool out, true) | Crash => None end
  | Ignored => Some (out, false)
  | As_is tool name => Some (put tool name v out, false)
  | Flag tool flag =>
    match v with
    | Text "true" =>
      Some (put tool "AdditionalOptions" (Text (match assoc "AdditionalOptions" (tool_settings out tool) with
        | Some (Text old) => old ++ " " ++ flag | Some (Items old) => list_text old ++ " " ++ flag | None => flag end)) out, false)
    | _ => Some (out, false)
    end
  | Preprocessed tool =>
    let both a b := Some (put tool "PreprocessSuppressLineNumbers" (Text b) (put tool "PreprocessToFile" (Text a) out), false) in
    match v with Text "0" => both "false" "false" | Text "1" => both "true" "false" | Text "2" => both "true" "true" | _ => Some (touch tool out, true) end
  end.
(** 580-806 *)
Definition compile_rules : list (string * rule) := [("AdditionalIncludeDirectories", Becomes "ClCompile" "AdditionalIncludeDirectories" Several);
  ("AdditionalOptions", Becomes "ClCompile" "AdditionalOptions" Several);
  ("AdditionalUsingDirectories", Becomes "ClCompile" "AdditionalUsingDirectories" Several);
  ("AssemblerListingLocation", Becomes "ClCompile" "AssemblerListingLocation" One);
  ("BrowseInformationFile", Becomes "ClCompile" "BrowseInformationFile" One);
  ("BufferSecurityCheck", Becomes "ClCompile" "BufferSecurityCheck" Boolean);
  ("DisableLanguageExtensions", Becomes "ClCompile" "DisableLanguageExtensions" Boolean);
  ("DisableSpecificWarnings", Becomes "ClCompile" "DisableSpecificWarnings" Several);
  ("EnableFiberSafeOptimizations", Becomes "ClCompile" "EnableFiberSafeOptimizations" Boolean);
  ("EnablePREfast", Becomes "ClCompile" "EnablePREfast" Boolean);
  ("ExpandAttributedSource", Becomes "ClCompile" "ExpandAttributedSource" Boolean);
  ("FloatingPointExceptions", Becomes "ClCompile" "FloatingPointExceptions" Boolean);
  ("ForceConformanceInForLoopScope", Becomes "ClCompile" "ForceConformanceInForLoopScope" Boolean);
  ("ForcedIncludeFiles", Becomes "ClCompile" "ForcedIncludeFiles" Several);
  ("ForcedUsingFiles", Becomes "ClCompile" "ForcedUsingFiles" Several);
  ("GenerateXMLDocumentationFiles", Becomes "ClCompile" "GenerateXMLDocumentationFiles" Boolean);
  ("IgnoreStandardIncludePath", Becomes "ClCompile" "IgnoreStandardIncludePath" Boolean);
  ("MinimalRebuild", Becomes "ClCompile" "MinimalRebuild" Boolean);
  ("OmitDefaultLibName", Becomes "ClCompile" "OmitDefaultLibName" Boolean);
  ("OmitFramePointers", Becomes "ClCompile" "OmitFramePointers" Boolean);
  ("PreprocessorDefinitions", Becomes "ClCompile" "PreprocessorDefinitions" Several);
  ("ProgramDataBaseFileName", Becomes "ClCompile" "ProgramDataBaseFileName" One);
  ("RuntimeTypeInfo", Becomes "ClCompile" "RuntimeTypeInfo" Boolean);
  ("ShowIncludes", Becomes "ClCompile" "ShowIncludes" Boolean);
  ("SmallerTypeCheck", Becomes "ClCompile" "SmallerTypeCheck" Boolean);
  ("StringPooling", Becomes "ClCompile" "StringPooling" Boolean);
  ("SuppressStartupBanner", Becomes "ClCompile" "SuppressStartupBanner" Boolean);
  ("TreatWChar_tAsBuiltInType", Becomes "ClCompile" "TreatWChar_tAsBuiltInType" Boolean);
  ("UndefineAllPreprocessorDefinitions", Becomes "ClCompile" "UndefineAllPreprocessorDefinitions" Boolean);
  ("UndefinePreprocessorDefinitions", Becomes "ClCompile" "UndefinePreprocessorDefinitions" Several);
  ("UseFullPaths", Becomes "ClCompile" "UseFullPaths" Boolean);
  ("WholeProgramOptimization", Becomes "ClCompile" "WholeProgramOptimization" Boolean);
  ("XMLDocumentationFileName", Becomes "ClCompile" "XMLDocumentationFileName" One);
  ("CompileAsWinRT", Becomes "ClCompile" "CompileAsWinRT" Boolean);
  ("AssemblerOutput", Becomes "ClCompile" "AssemblerOutput" (Label [Some "NoListing"; Some "AssemblyCode"; Some "All"; Some "AssemblyAndMachineCode"; Some "AssemblyAndSourceCode"]));
  ("BasicRuntimeChecks", Becomes "ClCompile" "BasicRuntimeChecks" (Label [Some "Default"; Some "StackFrameRuntimeCheck"; Some "UninitializedLocalUsageCheck"; Some "EnableFastChecks"]));
  ("BrowseInformation", Becomes "ClCompile" "BrowseInformation" (Label [Some "false"; Some "true"; Some "true"]));
  ("CallingConvention", Becomes "ClCompile" "CallingConvention" (Label [Some "Cdecl"; Some "FastCall"; Some "StdCall"; Some "VectorCall"]));
  ("CompileAs", Becomes "ClCompile" "CompileAs" (Label [Some "Default"; Some "CompileAsC"; Some "CompileAsCpp"]));
  ("DebugInformationFormat", Becomes "ClCompile" "DebugInformationFormat" (Label [Some ""; Some "OldStyle"; None; Some "ProgramDatabase"; Some "EditAndContinue"]));
  ("EnableEnhancedInstructionSet", Becomes "ClCompile" "EnableEnhancedInstructionSet" (Label [Some "NotSet"; Some "StreamingSIMDExtensions"; Some "StreamingSIMDExtensions2"; Some "AdvancedVectorExtensions"; Some "NoExtensions"; Some "AdvancedVectorExtensions2"]));
  ("ErrorReporting", Becomes "ClCompile" "ErrorReporting" (Label [Some "None"; Some "Prompt"; Some "Queue"]));
  ("ExceptionHandling", Becomes "ClCompile" "ExceptionHandling" (Label [Some "false"; Some "Sync"; Some "Async"]));
  ("FavorSizeOrSpeed", Becomes "ClCompile" "FavorSizeOrSpeed" (Label [Some "Neither"; Some "Speed"; Some "Size"]));
  ("FloatingPointModel", Becomes "ClCompile" "FloatingPointModel" (Label [Some "Precise"; Some "Strict"; Some "Fast"]));
  ("InlineFunctionExpansion", Becomes "ClCompile" "InlineFunctionExpansion" (Label [Some "Default"; Some "OnlyExplicitInline"; Some "AnySuitable"]));
  ("Optimization", Becomes "ClCompile" "Optimization" (Label [Some "Disabled"; Some "MinSpace"; Some "MaxSpeed"; Some "Full"]));
  ("RuntimeLibrary", Becomes "ClCompile" "RuntimeLibrary" (Label [Some "MultiThreaded"; Some "MultiThreadedDebug"; Some "MultiThreadedDLL"; Some "MultiThreadedDebugDLL"]));
  ("StructMemberAlignment", Becomes "ClCompile" "StructMemberAlignment" (Label [Some "Default"; Some "1Byte"; Some "2Bytes"; Some "4Bytes"; Some "8Bytes"; Some "16Bytes"]));
  ("WarningLevel", Becomes "ClCompile" "WarningLevel" (Label [Some "TurnOffAllWarnings"; Some "Level1"; Some "Level2"; Some "Level3"; Some "Level4"]));
  ("EnableFunctionLevelLinking", Becomes "ClCompile" "FunctionLevelLinking" Boolean);
  ("EnableIntrinsicFunctions", Becomes "ClCompile" "IntrinsicFunctions" Boolean);
  ("KeepComments", Becomes "ClCompile" "PreprocessKeepComments" Boolean);
  ("ObjectFile", Becomes "ClCompile" "ObjectFileName" One);
  ("OpenMP", Becomes "ClCompile" "OpenMPSupport" Boolean);
  ("PrecompiledHeaderThrough", Becomes "ClCompile" "PrecompiledHeaderFile" One);
  ("PrecompiledHeaderFile", Becomes "ClCompile" "PrecompiledHeaderOutputFile" One);
  ("UsePrecompiledHeader", Becomes "ClCompile" "PrecompiledHeader" (Label [Some "NotUsing"; Some "Create"; Some "Use"]));
  ("WarnAsError", Becomes "ClCompile" "TreatWarningAsError" Boolean);
  ("DefaultCharIsUnsigned", Flag "ClCompile" "/J");
  ("Detect64BitPortabilityProblems", Ignored);
  ("UseUnicodeResponseFiles", Ignored);
  ("BuildingInIDE", As_is "ClCompile" "BuildingInIDE");
  ("CompileAsManaged", As_is "ClCompile" "CompileAsManaged");
  ("CreateHotpatchableImage", As_is "ClCompile" "CreateHotpatchableImage");
  ("LanguageStandard", As_is "ClCompile" "LanguageStandard");
  ("LanguageStandard_C", As_is "ClCompile" "LanguageStandard_C");
  ("MultiProcessorCompilation", As_is "ClCompile" "MultiProcessorCompilation");
  ("PreprocessOutputPath", As_is "ClCompile" "PreprocessOutputPath");
  ("ProcessorNumber", As_is "ClCompile" "ProcessorNumber");
  ("TrackerLogDirectory", As_is "ClCompile" "TrackerLogDirectory");
  ("TreatSpecificWarningsAsErrors", As_is "ClCompile" "TreatSpecificWarningsAsErrors");
  ("UseUnicodeForAssemblerListing", As_is "ClCompile" "UseUnicodeForAssemblerListing");
  ("GeneratePreprocessedFile", Preprocessed "ClCompile")].
(** 814-1057 *)
Definition link_rules : list (string * rule) := [("AdditionalDependencies", Becomes "Link" "AdditionalDependencies" Several);
  ("AdditionalLibraryDirectories", Becomes "Link" "AdditionalLibraryDirectories" Several);
  ("AdditionalManifestDependencies", Becomes "Link" "AdditionalManifestDependencies" Several);
  ("AdditionalOptions", Becomes "Link" "AdditionalOptions" Several);
  ("AddModuleNamesToAssembly", Becomes "Link" "AddModuleNamesToAssembly" Several);
  ("AllowIsolation", Becomes "Link" "AllowIsolation" Boolean);
  ("AssemblyLinkResource", Becomes "Link" "AssemblyLinkResource" Several);
  ("BaseAddress", Becomes "Link" "BaseAddress" One);
  ("CLRUnmanagedCodeCheck", Becomes "Link" "CLRUnmanagedCodeCheck" Boolean);
  ("DelayLoadDLLs", Becomes "Link" "DelayLoadDLLs" Several);
  ("DelaySign", Becomes "Link" "DelaySign" Boolean);
  ("EmbedManagedResourceFile", Becomes "Link" "EmbedManagedResourceFile" Several);
  ("EnableUAC", Becomes "Link" "EnableUAC" Boolean);
  ("EntryPointSymbol", Becomes "Link" "EntryPointSymbol" One);
  ("ForceSymbolReferences", Becomes "Link" "ForceSymbolReferences" Several);
  ("FunctionOrder", Becomes "Link" "FunctionOrder" One);
  ("GenerateDebugInformation", Becomes "Link" "GenerateDebugInformation" Boolean);
  ("GenerateMapFile", Becomes "Link" "GenerateMapFile" Boolean);
  ("HeapCommitSize", Becomes "Link" "HeapCommitSize" One);
  ("HeapReserveSize", Becomes "Link" "HeapReserveSize" One);
  ("IgnoreAllDefaultLibraries", Becomes "Link" "IgnoreAllDefaultLibraries" Boolean);
  ("IgnoreEmbeddedIDL", Becomes "Link" "IgnoreEmbeddedIDL" Boolean);
  ("ImportLibrary", Becomes "Link" "ImportLibrary" One);
  ("KeyContainer", Becomes "Link" "KeyContainer" One);
  ("KeyFile", Becomes "Link" "KeyFile" One);
  ("ManifestFile", Becomes "Link" "ManifestFile" One);
  ("MapExports", Becomes "Link" "MapExports" Boolean);
  ("MapFileName", Becomes "Link" "MapFileName" One);
  ("MergedIDLBaseFileName", Becomes "Link" "MergedIDLBaseFileName" One);
  ("MergeSections", Becomes "Link" "MergeSections" One);
  ("MidlCommandFile", Becomes "Link" "MidlCommandFile" One);
  ("ModuleDefinitionFile", Becomes "Link" "ModuleDefinitionFile" One);
  ("OutputFile", Becomes "Link" "OutputFile" One);
  ("PerUserRedirection", Becomes "Link" "PerUserRedirection" Boolean);
  ("Profile", Becomes "Link" "Profile" Boolean);
  ("ProfileGuidedDatabase", Becomes "Link" "ProfileGuidedDatabase" One);
  ("ProgramDatabaseFile", Becomes "Link" "ProgramDatabaseFile" One);
  ("RegisterOutput", Becomes "Link" "RegisterOutput" Boolean);
  ("SetChecksum", Becomes "Link" "SetChecksum" Boolean);
  ("StackCommitSize", Becomes "Link" "StackCommitSize" One);
  ("StackReserveSize", Becomes "Link" "StackReserveSize" One);
  ("StripPrivateSymbols", Becomes "Link" "StripPrivateSymbols" One);
  ("SupportUnloadOfDelayLoadedDLL", Becomes "Link" "SupportUnloadOfDelayLoadedDLL" Boolean);
  ("SuppressStartupBanner", Becomes "Link" "SuppressStartupBanner" Boolean);
  ("SwapRunFromCD", Becomes "Link" "SwapRunFromCD" Boolean);
  ("TurnOffAssemblyGeneration", Becomes "Link" "TurnOffAssemblyGeneration" Boolean);
  ("TypeLibraryFile", Becomes "Link" "TypeLibraryFile" One);
  ("TypeLibraryResourceID", Becomes "Link" "TypeLibraryResourceID" (Integer false));
  ("UACUIAccess", Becomes "Link" "UACUIAccess" Boolean);
  ("Version", Becomes "Link" "Version" One);
  ("EnableCOMDATFolding", Becomes "Link" "EnableCOMDATFolding" (Label [Some ""; Some "false"; Some "true"]));
  ("FixedBaseAddress", Becomes "Link" "FixedBaseAddress" (Label [Some ""; Some "false"; Some "true"]));
  ("LargeAddressAware", Becomes "Link" "LargeAddressAware" (Label [Some ""; Some "false"; Some "true"]));
  ("OptimizeReferences", Becomes "Link" "OptimizeReferences" (Label [Some ""; Some "false"; Some "true"]));
  ("RandomizedBaseAddress", Becomes "Link" "RandomizedBaseAddress" (Label [Some ""; Some "false"; Some "true"]));
  ("TerminalServerAware", Becomes "Link" "TerminalServerAware" (Label [Some ""; Some "false"; Some "true"]));
  ("AssemblyDebug", Becomes "Link" "AssemblyDebug" (Label [Some ""; Some "true"; Some "false"]));
  ("CLRImageType", Becomes "Link" "CLRImageType" (Label [Some "Default"; Some "ForceIJWImage"; Some "ForcePureILImage"; Some "ForceSafeILImage"]));
  ("CLRThreadAttribute", Becomes "Link" "CLRThreadAttribute" (Label [Some "DefaultThreadingAttribute"; Some "MTAThreadingAttribute"; Some "STAThreadingAttribute"]));
  ("DataExecutionPrevention", Becomes "Link" "DataExecutionPrevention" (Label [Some ""; Some "false"; Some "true"]));
  ("Driver", Becomes "Link" "Driver" (Label [Some "NotSet"; Some "Driver"; Some "UpOnly"; Some "WDM"]));
  ("LinkTimeCodeGeneration", Becomes "Link" "LinkTimeCodeGeneration" (Label [Some "Default"; Some "UseLinkTimeCodeGeneration"; Some "PGInstrument"; Some "PGOptimization"; Some "PGUpdate"]));
  ("ShowProgress", Becomes "Link" "ShowProgress" (Label [Some "NotSet"; Some "LinkVerbose"; Some "LinkVerboseLib"]));
  ("SubSystem", Becomes "Link" "SubSystem" (Label [Some "NotSet"; Some "Console"; Some "Windows"; Some "Native"; Some "EFI Application"; Some "EFI Boot Service Driver"; Some "EFI ROM"; Some "EFI Runtime"; Some "WindowsCE"]));
  ("TargetMachine", Becomes "Link" "TargetMachine" (Label [Some "NotSet"; Some "MachineX86"; None; Some "MachineARM"; Some "MachineEBC"; Some "MachineIA64"; None; Some "MachineMIPS"; Some "MachineMIPS16"; Some "MachineMIPSFPU"; Some "MachineMIPSFPU16"; None; None; None; Some "MachineSH4"; None; Some "MachineTHUMB"; Some "MachineX64"]));
  ("UACExecutionLevel", Becomes "Link" "UACExecutionLevel" (Label [Some "AsInvoker"; Some "HighestAvailable"; Some "RequireAdministrator"]));
  ("MinimumRequiredVersion", Becomes "Link" "MinimumRequiredVersion" One);
  ("TreatLinkerWarningAsErrors", Becomes "Link" "TreatLinkerWarningAsErrors" Boolean);
  ("ErrorReporting", Becomes "Link" "LinkErrorReporting" (Label [Some "NoErrorReport"; Some "PromptImmediately"; Some "QueueForNextLogin"]));
  ("IgnoreDefaultLibraryNames", Becomes "Link" "IgnoreSpecificDefaultLibraries" Several);
  ("ResourceOnlyDLL", Becomes "Link" "NoEntryPoint" Boolean);
  ("SwapRunFromNet", Becomes "Link" "SwapRunFromNET" Boolean);
  ("GenerateManifest", Becomes "" "GenerateManifest" Boolean);
  ("IgnoreImportLibrary", Becomes "" "IgnoreImportLibrary" Boolean);
  ("LinkIncremental", Becomes "" "LinkIncremental" (Label [Some ""; Some "false"; Some "true"]));
  ("LinkLibraryDependencies", Becomes "ProjectReference" "LinkLibraryDependencies" Boolean);
  ("UseLibraryDependencyInputs", Becomes "ProjectReference" "UseLibraryDependencyInputs" Boolean);
  ("OptimizeForWindows98", Ignored);
  ("UseUnicodeResponseFiles", Ignored);
  ("BuildingInIDE", As_is "Link" "BuildingInIDE");
  ("ImageHasSafeExceptionHandlers", As_is "Link" "ImageHasSafeExceptionHandlers");
  ("LinkDLL", As_is "Link" "LinkDLL");
  ("LinkStatus", As_is "Link" "LinkStatus");
  ("PreventDllBinding", As_is "Link" "PreventDllBinding");
  ("SupportNobindOfDelayLoadedDLL", As_is "Link" "SupportNobindOfDelayLoadedDLL");
  ("TrackerLogDirectory", As_is "Link" "TrackerLogDirectory");
  ("MSDOSStubFileName", As_is "Link" "MSDOSStubFileName");
  ("SectionAlignment", As_is "Link" "SectionAlignment");
  ("SpecifySectionAttributes", As_is "Link" "SpecifySectionAttributes");
  ("ForceFileOutput", As_is "Link" "ForceFileOutput");
  ("CreateHotPatchableImage", As_is "Link" "CreateHotPatchableImage");
  ("CLRSupportLastError", As_is "Link" "CLRSupportLastError")].
(** 1098-1171 *)
Definition midl_rules : list (string * rule) := [("AdditionalIncludeDirectories", Becomes "Midl" "AdditionalIncludeDirectories" Several);
  ("AdditionalOptions", Becomes "Midl" "AdditionalOptions" Several);
  ("CPreprocessOptions", Becomes "Midl" "CPreprocessOptions" One);
  ("ErrorCheckAllocations", Becomes "Midl" "ErrorCheckAllocations" Boolean);
  ("ErrorCheckBounds", Becomes "Midl" "ErrorCheckBounds" Boolean);
  ("ErrorCheckEnumRange", Becomes "Midl" "ErrorCheckEnumRange" Boolean);
  ("ErrorCheckRefPointers", Becomes "Midl" "ErrorCheckRefPointers" Boolean);
  ("ErrorCheckStubData", Becomes "Midl" "ErrorCheckStubData" Boolean);
  ("GenerateStublessProxies", Becomes "Midl" "GenerateStublessProxies" Boolean);
  ("GenerateTypeLibrary", Becomes "Midl" "GenerateTypeLibrary" Boolean);
  ("HeaderFileName", Becomes "Midl" "HeaderFileName" One);
  ("IgnoreStandardIncludePath", Becomes "Midl" "IgnoreStandardIncludePath" Boolean);
  ("InterfaceIdentifierFileName", Becomes "Midl" "InterfaceIdentifierFileName" One);
  ("MkTypLibCompatible", Becomes "Midl" "MkTypLibCompatible" Boolean);
  ("OutputDirectory", Becomes "Midl" "OutputDirectory" One);
  ("PreprocessorDefinitions", Becomes "Midl" "PreprocessorDefinitions" Several);
  ("ProxyFileName", Becomes "Midl" "ProxyFileName" One);
  ("RedirectOutputAndErrors", Becomes "Midl" "RedirectOutputAndErrors" One);
  ("SuppressStartupBanner", Becomes "Midl" "SuppressStartupBanner" Boolean);
  ("TypeLibraryName", Becomes "Midl" "TypeLibraryName" One);
  ("UndefinePreprocessorDefinitions", Becomes "Midl" "UndefinePreprocessorDefinitions" Several);
  ("WarnAsError", Becomes "Midl" "WarnAsError" Boolean);
  ("DefaultCharType", Becomes "Midl" "DefaultCharType" (Label [Some "Unsigned"; Some "Signed"; Some "Ascii"]));
  ("TargetEnvironment", Becomes "Midl" "TargetEnvironment" (Label [Some "NotSet"; Some "Win32"; Some "Itanium"; Some "X64"; Some "ARM64"]));
  ("EnableErrorChecks", Becomes "Midl" "EnableErrorChecks" (Label [Some "EnableCustom"; Some "None"; Some "All"]));
  ("StructMemberAlignment", Becomes "Midl" "StructMemberAlignment" (Label [Some "NotSet"; Some "1"; Some "2"; Some "4"; Some "8"]));
  ("WarningLevel", Becomes "Midl" "WarningLevel" (Label [Some "0"; Some "1"; Some "2"; Some "3"; Some "4"]));
  ("DLLDataFileName", Becomes "Midl" "DllDataFileName" One);
  ("ValidateParameters", Becomes "Midl" "ValidateAllParameters" Boolean);
  ("ApplicationConfigurationMode", As_is "Midl" "ApplicationConfigurationMode");
  ("ClientStubFile", As_is "Midl" "ClientStubFile");
  ("GenerateClientFiles", As_is "Midl" "GenerateClientFiles");
  ("GenerateServerFiles", As_is "Midl" "GenerateServerFiles");
  ("LocaleID", As_is "Midl" "LocaleID");
  ("ServerStubFile", As_is "Midl" "ServerStubFile");
  ("SuppressCompilerWarnings", As_is "Midl" "SuppressCompilerWarnings");
  ("TrackerLogDirectory", As_is "Midl" "TrackerLogDirectory");
  ("TypeLibFormat", As_is "Midl" "TypeLibFormat")].
(** 1076-1091 *)
Definition rc_rules : list (string * rule) := [("AdditionalOptions", Becomes "ResourceCompile" "AdditionalOptions" Several);
  ("AdditionalIncludeDirectories", Becomes "ResourceCompile" "AdditionalIncludeDirectories" Several);
  ("Culture", Becomes "ResourceCompile" "Culture" (Integer true));
  ("IgnoreStandardIncludePath", Becomes "ResourceCompile" "IgnoreStandardIncludePath" Boolean);
  ("PreprocessorDefinitions", Becomes "ResourceCompile" "PreprocessorDefinitions" Several);
  ("ResourceOutputFileName", Becomes "ResourceCompile" "ResourceOutputFileName" One);
  ("ShowProgress", Becomes "ResourceCompile" "ShowProgress" Boolean);
  ("SuppressStartupBanner", Becomes "ResourceCompile" "SuppressStartupBanner" Boolean);
  ("UndefinePreprocessorDefinitions", Becomes "ResourceCompile" "UndefinePreprocessorDefinitions" Several);
  ("NullTerminateStrings", As_is "ResourceCompile" "NullTerminateStrings");
  ("TrackerLogDirectory", As_is "ResourceCompile" "TrackerLogDirectory")].
(** 1180-1218 *)
Definition lib_rules : list (string * rule) := [("AdditionalDependencies", Becomes "Lib" "AdditionalDependencies" Several);
  ("AdditionalLibraryDirectories", Becomes "Lib" "AdditionalLibraryDirectories" Several);
  ("AdditionalOptions", Becomes "Lib" "AdditionalOptions" Several);
  ("ExportNamedFunctions", Becomes "Lib" "ExportNamedFunctions" Several);
  ("ForceSymbolReferences", Becomes "Lib" "ForceSymbolReferences" One);
  ("IgnoreAllDefaultLibraries", Becomes "Lib" "IgnoreAllDefaultLibraries" Boolean);
  ("IgnoreSpecificDefaultLibraries", Becomes "Lib" "IgnoreSpecificDefaultLibraries" Several);
  ("ModuleDefinitionFile", Becomes "Lib" "ModuleDefinitionFile" One);
  ("OutputFile", Becomes "Lib" "OutputFile" One);
  ("SuppressStartupBanner", Becomes "Lib" "SuppressStartupBanner" Boolean);
  ("UseUnicodeResponseFiles", Becomes "Lib" "UseUnicodeResponseFiles" Boolean);
  ("LinkTimeCodeGeneration", Becomes "Lib" "LinkTimeCodeGeneration" Boolean);
  ("TargetMachine", Becomes "Lib" "TargetMachine" (Label [Some "NotSet"; Some "MachineX86"; None; Some "MachineARM"; Some "MachineEBC"; Some "MachineIA64"; None; Some "MachineMIPS"; Some "MachineMIPS16"; Some "MachineMIPSFPU"; Some "MachineMIPSFPU16"; None; None; None; Some "MachineSH4"; None; Some "MachineTHUMB"; Some "MachineX64"]));
  ("LinkLibraryDependencies", Becomes "ProjectReference" "LinkLibraryDependencies" Boolean);
  ("DisplayLibrary", As_is "Lib" "DisplayLibrary");
  ("ErrorReporting", As_is "Lib" "ErrorReporting");
  ("MinimumRequiredVersion", As_is "Lib" "MinimumRequiredVersion");
  ("Name", As_is "Lib" "Name");
  ("RemoveObjects", As_is "Lib" "RemoveObjects");
  ("SubSystem", As_is "Lib" "SubSystem");
  ("TrackerLogDirectory", As_is "Lib" "TrackerLogDirectory");
  ("TreatLibWarningAsErrors", As_is "Lib" "TreatLibWarningAsErrors");
  ("Verbose", As_is "Lib" "Verbose")].
(** 1226-1264 *)
Definition manifest_rules : list (string * rule) := [("AdditionalManifestFiles", Becomes "Manifest" "AdditionalManifestFiles" Several);
  ("AdditionalOptions", Becomes "Manifest" "AdditionalOptions" Several);
  ("AssemblyIdentity", Becomes "Manifest" "AssemblyIdentity" One);
  ("ComponentFileName", Becomes "Manifest" "ComponentFileName" One);
  ("GenerateCatalogFiles", Becomes "Manifest" "GenerateCatalogFiles" Boolean);
  ("InputResourceManifests", Becomes "Manifest" "InputResourceManifests" One);
  ("OutputManifestFile", Becomes "Manifest" "OutputManifestFile" One);
  ("RegistrarScriptFile", Becomes "Manifest" "RegistrarScriptFile" One);
  ("ReplacementsFile", Becomes "Manifest" "ReplacementsFile" One);
  ("SuppressStartupBanner", Becomes "Manifest" "SuppressStartupBanner" Boolean);
  ("TypeLibraryFile", Becomes "Manifest" "TypeLibraryFile" One);
  ("UpdateFileHashes", Becomes "Manifest" "UpdateFileHashes" Boolean);
  ("UpdateFileHashesSearchPath", Becomes "Manifest" "UpdateFileHashesSearchPath" One);
  ("VerboseOutput", Becomes "Manifest" "VerboseOutput" Boolean);
  ("ManifestResourceFile", Becomes "ManifestResourceCompile" "ResourceOutputFileName" One);
  ("EmbedManifest", Becomes "" "EmbedManifest" Boolean);
  ("DependencyInformationFile", Ignored);
  ("UseFAT32Workaround", Ignored);
  ("UseUnicodeResponseFiles", Ignored);
  ("EnableDPIAwareness", As_is "Manifest" "EnableDPIAwareness");
  ("GenerateCategoryTags", As_is "Manifest" "GenerateCategoryTags");
  ("ManifestFromManagedAssembly", As_is "Manifest" "ManifestFromManagedAssembly");
  ("OutputResourceManifests", As_is "Manifest" "OutputResourceManifests");
  ("SuppressDependencyElement", As_is "Manifest" "SuppressDependencyElement");
  ("TrackerLogDirectory", As_is "Manifest" "TrackerLogDirectory")].
(** 1272-1272 *)
Definition masm_rules : list (string * rule) := [("UseSafeExceptionHandlers", Becomes "MASM" "UseSafeExceptionHandlers" Boolean)].
(** no settings *)
Definition armasm_rules : list (string * rule) := [].
(** 556-581 *)
Definition rules : list (string * list (string * rule)) := [("VCCLCompilerTool", compile_rules); ("VCLinkerTool", link_rules); ("VCMIDLTool", midl_rules); ("VCResourceCompilerTool", rc_rules); ("VCLibrarianTool", lib_rules); ("VCManifestTool", manifest_rules); ("MASM", masm_rules); ("ARMASM", armasm_rules)].

(** ** the conversion: 445-490 *)
Inductive warning := Bad_value (tool setting : string) | Unknown_setting (tool setting : string) | Unknown_tool (tool : string).
(** 380-406: names without newlines *)
Definition chars_excluded : list ascii := list_ascii_of_string "dedulcxe_".
Definition without_excluded (s : string) : option string :=
  match rev (list_ascii_of_string s) with
  | d1 :: e1 :: d2 :: u :: l :: c :: x :: e2 :: us :: rest =>
    if list_eq_dec ascii_dec [d1; e1; d2; u; l; c; x; e2; us] chars_excluded then Some (string_of_list_ascii (rev rest)) else None
  | _ => None
  end.
Definition exclusion (setting : string) (known : list string) : bool := match without_excluded setting with Some root => mem root known | None => false end.
(** None: an exception other than a ValueError *)
Fixpoint convert_settings (tool : string) (rs : list (string * rule)) (l : settings) (out : tools) (ws : list warning) : option (tools * list warning) :=
  match l with
  | [] => Some (out, ws)
  | (name, v) :: l' =>
    match assoc name rs with
    | Some r =>
      match translate r v out with
      | Some (out', bad) => convert_settings tool rs l' out' (if bad then ws ++ [Bad_value tool name] else ws)%list
      | None => None
      end
    | None => convert_settings tool rs l' out (if exclusion name (map fst rs) then ws else ws ++ [Unknown_setting tool name])%list
    end
  end.
Fixpoint convert_tools (given : tools) (out : tools) (ws : list warning) : option (tools * list warning) :=
  match given with
  | [] => Some (out, ws)
  | (tool, l) :: given' =>
    match assoc tool rules with
    | Some rs => match convert_settings tool rs l out ws with Some (out', ws') => convert_tools given' out' ws' | None => None end
    | None => convert_tools given' out (ws ++ [Unknown_tool tool])%list
    end
  end.
Definition convert (given : tools) : option (tools * list warning) := convert_tools given [] [].
