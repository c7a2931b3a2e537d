-Q theories Verif
theories/Lib.v
theories/LibFacts.v
theories/Model_Graph.v
theories/Spec_Graph.v
theories/Proof_Graph.v
theories/Proof_Deps.v
theories/Proof_Adjust.v
theories/Examples_Graph.v
theories/Props_Graph.v
theories/Model_OrderedSet.v
theories/Spec_OrderedSet.v
theories/Proof_OrderedSet.v
theories/Model_TopoSort.v
theories/Proof_TopoSort.v
theories/Model_Memo.v
theories/Proof_Memo.v
theories/Props_Collections.v
theories/Str.v
theories/StrFacts.v
theories/Model_Names.v
theories/Spec_Names.v
theories/Proof_Names.v
theories/Proof_Files.v
theories/Props_Names.v
theories/Model_Path.v
theories/Spec_Path.v
theories/Proof_Path.v
theories/Proof_Path2.v
theories/Props_Path.v
theories/Model_Value.v
theories/Model_Merge.v
theories/Spec_Merge.v
theories/Proof_Merge.v
theories/Proof_Merge2.v
theories/Proof_Merge3.v
theories/Examples_Merge.v
theories/Props_Merge.v
theories/Model_Filter.v
theories/Spec_Filter.v
theories/Proof_Filter.v
theories/Proof_Filter2.v
theories/Props_Filter.v
theories/Model_Cond.v
theories/Spec_Cond.v
theories/Proof_Cond.v
theories/Proof_Cond2.v
theories/Proof_Cond3.v
theories/Props_Cond.v
theories/Examples_Cond.v
theories/Model_Toolset.v
theories/Spec_Toolset.v
theories/Proof_Toolset.v
theories/Props_Toolset.v
theories/Model_Config.v
theories/Spec_Config.v
theories/Proof_Config.v
theories/Props_Config.v
theories/Model_Text.v
theories/Spec_Text.v
theories/Proof_Text.v
theories/Props_Text.v
theories/Model_Load.v
theories/Spec_Load.v
theories/Proof_Load.v
theories/Props_Load.v
theories/Model_Settings.v
theories/Spec_Settings.v
theories/Proof_Settings.v
theories/Props_Settings.v
theories/Model_Quote.v
theories/Spec_Quote.v
theories/Proof_Quote.v
theories/Props_Quote.v
theories/Model_Ninja.v
theories/Spec_Ninja.v
theories/Proof_Ninja.v
theories/Props_Ninja.v
theories/Model_Xml.v
theories/Spec_Xml.v
theories/Proof_Xml.v
theories/Props_Xml.v
theories/Model_Version.v
theories/Spec_Version.v
theories/Proof_Version.v
theories/Props_Version.v
theories/Model_Shard.v
theories/Spec_Shard.v
theories/Proof_Shard.v
theories/Props_Shard.v
theories/Model_Analyzer.v
theories/Spec_Analyzer.v
theories/Proof_Analyzer.v
theories/Proof_Analyzer2.v
theories/Proof_Analyzer3.v
theories/Props_Analyzer.v
theories/Model_Parallel.v
theories/Spec_Parallel.v
theories/Proof_Parallel.v
theories/Props_Parallel.v
theories/Model_Cli.v
theories/Spec_Cli.v
theories/Proof_Cli.v
theories/Props_Cli.v
theories/Model_Python.v
theories/Spec_Python.v
theories/Proof_Python.v
theories/Props_Python.v
theories/Js.v
theories/Model_Vs.v
theories/Spec_Vs.v
theories/Proof_Vs.v
theories/Proof_Vs2.v
theories/Props_Vs.v
theories/Model_Write.v
theories/Proof_Write.v
theories/Props_Write.v
theories/Model_Install.v
theories/Spec_Install.v
theories/Proof_Install.v
theories/Proof_Install2.v
theories/Proof_Install3.v
theories/Props_Install.v
theories/Model_Expand.v
theories/Spec_Expand.v
theories/Proof_Expand.v
theories/Proof_Expand2.v
theories/Proof_Expand3.v
theories/Proof_Expand4.v
theories/Props_Expand.v
theories/Model_Release.v
theories/Spec_Release.v
theories/Proof_Release.v
theories/Proof_Release2.v
theories/Proof_Release3.v
theories/Proof_Release4.v
theories/Props_Release.v
theories/Model_Json.v
theories/Model_Gypi.v
theories/Spec_Gypi.v
theories/Proof_Json.v
theories/Proof_Gypi.v
theories/Proof_Gypi2.v
theories/Proof_Gypi3.v
theories/Props_Gypi.v
theories/Model_Build.v
theories/Spec_Build.v
theories/Proof_Build.v
theories/Proof_Build2.v
theories/Props_Build.v
theories/Spec_Scope.v
theories/Proof_Scope.v
theories/Proof_Scope2.v
theories/Props_Scope.v
theories/Model_Args.v
theories/Model_Configure.v
theories/Spec_Args.v
theories/Proof_Args.v
theories/Spec_Configure.v
theories/Proof_Args2.v
theories/Proof_Configure.v
theories/Props_Args.v
theories/Proof_Regen.v
theories/Proof_Regen2.v
theories/Props_Regen.v
theories/Model_Headers.v
theories/Spec_Headers.v
theories/Proof_Headers.v
theories/Props_Headers.v
theories/Model_Make.v
theories/Spec_Make.v
theories/Proof_Make.v
theories/Proof_Make2.v
theories/Props_Make.v
theories/Model_Depfile.v
theories/Spec_Depfile.v
theories/Proof_Depfile.v
theories/Props_Depfile.v
theories/Model_Writer.v
theories/Spec_Writer.v
theories/Proof_Writer.v
theories/Proof_Writer2.v
theories/Proof_Writer3.v
theories/Props_Writer.v
theories/Model_Remake.v
theories/Spec_Remake.v
theories/Proof_Remake.v
theories/Proof_Remake2.v
theories/Proof_Remake3.v
theories/Proof_Remake4.v
theories/Props_Remake.v
theories/Model_Suffix.v
theories/Spec_Suffix.v
theories/Proof_Suffix.v
theories/Proof_Suffix2.v
theories/Proof_Suffix3.v
theories/Props_Suffix.v
theories/Spec_Parts.v
theories/Proof_Parts.v
theories/Proof_Parts2.v
theories/Props_Parts.v
theories/Model_Commands.v
theories/Spec_Commands.v
theories/Proof_Commands.v
theories/Proof_Commands2.v
theories/Props_Commands.v
theories/Model_Flags.v
theories/Spec_Flags.v
theories/Proof_Flags.v
theories/Proof_Flags2.v
theories/Proof_Flags3.v
theories/Proof_Flags4.v
theories/Proof_Flags5.v
theories/Proof_Flags6.v
theories/Proof_Flags7.v
theories/Props_Flags.v
theories/Proof_Commands3.v
theories/Model_Vcxproj.v
theories/Spec_Vcxproj.v
theories/Proof_Vcxproj.v
theories/Proof_Vcxproj2.v
theories/Proof_Vcxproj3.v
theories/Proof_Vcxproj4.v
theories/Proof_Vcxproj5.v
theories/Props_Vcxproj.v
theories/Spec_Custom.v
theories/Proof_Custom.v
theories/Proof_Custom2.v
theories/Proof_Custom3.v
theories/Props_Custom.v
theories/Model_Cmdline.v
theories/Spec_Cmdline.v
theories/Proof_Cmdline.v
theories/Props_Cmdline.v
theories/Model_Tools.v
theories/Spec_Tools.v
theories/Proof_Tools.v
theories/Proof_Tools2.v
theories/Proof_Tools3.v
theories/Props_Tools.v
theories/Model_Properties.v
theories/Spec_Properties.v
theories/Proof_Properties.v
theories/Proof_Properties2.v
theories/Proof_Properties3.v
theories/Props_Properties.v
theories/Model_Msvs.v
theories/Spec_Msvs.v
theories/Proof_Msvs.v
theories/Proof_Msvs2.v
theories/Proof_Msvs3.v
theories/Proof_Msvs4.v
theories/Props_Msvs.v
theories/Model_Solution.v
theories/Spec_Solution.v
theories/Proof_Solution.v
theories/Proof_Solution2.v
theories/Proof_Solution3.v
theories/Proof_Solution4.v
theories/Props_Solution.v
theories/Model_Xcode.v
theories/Spec_Xcode.v
theories/Proof_Xcode.v
theories/Proof_Xcode1.v
theories/Proof_Xcode2.v
theories/Proof_Xcode3.v
theories/Proof_Xcode4.v
theories/Props_Xcode.v
theories/Model_NinjaBuild.v
theories/Spec_NinjaBuild.v
theories/Proof_NinjaBuild.v
theories/Proof_NinjaBuild2.v
theories/Proof_NinjaBuild3.v
theories/Proof_NinjaBuild4.v
theories/Props_NinjaBuild.v
theories/Model_NinjaAction.v
theories/Spec_NinjaAction.v
theories/Proof_NinjaAction.v
theories/Proof_NinjaAction2.v
theories/Props_NinjaAction.v
theories/Spec_NinjaObject.v
theories/Proof_NinjaObject.v
theories/Props_NinjaObject.v
theories/Model_CaFile.v
theories/Spec_CaFile.v
theories/Proof_CaFile.v
theories/Props_CaFile.v
theories/Model_Registry.v
theories/Spec_Registry.v
theories/Proof_Registry.v
theories/Props_Registry.v
theories/Model_XcodeEnv.v
theories/Spec_XcodeEnv.v
theories/Proof_XcodeEnv.v
theories/Proof_XcodeEnv2.v
theories/Props_XcodeEnv.v
theories/Model_FlagsMac.v
theories/Spec_FlagsMac.v
theories/Proof_FlagsMac.v
theories/Proof_FlagsMac2.v
theories/Proof_FlagsMac3.v
theories/Proof_FlagsMac4.v
theories/Props_FlagsMac.v
theories/Model_Pbx.v
theories/Spec_Pbx.v
theories/Proof_Pbx.v
theories/Proof_Pbx2.v
theories/Proof_Pbx3.v
theories/Proof_Pbx4.v
theories/Props_Pbx.v
theories/Model_Race.v
theories/Spec_Race.v
theories/Proof_Race.v
theories/Proof_Race2.v
theories/Props_Race.v
theories/Model_CompileCommands.v
theories/Spec_CompileCommands.v
theories/Proof_CompileCommands.v
theories/Props_CompileCommands.v
theories/Model_Validate.v
theories/Spec_Validate.v
theories/Proof_Validate.v
theories/Props_Validate.v
theories/Model_XcodeGroups.v
theories/Spec_XcodeGroups.v
theories/Proof_XcodeGroups.v
theories/Proof_XcodeGroups2.v
theories/Proof_XcodeGroups3.v
theories/Proof_XcodeGroups4.v
theories/Proof_XcodeGroups5.v
theories/Props_XcodeGroups.v
theories/Model_Flavor.v
theories/Spec_Flavor.v
theories/Proof_Flavor.v
theories/Proof_Flavor2.v
theories/Props_Flavor.v
theories/Model_XcodeIds.v
theories/Spec_XcodeIds.v
theories/Proof_XcodeIds.v
theories/Proof_XcodeIds2.v
theories/Proof_XcodeIds3.v
theories/Props_XcodeIds.v
theories/Model_WinInstall.v
theories/Spec_WinInstall.v
theories/Proof_WinInstall.v
theories/Proof_WinInstall2.v
theories/Props_WinInstall.v
theories/Proof_XcodeGroups6.v
theories/Model_TargetDeps.v
theories/Spec_TargetDeps.v
theories/Proof_TargetDeps.v
theories/Proof_TargetDeps2.v
theories/Proof_TargetDeps3.v
theories/Proof_TargetDeps4.v
theories/Props_TargetDeps.v
theories/Model_WinEnv.v
theories/Spec_WinEnv.v
theories/Proof_WinEnv.v
theories/Proof_WinEnv2.v
theories/Proof_WinEnv3.v
theories/Props_WinEnv.v
theories/Proof_NinjaBuild5.v
theories/Proof_Msvs5.v
theories/Proof_WinEnv4.v
theories/Model_Log.v
theories/Spec_Log.v
theories/Proof_Log.v
theories/Props_Log.v
theories/Model_Filters.v
theories/Spec_Filters.v
theories/Proof_Filters.v
theories/Props_Filters.v
theories/Model_Stdout.v
theories/Spec_Stdout.v
theories/Proof_Stdout.v
theories/Props_Stdout.v
theories/Model_VsVersion.v
theories/Spec_VsVersion.v
theories/Proof_VsVersion.v
theories/Proof_VsVersion2.v
theories/Props_VsVersion.v
theories/Model_MacTool.v
theories/Spec_MacTool.v
theories/Proof_MacTool.v
theories/Props_MacTool.v
theories/Model_Dump.v
theories/Spec_Dump.v
theories/Proof_Dump.v
theories/Props_Dump.v
theories/Model_UserFile.v
theories/Spec_UserFile.v
theories/Proof_UserFile.v
theories/Props_UserFile.v
