-Q theories Verif
theories/Base.v
theories/Utils.v
theories/Trie.v
theories/TrieProofs.v
theories/ShSpec.v
theories/UtilsProofs.v
theories/StrBuf.v
theories/StrBufProofs.v
theories/Sort.v
theories/SortProofs.v
theories/Utf8.v
theories/Utf8Proofs.v
theories/FileIO.v
theories/FileIOProofs.v
theories/ErrorPos.v
theories/ErrorPosProofs.v
theories/P_Common.v
theories/Config.v
theories/ConfigProofs.v
theories/ConfigSpec.v
theories/ConfigRun.v
theories/ConfigEof.v
theories/P_Config.v
theories/Datetime.v
theories/DatetimeProofs.v
theories/P_Datetime.v
theories/Template.v
theories/TemplateAbs.v
theories/TemplateSpec.v
theories/TemplateDoc.v
theories/TemplateFwd.v
theories/TemplateStruct.v
theories/P_Template.v
theories/Renderer.v
theories/RenderTerm.v
theories/RenderSafe.v
theories/RenderSpec.v
theories/RenderValues.v
theories/RenderRefine.v
theories/RenderParsed.v
theories/P_Render.v
theories/Toctree.v
theories/ToctreeSpec.v
theories/ToctreeProofs.v
theories/Filelist.v
theories/FilelistSpec.v
theories/FilelistProofs.v
theories/P_Lists.v
theories/Content.v
theories/InlineSpec.v
theories/InlineProofs.v
theories/InlineFwd.v
theories/BlockSpec.v
theories/BlockProofs.v
theories/BlockTerm.v
theories/BlockSafe.v
theories/BlockOut.v
theories/BlockLoop.v
theories/DocSpec.v
theories/ListSpec.v
theories/BlockLine.v
theories/BlockFwd.v
theories/BlockDoc.v
theories/BlockList.v
theories/BlockNest.v
theories/PairSpec.v
theories/BlockPair.v
theories/ListChk.v
theories/ContentSpec.v
theories/ContentText.v
theories/P_Content.v
theories/Source.v
theories/SourceSpec.v
theories/SourceProofs.v
theories/SourceDoc.v
theories/SourceTotal.v
theories/P_Source.v
theories/Loader.v
theories/LoaderSpec.v
theories/LoaderProofs.v
theories/P_Loader.v
theories/Effects.v
theories/Receiver.v
theories/ReceiverSpec.v
theories/ReceiverProofs.v
theories/P_Receiver.v
theories/Deploy.v
theories/P_Deploy.v
theories/Runserver.v
theories/RunserverSpec.v
theories/P_Runserver.v
theories/ConfigWf.v
theories/Settings.v
theories/SettingsSpec.v
theories/P_Settings.v
theories/Filename.v
theories/FilenameSpec.v
theories/P_Filename.v
theories/BlogcCmd.v
theories/BlogcCmdSpec.v
theories/P_BlogcCmd.v
theories/Main.v
theories/MainSpec.v
theories/Utf8Text.v
theories/InlineUtf8.v
theories/BlockUtf8.v
theories/SourceUtf8.v
theories/ConfigUtf8.v
theories/P_Main.v
theories/P_MainRun.v
theories/Rules.v
theories/RulesSpec.v
theories/P_Rules.v
theories/P_Order.v
theories/BuildSpec.v
theories/P_Build.v
theories/Native.v
theories/P_Copy.v
theories/P_Clean.v
theories/Pipes.v
theories/PipesSpec.v
theories/P_Pipes.v
theories/Ctx.v
theories/CtxSpec.v
theories/P_Ctx.v
theories/Atom.v
theories/AtomSpec.v
theories/P_Atom.v
theories/P_Hooks.v
theories/Httpd.v
theories/P_Httpd.v
theories/MakeMain.v
theories/MakeMainSpec.v
theories/P_MakeMain.v
theories/RmTree.v
theories/RmTreeSpec.v
theories/P_RmTree.v
theories/ReceiverMain.v
theories/ReceiverMainSpec.v
theories/P_ReceiverMain.v
theories/FuncVars.v
theories/P_FuncVars.v
theories/Rusage.v
theories/RusageSpec.v
theories/P_Rusage.v
theories/RunMain.v
theories/RunMainSpec.v
theories/P_RunMain.v
theories/RenderUtf8.v
theories/P_Utf8Out.v
theories/SiteSpec.v
theories/P_Site.v
theories/HistorySpec.v
theories/P_History.v
theories/PagesSpec.v
theories/P_Pages.v
theories/P_Ask.v
theories/P_Life.v
theories/P_Whole.v
theories/Debug.v
theories/DebugSpec.v
theories/P_Debug.v
theories/Exec.v
theories/ExecSpec.v
theories/P_Exec.v
theories/P_Post.v
theories/P_Items.v
theories/ErrPrint.v
theories/ErrPrintSpec.v
theories/P_ErrPrint.v
theories/Listen.v
theories/ListenSpec.v
theories/P_Listen.v
theories/Handle.v
theories/HandleSpec.v
theories/P_Handle.v
theories/CmdLineSpec.v
theories/P_CmdLine.v
theories/P_Dirname.v
theories/P_RuleArgs.v
theories/P_Pinned.v
theories/T_Common.v
theories/T_Blogc.v
theories/T_Content.v
theories/T_Render.v
theories/T_Make.v
theories/T_Server.v
