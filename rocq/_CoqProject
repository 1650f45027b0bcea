-Q theories Verif
theories/PyBase.v
theories/PyStr.v
theories/Format.v
theories/Values.v
theories/Namedict.v
theories/BoxM.v
theories/Textwrap.v
theories/Justify.v
theories/Url.v
theories/Ansi.v
theories/Dom.v
theories/Select.v
theories/Renderers.v
theories/Parser.v
theories/Themes.v
theories/Fixture.v
theories/TextSpec.v
theories/BaseFacts.v
theories/StrFacts.v
theories/CollapseFacts.v
theories/TreeSpec.v
theories/TreeFacts.v
theories/HistoryFacts.v
theories/TreeProps.v
theories/DomFacts.v
theories/SelSpec.v
theories/SelFacts.v
theories/CssFacts.v
theories/SelProps.v
theories/WrapSpec.v
theories/WrapFacts.v
theories/WrapLoop.v
theories/WrapWidth.v
theories/WrapWords.v
theories/WrapGreedy.v
theories/WrapStop.v
theories/WrapProps.v
theories/JustSpec.v
theories/JustFacts.v
theories/JustProps.v
theories/LineSpec.v
theories/LineFacts.v
theories/BoxHeap.v
theories/BoxSpec.v
theories/BoxFacts.v
theories/BoxProps.v
theories/WrapLimit.v
theories/NamedictSpec.v
theories/NamedictProps.v
theories/AnsiSpec.v
theories/AnsiFacts.v
theories/AnsiStyle.v
theories/AnsiPure.v
theories/AnsiProps.v
theories/UrlSpec.v
theories/UrlFacts.v
theories/UrlProps.v
theories/HrefSpec.v
theories/HrefFacts.v
theories/HrefProps.v
theories/RuleFacts.v
theories/LinkTree.v
theories/RenderSpec.v
theories/RenderFacts.v
theories/ElemSpec.v
theories/ElemFacts.v
theories/ElemText.v
theories/QuoteFacts.v
theories/ElemProps.v
theories/LinkSpec.v
theories/LinkFacts.v
theories/LinkSettings.v
theories/LinkRecord.v
theories/LinkProps.v
theories/DocSpec.v
theories/DocFacts.v
theories/DocProps.v
theories/SettingsHeap.v
theories/SettingsSpec.v
theories/SettingsFacts.v
theories/SettingsProps.v
theories/ToolFacts.v
theories/ToolProps.v
theories/PageSpec.v
theories/RuleExact.v
theories/PageBase.v
theories/PageElem.v
theories/PageText.v
theories/PageFacts.v
theories/PageMain.v
theories/PageRead.v
theories/PageProps.v
theories/PageRoom.v
theories/RoomProps.v
theories/KeepSpec.v
theories/KeepFacts.v
theories/KeepProps.v
theories/ProseSpec.v
theories/ProseFacts.v
theories/ProseProps.v
theories/RepoTests.v
theories/Entities.v
theories/Tokenizer.v
theories/Feed.v
theories/TokFacts.v
theories/CrashSpec.v
theories/CrashFacts.v
theories/CrashProps.v
theories/SourceSpec.v
theories/SourceFacts.v
theories/SourceTags.v
theories/SourceMain.v
theories/SplitSpec.v
theories/SplitFacts.v
theories/ChunkFacts.v
theories/ChunkMain.v
theories/ChunkRead.v
theories/PrintSpec.v
theories/PrintFacts.v
theories/SourceProps.v
theories/FormatSpec.v
theories/FormatFacts.v
theories/FormatArgs.v
theories/FormatMain.v
theories/FormatProps.v
theories/FormatterM.v
theories/FormatterSpec.v
theories/FormatterProps.v
theories/DressSpec.v
theories/DressFacts.v
theories/DressProps.v
theories/MungeSpec.v
theories/MungeProps.v
theories/JudgeSpec.v
theories/StyleSpec.v
theories/StyleFacts.v
theories/JudgeFacts.v
theories/StyleRules.v
theories/StyleShow.v
theories/StyleRefs.v
theories/GoodFacts.v
theories/StyleMain.v
theories/JudgeMain.v
theories/JudgeProps.v
theories/StyleProps.v
theories/ShapeSpec.v
theories/ShapeFacts.v
theories/ShapeBack.v
theories/ShapeMain.v
theories/ShapeCheck.v
theories/ShapeStock.v
theories/ShapeProps.v
theories/LayoutSpec.v
theories/LayoutFacts.v
theories/LayoutLines.v
theories/SetSpec.v
theories/SetFacts.v
theories/SetHang.v
theories/SetProps.v
theories/SgrSpec.v
theories/SgrFacts.v
theories/SgrProps.v
theories/LayoutProps.v
theories/RegexSpec.v
theories/RegexFacts.v
theories/RegexText.v
theories/RefSpec.v
theories/RegexRefs.v
theories/RegexTags.v
theories/MarkupSpec.v
theories/MarkupFacts.v
theories/MarkupMain.v
theories/RegexProps.v
theories/MarkupProps.v
theories/Warn.v
theories/WarnSpec.v
theories/WarnFacts.v
theories/WarnProps.v
theories/Cli.v
theories/CliSpec.v
theories/CliFacts.v
theories/CliProps.v
theories/SetupSpec.v
theories/SetupFacts.v
theories/SetupProps.v
theories/OwnSpec.v
theories/OwnAlike.v
theories/TripSpec.v
theories/TripFacts.v
theories/TripMain.v
theories/OwnProps.v
theories/TripProps.v
theories/SessionSpec.v
theories/SessionLast.v
theories/SessionFacts.v
theories/SessionMain.v
theories/SessionProps.v
theories/SafeSpec.v
theories/SafeFacts.v
theories/SafeMain.v
theories/SafeBack.v
theories/SafeCheck.v
theories/FitCheck.v
theories/SafeProps.v
theories/DepthSpec.v
theories/DepthFacts.v
theories/DepthProps.v
theories/StrSpec.v
theories/StrProps.v
theories/WideSpec.v
theories/WideFacts.v
theories/WideProps.v
theories/TermSpec.v
theories/TermRead.v
theories/TermLay.v
theories/TermStyle.v
theories/TermSpan.v
theories/TermClean.v
theories/TermMain.v
theories/TermCheck.v
theories/TermProps.v
theories/PieceSpec.v
theories/PieceMain.v
theories/TermSource.v
theories/PieceProps.v
theories/Walk.v
theories/WalkSpec.v
theories/WalkFacts.v
theories/WalkMain.v
theories/WalkProps.v
theories/ArgSpec.v
theories/Args.v
theories/ArgFacts.v
theories/ArgMain.v
theories/ArgProps.v
theories/RunSpec.v
theories/RunLimit.v
theories/RunFacts.v
theories/RunProps.v
theories/MenuSpec.v
theories/MenuFacts.v
theories/MenuProps.v
theories/CutProps.v
