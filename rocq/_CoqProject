-Q theories Verif
theories/Str.v
theories/SplAst.v
theories/PyAst.v
theories/Render.v
theories/Functions.v
theories/Transpile.v
theories/Commands.v
theories/Nom.v
theories/Lexer.v
theories/Parser.v
theories/CmdParser.v
theories/TestsE2E.v
theories/TestsParse.v
theories/TestsUnits.v
theories/Macros.v
theories/ParserFacts.v
theories/ParserTotal.v
theories/ParserFuel.v
theories/SpecText.v
theories/LexFacts.v
theories/TokenFacts.v
theories/NameFacts.v
theories/PropsParser.v
theories/SpecExpr.v
theories/ExprFacts.v
theories/LogicFacts.v
theories/EvalFacts.v
theories/PropsExpr.v
theories/SpecMacro.v
theories/MacroFacts.v
theories/MacroSubFacts.v
theories/MacroUnfold.v
theories/PropsMacros.v
theories/SpecPipe.v
theories/PipeFacts.v
theories/AllowFacts.v
theories/TreeFacts.v
theories/NamesFacts.v
theories/ShapeFacts.v
theories/ScopeFacts.v
theories/StatementFacts.v
theories/ComposeFacts.v
theories/Api.v
theories/PropsPipe.v
theories/SpecPy.v
theories/PyFacts.v
theories/SpecCol.v
theories/ReadFacts.v
theories/ReadTree.v
theories/SpecFrame.v
theories/FrameFacts.v
theories/ProgramFacts.v
theories/CodeFacts.v
theories/PropsCode.v
theories/SpecSpark.v
theories/SpecRows.v
theories/RowFacts.v
theories/ValueFacts.v
theories/SpecCommands.v
theories/SearchFacts.v
theories/CommandFacts.v
theories/RunFacts.v
theories/SpecResult.v
theories/ResultFacts.v
theories/SpecEffect.v
theories/EffectFacts.v
theories/PropsRows.v
theories/DefectFacts.v
theories/PropsCommands.v
theories/DefectMore.v
theories/PropsDefects.v
theories/SpecAfter.v
theories/AfterFacts.v
theories/CallMore.v
theories/PropsAfter.v
theories/SpecTime.v
theories/TimeFacts.v
theories/TimeRows.v
theories/PropsTime.v
theories/Runtime.v
theories/Format.v
theories/SpecFormat.v
theories/FormatFacts.v
theories/PropsFormat.v
theories/SpecCall.v
theories/CallFacts.v
theories/PropsCall.v
theories/SpecRuntime.v
theories/RuntimeFacts.v
theories/RuntimeSteps.v
theories/RuntimeCalls.v
theories/RuntimeRuns.v
theories/PropsRuntime.v
theories/PanicFacts.v
theories/PropsTotal.v
theories/SpecEval.v
theories/EvalCalls.v
theories/PropsEval.v
theories/PropsRelative.v
theories/Regex.v
theories/SpecRegex.v
theories/RegexFacts.v
theories/PropsRegex.v
theories/SpecOptions.v
theories/OptionFacts.v
theories/PropsOptions.v
theories/SpecWhere.v
theories/SpecSpell.v
theories/SpellFacts.v
theories/WhereFacts.v
theories/SpellOptions.v
theories/SpellMore.v
theories/SpellBodies.v
theories/SpellForms.v
theories/SpellTails.v
theories/SpellTstats.v
theories/SpellRead.v
theories/SpellRuns.v
theories/UnknownFacts.v
theories/PropsSpell.v
theories/PropsUnknown.v
theories/Udfs.v
theories/SpecUdf.v
theories/UdfFacts.v
theories/UdfNumbers.v
theories/UdfLong.v
theories/PropsUdf.v
theories/Live.v
theories/SpecLive.v
theories/LiveFacts.v
theories/PropsLive.v
theories/SpecNames.v
theories/NameUseFacts.v
theories/PropsNames.v
theories/MoreDefects.v
theories/TailText.v
theories/PropsIgnored.v
theories/Loaders.v
theories/SpecLoaders.v
theories/LoaderFacts.v
theories/PropsLoaders.v
theories/SpecPyRun.v
theories/Notebook.v
theories/SpecNotebook.v
theories/NotebookFacts.v
theories/PropsNotebook.v
theories/UnboundFacts.v
theories/PropsUnbound.v
theories/QuotedMore.v
theories/DottedFacts.v
theories/BareFacts.v
theories/PropsCopied.v
theories/NestedFacts.v
theories/PropsNested.v
theories/SpecFill.v
theories/FillFacts.v
theories/PropsFill.v
theories/SumFacts.v
theories/TstatsFails.v
theories/SpecLacks.v
theories/NameFacts2.v
theories/LacksFacts.v
theories/WrapFacts.v
theories/PropsMissing.v
