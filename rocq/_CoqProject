-Q theories Verif
theories/GoStr.v
theories/Scip.v
theories/GoTypes.v
theories/Ast.v
theories/Packages.v
theories/Symbols.v
theories/Document.v
theories/Lookup.v
theories/Pass1.v
theories/Pass2.v
theories/SpecSymbol.v
theories/SpecDecl.v
theories/P_Symbols.v
theories/P_Pass1.v
theories/P_Doc.v
theories/P_Link.v
theories/ExDecl.v
theories/SpecLookup.v
theories/SpecOcc.v
theories/P_Lookup.v
theories/P_Pass2.v
theories/P_Occ.v
theories/ExOcc.v
theories/PropSymbols.v
theories/PropDecl.v
theories/PropOcc.v
theories/P_Sort.v
theories/Regex.v
theories/Semver.v
theories/SpecSemver.v
theories/P_Semver.v
theories/Paths.v
theories/ExText.v
theories/P_Paths.v
theories/PropPaths.v
theories/Loader.v
theories/Index.v
theories/SpecIndex.v
theories/PropModule.v
theories/P_Loader.v
theories/PropLoader.v
theories/Env.v
theories/PropEnv.v
theories/P_Scope.v
theories/P_Index.v
theories/P_Load.v
theories/PropIndex.v
theories/ExIndex.v
theories/Output.v
theories/PropOutput.v
theories/Proto.v
theories/P_Proto.v
theories/PropProto.v
theories/P_Fits.v
theories/Cli.v
theories/PropCli.v
theories/PropScreen.v
theories/Quote.v
theories/PropQuote.v
theories/PropAnon.v
theories/Fingerprint.v
theories/SpecTypes.v
theories/P_Utf8.v
theories/P_QuoteGo.v
theories/P_Finger.v
theories/P_Parse.v
theories/P_Match.v
theories/PropFinger.v
theories/Impls.v
theories/P_Rel.v
theories/P_Ident.v
theories/SpecImpl.v
theories/P_Filter.v
theories/P_Mem.v
theories/P_Extract.v
theories/P_Impl.v
theories/PropImpl.v
theories/ExImpl.v
theories/PropDet.v
theories/ExDet.v
theories/PropCross.v
theories/SpecImport.v
theories/ExCross.v
theories/PropNav.v
theories/PropSwitch.v
theories/ExNav.v
theories/PropLocal.v
theories/ExLocal.v
theories/Options.v
theories/PropOptions.v
theories/Signature.v
theories/PropSig.v
theories/SpecTypeText.v
theories/PropTypeText.v
theories/PropHover.v
theories/PropMember.v
theories/ExMember.v
theories/Url.v
theories/PropUrl.v
theories/PropEscape.v
theories/Program.v
theories/PropEnd.v
theories/ExEnd.v
theories/PropLoad.v
theories/P_Valid.v
theories/SpecText.v
theories/P_Text.v
theories/P_Text2.v
theories/P_Text3.v
theories/SpecSig.v
theories/P_SigText.v
theories/PropText.v
theories/ExTag.v
theories/PropReach.v
theories/ExReach.v
theories/PropGroup.v
theories/SpecPrecise.v
theories/P_Precise.v
theories/PropPrecise.v
theories/ExPrecise.v
theories/PropResult.v
theories/ExResult.v
theories/Source.v
theories/SpecSource.v
theories/P_Source.v
theories/PropSource.v
theories/ExSource.v
theories/PropUnique.v
theories/ExUnique.v
theories/PropBuiltin.v
theories/Commands.v
theories/PropCommands.v
theories/ExCommands.v
theories/PropImport.v
theories/ExImport.v
theories/PropBehind.v
theories/ExBehind.v
theories/PropStable.v
theories/ExStable.v
theories/PropTypeMember.v
theories/ExTypeMember.v
theories/PropPrint.v
theories/ExPrint.v
theories/PropRemote.v
theories/PropEncodable.v
theories/PropDefined.v
theories/ExDefined.v
theories/PropDirective.v
theories/ExDirective.v
theories/PropSkip.v
theories/ExSkip.v
theories/PropFind.v
theories/ExFind.v
theories/P_Once.v
theories/PropOnce.v
theories/ExOnce.v
theories/SpecMove.v
theories/P_Move.v
theories/P_Move2.v
theories/P_Move3.v
theories/PropMove.v
theories/ExMove.v
theories/PropSkipRun.v
theories/ExSkipRun.v
theories/PropPart.v
theories/ExPart.v
theories/PropPartMethod.v
theories/ExPartMethod.v
theories/PropEdit.v
theories/ExEdit.v
theories/PropEditRun.v
theories/ExEditRun.v
theories/SpecComment.v
theories/P_Comment.v
theories/P_Comment2.v
theories/PropComment.v
theories/ExComment.v
theories/PropGrow.v
theories/ExGrow.v
theories/PropGrowRun.v
theories/ExGrowRun.v
theories/SpecElsewhere.v
theories/P_Elsewhere.v
theories/PropElsewhere.v
theories/ExElsewhere.v
theories/PropFindCross.v
theories/ExFindCross.v
theories/Snapshot.v
theories/Contract.v
theories/SnapAlias.v
theories/SnapEmbedded.v
theories/SnapGenerallyeric.v
theories/SnapImpls.v
theories/SnapInitial.v
theories/SnapInlinestruct.v
theories/SnapPackageDocumentation.v
theories/SnapPr198.v
theories/SnapPr199.v
theories/SnapPr201.v
theories/SnapPr202.v
theories/SnapPr206.v
theories/SnapPr211.v
theories/SnapPr216.v
theories/SnapPr218.v
theories/SnapPr222.v
theories/SnapPr256.v
theories/SnapReplaceDirectives.v
theories/SnapSharedtestmodule.v
theories/SnapSwitches.v
theories/SnapTestdata.v
theories/SnapTestspecial.v
