-Q theories Verif
theories/Base.v
theories/Xml.v
theories/Utf8.v
theories/Lxml.v
theories/Py.v
theories/LxmlStr.v
theories/Models.v
theories/AttrDef.v
theories/DataType.v
theories/Header.v
theories/AttrValue.v
theories/SpecObj.v
theories/Hierarchy.v
theories/SpecTypes.v
theories/Progress.v
theories/Parser.v
theories/Unparser.v
theories/BundleModel.v
theories/SpecTraversal.v
theories/TraversalProofs.v
theories/Prop_Traversal.v
theories/SpecProgress.v
theories/ProgressProofs.v
theories/DictProofs.v
theories/SpecLookup.v
theories/ParserProofs.v
theories/Prop_Progress.v
theories/Prop_Lookup.v
theories/SpecParse.v
theories/FaithProofs.v
theories/ParserErrors.v
theories/IsolationProofs.v
theories/Prop_Parser.v
theories/XmlProofs.v
theories/SpecEscape.v
theories/EscapeProofs.v
theories/Prop_Escape.v
theories/Prop_Indent.v
theories/DateTime.v
theories/SpecDateTime.v
theories/Prop_DateTime.v
theories/Validate.v
theories/SpecValidate.v
theories/Prop_Validate.v
theories/Zip.v
theories/SpecZip.v
theories/Prop_Zip.v
theories/Utf8Proofs.v
theories/Schema.v
theories/SpecSchema.v
theories/Prop_Schema.v
theories/Anonymize.v
theories/SpecAnonymize.v
theories/Prop_Anonymize.v
theories/Dump.v
theories/SpecDump.v
theories/Prop_Dump.v
theories/Argparse.v
theories/Commands.v
theories/SpecCommands.v
theories/ArgProofs.v
theories/Prop_Commands.v
theories/AutoStr.v
theories/Prop_AutoStr.v
theories/Frag.v
theories/SpecPrint.v
theories/RT.v
theories/RT_Header.v
theories/IntProofs.v
theories/RT_DataType.v
theories/RT_AttrDef.v
theories/RT_SpecTypes.v
theories/RT_Values.v
theories/RT_Objects.v
theories/RT_Hier.v
theories/SpecXhtml.v
theories/RT_Xhtml.v
theories/SpecDocument.v
theories/RT_Content.v
theories/RT_Document.v
theories/RT_Strip.v
theories/SpecRoundTrip.v
theories/RT_Public.v
theories/Prop_RoundTrip.v
theories/RT_OneLine.v
theories/RT_Tag.v
theories/XmlChars.v
theories/Prop_Document.v
theories/SpecSettle.v
theories/SettleProofs.v
theories/SpecLines.v
theories/Prop_Lines.v
theories/LineProofs.v
theories/Prop_Settle.v
theories/SpecAccept.v
theories/AcceptProofs.v
theories/Prop_Accept.v
theories/SpecEdit.v
theories/Prop_Edit.v
theories/SpecLayout.v
theories/LayoutProofs.v
theories/Prop_Layout.v
theories/SpecXml.v
theories/GrammarProofs.v
theories/GrammarMachine.v
theories/GrammarInv.v
theories/GrammarStep.v
theories/GrammarDoc.v
theories/Prop_Xml.v
theories/SpecFailure.v
theories/FailureProofs.v
theories/Prop_Failure.v
theories/SpecPage.v
theories/PageProofs.v
theories/Prop_Page.v
theories/SpecWriteFailure.v
theories/WriteFailureProofs.v
theories/Prop_WriteFailure.v
theories/Prop_Entry.v
theories/Serialise.v
theories/SerialiseProofs.v
theories/SerialiseDoc.v
theories/SpecFormat.v
theories/FormatProofs.v
theories/Prop_Format.v
theories/SpaceProofs.v
theories/Prop_Reformat.v
theories/AnonymizeProofs.v
theories/Prop_AnonymizeFile.v
theories/SpecHidden.v
theories/HideProofs.v
theories/HideDoc.v
theories/HideOut.v
theories/Prop_AnonymizeBundle.v
theories/Log.v
theories/SpecLog.v
theories/SpecIndent.v
theories/Prop_Log.v
theories/Paths.v
theories/SpecPaths.v
theories/PathProofs.v
theories/SpecAnonymizable.v
theories/AnonymizeTotal.v
theories/Prop_Anonymizable.v
theories/SpecKeep.v
theories/KeepProofs.v
theories/Prop_Keep.v
theories/XhtmlInverse.v
theories/XhtmlScope.v
theories/XhtmlKeep.v
theories/SpecNamespaces.v
theories/NamespaceProofs.v
theories/SpecInteger.v
theories/IntegerProofs.v
theories/SpecUtf8.v
theories/Utf8SpecProofs.v
theories/Prop_Utf8.v
theories/SpecShown.v
theories/ShownProofs.v
theories/Prop_Shown.v
theories/SpecTexts.v
theories/CleanProofs.v
theories/CleanTree.v
theories/Prop_Texts.v
theories/SpecUri.v
theories/UriProofs.v
theories/AnonymizeObjects.v
theories/SpecObjectTexts.v
theories/Prop_AnonymizeObjects.v
theories/Create.v
theories/SpecCreate.v
theories/Prop_Create.v
theories/Convert.v
theories/SpecConvert.v
theories/ConvertProofs.v
theories/Prop_Convert.v
theories/SpecArchive.v
theories/Prop_Archive.v
theories/SpecVerdict.v
theories/Prop_Verdict.v
theories/Alias.v
theories/SpecAlias.v
theories/AliasProofs.v
theories/Prop_Alias.v
theories/Walk.v
theories/SpecWalk.v
theories/WalkProofs.v
theories/Prop_Walk.v
theories/SpecConventional.v
theories/ConventionalProofs.v
theories/ConventionalCheck.v
theories/WritesProofs.v
theories/Prop_Conventional.v
theories/Prop_ConventionalArchive.v
theories/Prop_ConventionalFormat.v
theories/Prop_ConventionalAnonymize.v
theories/SpecSamePage.v
theories/Prop_SamePage.v
theories/Prop_SamePageCases.v
theories/Repr.v
theories/SpecRepr.v
theories/Prop_Repr.v
theories/AnonymizeShared.v
theories/SpecAnonymizeShared.v
theories/Prop_AnonymizeShared.v
theories/SpecIdentifiers.v
theories/SpecParallel.v
theories/Prop_Parallel.v
theories/SpecCreateText.v
theories/Prop_CreateText.v
theories/SpecChain.v
theories/Prop_Chain.v
theories/Prop_ValidateCommand.v
theories/Prop_VerdictCommand.v
