-Q theories Verif
theories/Bytes.v
theories/Types.v
theories/Regex.v
theories/Regexes.v
theories/Utils.v
theories/Json.v
theories/ObjDump.v
theories/AsmText.v
theories/Cli.v
theories/Tests.v
theories/Lemmas.v
theories/ObjLemmas.v
theories/ObjInv.v
theories/ObjSpec.v
theories/ObjBasic.v
theories/ObjMode.v
theories/ObjMore.v
theories/ObjThm1.v
theories/PropObj1.v
theories/ObjRefs.v
theories/ObjPieces.v
theories/ObjAddr.v
theories/ObjListing.v
theories/ObjListingProofs.v
theories/ObjItems.v
theories/ObjListingThm.v
theories/ObjAddrRun.v
theories/PropObj2.v
theories/Utf8.v
theories/RegexSpec.v
theories/RegexLemmas.v
theories/RegexCaps.v
theories/RegexRun.v
theories/UtilIgnore.v
theories/UtilText.v
theories/UtilSquash.v
theories/UtilQuotes.v
theories/UtilComment.v
theories/UtilLabels.v
theories/UtilMisc.v
theories/PropUtils.v
theories/JsonSpec.v
theories/JsonParse.v
theories/JsonWrite.v
theories/JsonDebug.v
theories/JsonGroup.v
theories/JsonMore.v
theories/PropJson.v
theories/AsmLemmas.v
theories/AsmRead.v
theories/AsmMark.v
theories/AsmTrace.v
theories/AsmThms.v
theories/AsmLines.v
theories/PropAsm1.v
theories/AsmUse.v
theories/AsmSearch.v
theories/AsmComplete.v
theories/AsmDet.v
theories/AsmWitness.v
theories/PropAsm2.v
theories/RegexHead.v
theories/AsmViews.v
theories/AsmPlace.v
theories/AsmLoc.v
theories/PropAsm3.v
theories/ObjLib.v
theories/PropObj3.v
theories/Recog.v
theories/Recog2.v
theories/Recog3.v
theories/Recog4.v
theories/PropRecog.v
theories/CliThm.v
theories/JsonText.v
theories/PropCli.v
theories/ObjSmall.v
theories/PropObj4.v
theories/AsmRemove.v
theories/PropAsm4.v
theories/AsmWorld.v
theories/AsmStored.v
theories/AsmCarry.v
theories/PropAsm5.v
theories/AsmSpot.v
theories/PropAsm6.v
theories/ObjEvery.v
theories/ObjEveryProofs.v
theories/ObjEveryThm.v
theories/ObjBrackets.v
theories/ObjAlone.v
theories/PropObj5.v
theories/AsmRoots.v
theories/AsmMarking.v
theories/PropAsm7.v
theories/AsmAgain.v
theories/PropAsm8.v
theories/AsmVisited.v
theories/AsmLeft.v
theories/PropAsm9.v
theories/AsmCost.v
theories/AsmLadder.v
theories/AsmDeep.v
theories/PropAsm10.v
theories/AsmBalance.v
theories/PropAsm11.v
theories/UtilAgain.v
theories/AsmTwice.v
theories/PropAgain.v
theories/AsmDirect.v
theories/AsmNotes.v
theories/PropFilters.v
theories/AsmLocale.v
theories/ObjLocale.v
theories/PropLocale.v
theories/Recog5.v
theories/AsmTexts.v
theories/Utf8Keep.v
theories/AsmUtf8.v
theories/ObjUtf8.v
theories/PropUtf8.v
theories/ObjGrow.v
theories/AsmGrow.v
theories/PropGrow.v
theories/AsmSpace.v
theories/AsmFair.v
theories/PropSpace.v
theories/JsonSteps.v
theories/JsonPretty.v
theories/JsonSpaced.v
theories/PropPretty.v
theories/RegexSyntax.v
theories/RegexNorm.v
theories/Patterns.v
theories/PropPatterns.v
theories/SourceText.v
theories/CppSyntax.v
theories/SourceAst.v
theories/CppSem.v
theories/SrcStep.v
theories/SrcUtil.v
theories/SrcObj.v
theories/SrcAddr.v
theories/SrcScan.v
theories/SrcLabel.v
theories/SrcEol.v
theories/SrcBody.v
theories/SrcInv.v
theories/SrcRun.v
theories/PropSource.v
theories/AStep.v
theories/AUtil.v
theories/AScan.v
theories/ALine.v
theories/ASquash.v
theories/AUsed.v
theories/PropTextSource.v
theories/AMap.v
theories/AObj.v
theories/ABack.v
theories/AHand.v
theories/ALabel.v
theories/PropTextMethods.v
theories/AEol1.v
theories/AEol2.v
theories/AEol3.v
theories/AEol4.v
theories/AEol.v
theories/PropTextEol.v
theories/AMark1.v
theories/AMark2.v
theories/AMark3.v
theories/AMark4.v
theories/PropTextMark.v
theories/AMark5.v
theories/AStream.v
theories/PropTextStream.v
theories/PropDump.v
theories/PropBoth.v
theories/ARedo.v
theories/PropTextLabels.v
