-Q theories Verif

theories/GoStr.v
theories/Regex.v
theories/Patterns.v
theories/GoTime.v
theories/GoBig.v
theories/Edtf.v
theories/Calendar.v
theories/Common.v
theories/Level0.v
theories/Level1.v
theories/Level2.v
theories/Parser.v
theories/Json.v
theories/Cmd.v
theories/ModelTests.v
theories/RegexSym.v
theories/SpecCal.v
theories/StrFacts.v
theories/CalCycle.v
theories/CalFacts.v
theories/ApiFacts.v
theories/ApiProofs.v
theories/PropApi.v
theories/SpanFacts.v
theories/SpecText.v
theories/TextFacts.v
theories/YmdShapes.v
theories/RegexRel.v
theories/YmdFacts.v
theories/GrammarFacts.v
theories/InvFacts.v
theories/ParseFacts.v
theories/RegexGen.v
theories/SpecGrammar.v
theories/TimeFacts.v
theories/SetFacts.v
theories/InvProofs.v
theories/SplitFacts.v
theories/SetGrammar.v
theories/DateFacts.v
theories/InvProofs2.v
theories/PropInv.v
theories/LangFacts.v
theories/Level0Facts.v
theories/SpecSpan.v
theories/DateTimeFacts.v
theories/Level0Proofs.v
theories/PropLevel0.v
theories/SpecZone.v
theories/CommonProofs.v
theories/JsonProofs.v
theories/PropCommon.v
theories/TypedProofs.v
theories/FormFacts.v
theories/LangForms.v
theories/LangForms2.v
theories/LangNorm.v
theories/Level1Proofs.v
theories/SeasonFacts.v
theories/SpecForms.v
theories/XProofs.v
theories/FormProofs.v
theories/PropForms.v
theories/PropLevel1.v
theories/QualProofs.v
theories/PropLevel2.v
theories/GroupingProofs.v
theories/SigProofs.v
theories/ExpProofs.v
theories/OrderProofs.v
theories/MaskProofs.v
theories/PropMask.v
theories/SpecMask.v
theories/PropSet.v
theories/SetProofs.v
theories/SpecSet.v
theories/ErrProofs.v
theories/PropErr.v
theories/SpecErr.v
theories/JsonText.v
theories/JsonTextProofs.v
theories/SpecJson.v
theories/Utf8Proofs.v
theories/PropJson.v
theories/PeriodProofs.v
theories/SpecPeriod.v
theories/CalendarProofs.v
theories/Debug.v
theories/PropPeriod.v
theories/PropTools.v
theories/SpecTools.v
theories/Support.v
theories/SupportProofs.v
theories/ExpLimit.v
theories/ExpPanic.v
theories/HullProofs.v
theories/PropHull.v
theories/SpecHull.v
theories/ReadsFacts.v
theories/SpecReads.v
theories/ReadsStamp.v
theories/ReadsSeason.v
theories/PropReads.v
theories/ReadsProofs.v
theories/ReadsSet.v
theories/ReadsYears.v
theories/SpecWasi.v
theories/WasiProofs.v
theories/PropWasi.v
theories/WasiLines.v
theories/SpecWhole.v
theories/WholeFacts.v
theories/WholeProofs.v
theories/PropWhole.v
theories/ExpWrap.v
theories/SpecWrap.v
theories/PropRefused.v
theories/RefDate.v
theories/RefExp.v
theories/RefProofs.v
theories/RefSet.v
theories/RefStamp.v
theories/RefYears.v
theories/SpecRefused.v
theories/JsonHtml.v
theories/PropSame.v
theories/SameProofs.v
theories/SpecHtml.v
theories/SpecSame.v
theories/DirectProofs.v
theories/PropDirect.v
theories/SpecDirect.v
theories/CompareProofs.v
theories/PropCompare.v
theories/SpecCompare.v
theories/JsonReadProofs.v
theories/SpecJsonText.v
theories/ErrText.v
theories/SpecMessage.v
theories/MessageProofs.v
theories/TextKinds.v
theories/MatchProofs.v
theories/PropMessage.v
theories/FlagProofs.v
theories/SpecFlags.v
theories/PropFlags.v
theories/HelperProofs.v
theories/NotationProofs.v
theories/PropHelpers.v
theories/RangeProofs.v
theories/SpecHelpers.v
theories/AsciiProofs.v
theories/DocProofs.v
theories/JsonDoc.v
theories/PointerProofs.v
theories/PropUnmarshal.v
theories/RoundProofs.v
theories/SpecUnmarshal.v
theories/Unmarshal.v
theories/UnmarshalProofs.v
theories/Heap.v
theories/HeapFacts.v
theories/HeapParse.v
theories/HeapProofs.v
theories/HeapSet.v
theories/HeapTop.v
theories/PropHeap.v
theories/SpecHeap.v
theories/BigText.v
theories/BigTextFacts.v
theories/BigTextProofs.v
theories/BigTextValue.v
theories/PropNotation.v
theories/SpecNotation.v
theories/PropServer.v
theories/Server.v
theories/ServerFlags.v
theories/ServerProofs.v
theories/SpecServer.v
theories/HalvesProofs.v
theories/MarksProofs.v
theories/PropMarks.v
theories/SpecMarks.v
theories/AgainProofs.v
theories/MembersProofs.v
theories/PropAgain.v
theories/PropMembers.v
theories/SpecAgain.v
theories/SpecMembers.v
theories/PropWithin.v
theories/SpecWithin.v
theories/WithinProofs.v
theories/DebugCommon.v
theories/DebugProofs.v
theories/PropDebug.v
theories/SpecDebug.v
theories/BytesProofs.v
theories/PropBytes.v
theories/SpecBytes.v
theories/HideProofs.v
theories/PropHide.v
theories/SpecHide.v
theories/PropWeb.v
theories/SpecWeb.v
theories/Web.v
theories/WebProofs.v
theories/CaseProofs.v
theories/PropCase.v
theories/SpecCase.v
theories/PropSite.v
theories/Site.v
theories/SiteProofs.v
theories/SpecSite.v
theories/Quote.v
theories/QuoteProofs.v
theories/SpecQuote.v
theories/SpecInner.v
theories/SpecTile.v
theories/TileProofs.v
theories/PropTile.v
theories/PropTarget.v
theories/SpecTarget.v
theories/Target.v
theories/TargetProofs.v
theories/SpellProofs.v
theories/ReferProofs.v
