-Q theories Verif
theories/Base.v
theories/Puny.v
theories/PunyBase.v
theories/PunyRT.v
theories/PunyDec.v
theories/PunyInv.v
theories/SpecPuny.v
theories/PunyRfc.v
theories/PunyTop.v
theories/PunyComplete.v
theories/PropPuny.v
theories/Utf8.v
theories/SpecUtf8.v
theories/Utf8Proofs.v
theories/DataTypes.v
theories/DataTr46.v
theories/DataCsv.v
theories/DataNfc.v
theories/Bsearch.v
theories/BsearchProofs.v
theories/Tables.v
theories/SpecTables.v
theories/TablesProofs.v
theories/Gentr46.v
theories/Tr46Tables.v
theories/Tr46Map.v
theories/Tr46Valid.v
theories/Tr46Facts.v
theories/SpecGen.v
theories/Gentr46Proofs.v
theories/Gentr46Read.v
theories/Gentr46Print.v
theories/GenTop.v
theories/PropGen.v
theories/Uenv.v
theories/Bidi.v
theories/SpecBidi.v
theories/BidiProofs.v
theories/Context.v
theories/SpecContext.v
theories/ContextProofs.v
theories/Idna.v
theories/SpecLabel.v
theories/LabelProofs.v
theories/Lookup.v
theories/SpecNfc.v
theories/SpecLookup.v
theories/NfcProofs.v
theories/MapProofs.v
theories/LookupProofs.v
theories/LookupTr46.v
theories/LookupIdem.v
theories/LookupMisc.v
theories/LookupMap.v
theories/DataUcd.v
theories/Ucd.v
theories/UcdProofs.v
theories/BaseTop.v
theories/StableProofs.v
theories/LookupTop.v
theories/LookupCodes.v
theories/PropBase.v
theories/LookupExamples.v
theories/PropLookup.v
theories/Api.v
theories/SpecUnicode.v
theories/DecodeProofs.v
theories/RoundTrip.v
theories/NonZero.v
theories/SpecApi.v
theories/ApiProofs.v
theories/ApiExamples.v
theories/SpecToAscii.v
theories/PunyExact.v
theories/SpecPunyErr.v
theories/PunyErr.v
theories/PunyEncErr.v
theories/ToAsciiProofs.v
theories/FlagRel.v
theories/AcceptExamples.v
theories/Compose.v
theories/ComposeTop.v
theories/FlagExamples.v
theories/FlagConverse.v
theories/PropAccept.v
theories/PropUnicode.v
theories/PropApi.v
theories/Register.v
theories/SpecRegister.v
theories/RegisterProofs.v
theories/RegLookup.v
theories/RegisterTop.v
theories/PropRegister.v
theories/Error.v
theories/SpecError.v
theories/ErrorProofs.v
theories/Version.v
theories/SpecVersion.v
theories/VersionProofs.v
theories/VersionTop.v
theories/Cli.v
theories/SpecCli.v
theories/CliProofs.v
theories/CliTop.v
theories/PropTool.v
theories/Heap.v
theories/SpecHeap.v
theories/NoFail.v
theories/HeapProofs.v
theories/HeapRun.v
theories/HeapApi.v
theories/HeapTop.v
theories/HeapCases.v
theories/PropHeap.v
theories/TextIdna.v
theories/TextProps.v
theories/TextCsv.v
theories/Scan.v
theories/SpecScan.v
theories/ScanProofs.v
theories/Recog.v
theories/ShipIdna.v
theories/ShipProps.v
theories/ShipCsv.v
theories/ScanTop.v
theories/PropScan.v
theories/SpecRefusal.v
theories/RefusalLabel.v
theories/RefusalProofs.v
theories/RefusalTop.v
theories/RefusalExamples.v
theories/PropRefusal.v
theories/SpecUts46.v
theories/PunyDet.v
theories/Uts46Proofs.v
theories/Uts46Examples.v
theories/PropUts46.v
theories/SpecRegRefusal.v
theories/RegRefusal.v
theories/RegRefusalTop.v
theories/PropRegRefusal.v
theories/PunyErrTop.v
theories/PropPunyErr.v
theories/SpecUniRefusal.v
theories/UniRefusal.v
theories/UniRefusalTop.v
theories/PropUniRefusal.v
theories/SameName.v
theories/PropSame.v
theories/SpecNfcFlag.v
theories/NfcFlag.v
theories/PropNfcFlag.v
theories/SpecUniUts46.v
theories/UniUts46.v
theories/PropUniUts46.v
theories/GenText.v
theories/SpecCText.v
theories/CTextLex.v
theories/CTextTr46.v
theories/CTextTop.v
theories/CTextData.v
theories/CTextShip.v
theories/PropCText.v
theories/Cost.v
theories/CostPuny.v
theories/CostLabel.v
theories/CostTop.v
theories/CostQuad.v
theories/CostCases.v
theories/Step.v
theories/StepProofs.v
theories/StepTop.v
theories/PropCost.v
theories/Client.v
theories/SpecClient.v
theories/ClientProofs.v
theories/ClientTop.v
theories/ClientEx.v
theories/ClientCases.v
theories/PropClient.v
theories/SpecWire.v
theories/Wire.v
theories/PropWire.v
theories/SpecRegGap.v
theories/RegGap.v
theories/PropRegGap.v
theories/SpecRoom.v
theories/HeapRoom.v
theories/HeapRoomApi.v
theories/HeapRoomTop.v
theories/HeapRoomCases.v
theories/PropRoom.v
theories/SpecHost.v
theories/HostProofs.v
theories/HostCases.v
theories/PropHost.v
theories/Thread.v
theories/ThreadCode.v
theories/SpecThread.v
theories/ThreadProofs.v
theories/ThreadTop.v
theories/ThreadCases.v
theories/PropThread.v
theories/Compat.v
theories/CompatProofs.v
theories/PropCompat.v
theories/Width.v
theories/SpecWidth.v
theories/WidthProofs.v
theories/WidthTop.v
theories/PropWidth.v
theories/UcdTree.v
theories/SpecCanon.v
theories/CanonProofs.v
theories/CanonTop.v
theories/CanonNfc.v
theories/CanonCases.v
theories/PropCanon.v
theories/DataCase.v
theories/SpecAlike.v
theories/AlikeProofs.v
theories/AlikeTop.v
theories/PropAlike.v
theories/SpecNormInput.v
theories/NormInput.v
theories/PropNormInput.v
theories/SpecAgree.v
theories/AgreeProofs.v
theories/AgreeTop.v
theories/AgreeUcd.v
theories/PropAgree.v
theories/Fallback.v
theories/SpecFallback.v
theories/FallbackProofs.v
theories/FallbackMem.v
theories/FallbackCases.v
theories/FallbackTop.v
theories/FallbackHeap.v
theories/PropFallback.v
theories/SpecTwoModes.v
theories/TwoModes.v
theories/TwoModesTop.v
theories/TwoModesCases.v
theories/PropTwoModes.v
theories/Hexdump.v
theories/SpecHexdump.v
theories/HexdumpProofs.v
theories/HexdumpTop.v
theories/HexdumpCases.v
theories/PropHexdump.v
theories/SpecAgain.v
theories/Again.v
theories/AgainCases.v
theories/PropAgain.v
theories/SpecBelow.v
theories/Below.v
theories/BelowCases.v
theories/PropBelow.v
theories/CLang.v
theories/CPuny.v
theories/CLogic.v
theories/CLeaf.v
theories/CDecode.v
theories/CDecodeTop.v
theories/CEncode.v
theories/SpecCPuny.v
theories/CPunyTop.v
theories/COrder.v
theories/CPunyCases.v
theories/PropCPuny.v
theories/CLabel.v
theories/SpecCLabel.v
theories/CBidi.v
theories/CContext.v
theories/CIdna.v
theories/CQuick.v
theories/CLabelTop.v
theories/CLabelCases.v
theories/PropCLabel.v
theories/CTables.v
theories/SpecCTables.v
theories/CSearch.v
theories/CTablesProofs.v
theories/CMap.v
theories/CMapTop.v
theories/CMapData.v
theories/CTablesTop.v
theories/CTablesCases.v
theories/PropCTables.v
theories/CLookup.v
theories/SpecCLookup.v
theories/CLookupMap.v
theories/CLookupTr46.v
theories/CLookupName.v
theories/CLookupCheck.v
theories/CLookupTop.v
theories/CLookupCases.v
theories/PropCLookup.v
theories/CLabelFun.v
theories/CLabelText.v
theories/CLabelFunCases.v
theories/PropCLabelFun.v
theories/CUnicode.v
theories/SpecCUnicode.v
theories/CUnicodeRun.v
theories/CUnicodeTop.v
theories/CUnicodeCases.v
theories/PropCUnicode.v
theories/CRegister.v
theories/SpecCRegister.v
theories/CRegisterRun.v
theories/CRegisterA.v
theories/CRegisterTop.v
theories/CRegisterCases.v
theories/PropCRegister.v
theories/CWrap.v
theories/SpecCWrap.v
theories/CWrapRun.v
theories/CWrapTop.v
theories/CWrapMeet.v
theories/CWrapCases.v
theories/PropCWrap.v
theories/CUni.v
theories/SpecCUni.v
theories/CUniRun.v
theories/CUniTop.v
theories/CUniCases.v
theories/PropCUni.v
theories/CUni44.v
theories/SpecCUni44.v
theories/CUni44Run.v
theories/CUni44Top.v
theories/PropCUni44.v
theories/CRegUl.v
theories/SpecCRegUl.v
theories/CRegUlRun.v
theories/CRegUlTop.v
theories/PropCRegUl.v
