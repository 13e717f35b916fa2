-Q theories Verif
theories/Base.v
theories/SpecNum.v
theories/Ints.v
theories/SpecCal.v
theories/Timestamp.v
theories/CalendarFacts.v
theories/TimestampFacts.v
theories/Obj.v
theories/SpecObj.v
theories/ObjFacts.v
theories/PropsNum.v
theories/PropsTime.v
theories/PropsObj.v
theories/Coord.v
theories/CoordFacts.v
theories/SpecCoord.v
theories/CoordText.v
theories/PropsCoord.v
theories/Utf8.v
theories/XmlWrite.v
theories/SpecXml.v
theories/SpecWriter.v
theories/XmlWriteFacts.v
theories/XmlToken.v
theories/XmlRead.v
theories/SpecXmlRead.v
theories/XmlReadFacts.v
theories/SpecIter.v
theories/XmlRound.v
theories/XmlReadBack.v
theories/XmlTrunc.v
theories/PropsWriter.v
theories/PropsXml.v
theories/PbWire.v
theories/PbMsg.v
theories/PbMsgFacts.v
theories/PbfRead.v
theories/SpecPbf.v
theories/PbfFrame.v
theories/PbfFacts.v
theories/PbfExact.v
theories/PbfEncode.v
theories/PbRange.v
theories/PropsPbfFile.v
theories/SpecPbfRead.v
theories/PbfSound.v
theories/PropsPbfBlock.v
theories/PropsPbfEdge.v
theories/PropsPbf.v
theories/SpecJson.v
theories/Json.v
theories/JsonFacts.v
theories/PropsJson.v
theories/Changesets.v
theories/SpecChangeset.v
theories/ChangesetFacts.v
theories/ChangesetTags.v
theories/PropsChangeset.v
theories/NodeStore.v
theories/PropsStore.v
theories/NodeChain.v
theories/PropsChain.v
theories/Opl.v
theories/OplFacts.v
theories/PropsOpl.v
theories/TagsTool.v
theories/PropsTool.v
theories/PropsFlow.v
theories/PropsXmlMore.v
theories/SpecWire.v
theories/PropsPbfWire.v
theories/PropsPbfText.v
theories/PbfIo.v
theories/PropsPbfIo.v
theories/SpecOpl.v
theories/PropsOplText.v
theories/SpecSink.v
theories/XmlWriteIo.v
theories/XmlIoFacts.v
theories/PropsWriterIo.v
theories/Conformance.v
theories/PropsExact.v
theories/PropsOplExact.v
theories/SpecXmlText.v
theories/XmlExact.v
theories/PropsXmlExact.v
theories/PbSize.v
theories/PropsPbSize.v
theories/PropsExact2.v
theories/PropsExact3.v
theories/PropsExact4.v
theories/PropsExact5.v
theories/Builder.v
theories/PropsBuilder.v
theories/PropsCoord2.v
theories/SpecPbfAccept.v
theories/PbfAccept.v
theories/PropsAccept.v
theories/WireExact.v
theories/SpecPbfBytes.v
theories/PropsPbfBytes.v
theories/PropsPbfUnique.v
theories/SpecHeaderBlock.v
theories/PropsHeaderBlock.v
theories/PropsChainExact.v
theories/SpecOplLine.v
theories/PropsOplLine.v
theories/Serde.v
theories/PropsSerde.v
theories/PropsPbfPos.v
theories/WriterEnd.v
theories/PropsWriterEnd.v
theories/PropsPbfRight.v
theories/XmlCut.v
theories/PropsXmlCut.v
theories/QuickXml.v
theories/SpecDump.v
theories/DumpFacts.v
theories/ChangesetCut.v
theories/DumpCut.v
theories/SpecDumpText.v
theories/DumpValue.v
theories/DumpWrite.v
theories/DumpReplies.v
theories/PropsDump.v
theories/Bz2.v
theories/PropsBz2.v
theories/XmlCopy.v
theories/PropsCopy.v
theories/PropsFlow2.v
theories/SpecXmlDoc.v
theories/XmlDoc.v
theories/XmlDocInv.v
theories/XmlDocRead.v
theories/PropsDoc.v
theories/SpecXmlRef.v
theories/XmlRef.v
theories/PropsTagReader.v
theories/PbfPanic.v
theories/PropsPbfPanic.v
theories/CoordDebug.v
theories/PropsCoordDebug.v
theories/PropsNest.v
theories/PropsSort.v
theories/PropsSpeed.v
theories/Speed.v
theories/PropsHold.v
theories/ObjOrder.v
theories/PropsOrder.v
theories/DebugText.v
theories/PropsDebug.v
theories/PropsAlike.v
theories/PropsWrong.v
theories/PropsEdit.v
theories/PropsDumpAlike.v
theories/PropsConcat.v
theories/ToolMain.v
theories/PropsToolFile.v
theories/PropsDebugText.v
theories/PropsOplCut.v
theories/NodeStoreBuf.v
theories/PropsStoreCrash.v
theories/PropsStoreRead.v
theories/CoordPrec.v
theories/PropsCoordPrec.v
