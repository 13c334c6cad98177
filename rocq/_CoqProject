-Q theories Verif
theories/Base.v
theories/Utf8.v
theories/HuffTables.v
theories/HuffAsset.v
theories/HuffModel.v
theories/HuffSpec.v
theories/HuffCode.v
theories/HuffEncProofs.v
theories/HuffDecProofs.v
theories/HuffDerived.v
theories/HuffParserProofs.v
theories/HuffMore.v
theories/PropsHuff.v
theories/HuffTree.v
theories/HuffFlat.v
theories/HuffFlatPanic.v
theories/HuffFlatIff.v
theories/PropsFlat.v
theories/HpackStatic.v
theories/HpackModel.v
theories/Leb.v
theories/HpackSpec.v
theories/HpackApi.v
theories/HpackInt.v
theories/HpackStr.v
theories/HpackTab.v
theories/HpackDec.v
theories/HpackEnc.v
theories/HpackDerived.v
theories/PropsHpack.v
theories/HpackMore.v
theories/HpackMore2.v
theories/HpackUnique.v
theories/HpackCap.v
theories/PropsMore.v
theories/HpackConn.v
theories/PropsConn.v
theories/HpackWidth.v
theories/PropsWidth.v
theories/ProtosModel.v
theories/ProtosSpec.v
theories/ProtosApi.v
theories/ProtosNum.v
theories/ProtosEnc.v
theories/ProtosConv.v
theories/ProtosUtf8.v
theories/ProtosDec.v
theories/ProtosDerived.v
theories/PropsProtos.v
theories/ProtosMore.v
theories/PropsProtos2.v
theories/ProtosIo.v
theories/ProtosIoProofs.v
theories/PropsProtos3.v
theories/ProtosWidth.v
theories/PropsProtos4.v
theories/Conformance.v
theories/HpackSecret.v
theories/HpackRelay.v
theories/PropsSecret.v
theories/HpackOctets.v
theories/PropsOctets.v
theories/ProtosSession.v
theories/PropsProtos5.v
theories/ProtosForward.v
theories/PropsProtos6.v
theories/HpackSizes.v
theories/PropsSizes.v
theories/HpackIter.v
theories/HpackLength.v
theories/PropsLength.v
theories/ProtosLength.v
theories/PropsProtos7.v
theories/HpackRetain.v
theories/PropsRetain.v
theories/ProtosEvolve.v
theories/PropsProtos8.v
theories/ProtosRetry.v
theories/PropsProtos9.v
theories/HpackFlags.v
theories/PropsFlags.v
theories/HuffFloat.v
theories/PropsFloat.v
theories/PropsUpdate.v
theories/PropsProtos10.v
theories/HpackHistory.v
theories/PropsHistory.v
theories/Appends.v
theories/PropsAppend.v
theories/PropsJoin.v
theories/HpackAlike.v
theories/PropsAlike.v
theories/HpackConform.v
theories/PropsConform.v
theories/HpackTidy.v
theories/PropsTidy.v
theories/ProtosForeign.v
theories/PropsForeign.v
theories/ProtosCanon.v
theories/PropsCanon.v
theories/HpackOnce.v
theories/PropsOnce.v
theories/PropsBatch.v
theories/PropsLimit.v
theories/PropsProtos11.v
theories/PropsExact.v
theories/PropsWait.v
theories/PropsProtos12.v
theories/ErrorText.v
theories/PropsErrors.v
theories/HpackHope.v
theories/PropsHope.v
theories/PropsProtos13.v
theories/HpackEncAlike.v
theories/PropsEncAlike.v
theories/HpackUnambig.v
theories/PropsUnambig.v
theories/HpackCoalesce.v
theories/PropsCoalesce.v
theories/HpackReach.v
theories/PropsReach.v
theories/HpackTrust.v
theories/PropsTrust.v
theories/HpackLoss.v
theories/PropsLoss.v
theories/ProtosLang.v
theories/PropsLang.v
theories/HpackOpaque.v
theories/PropsOpaque.v
theories/HpackChoice.v
theories/PropsChoice.v
theories/HpackRecover.v
theories/PropsRecover.v
theories/HpackProbe.v
theories/PropsProbe.v
theories/HuffMatrix.v
theories/HuffCount.v
theories/PropsMatrix.v
