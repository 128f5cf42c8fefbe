-Q theories Verif
theories/Arc4.v
theories/Arc4Spec.v
theories/BitIO.v
theories/BitIOFacts.v
theories/Bits.v
theories/Burp.v
theories/Burp2.v
theories/BurpBuf.v
theories/BurpBuilt.v
theories/BurpCvt.v
theories/BurpCvtFacts.v
theories/BurpEdit.v
theories/BurpEdit2.v
theories/BurpEdit3.v
theories/BurpFile.v
theories/BurpFind.v
theories/BurpHead.v
theories/BurpInv.v
theories/BurpKeys.v
theories/BurpLoc.v
theories/BurpPack.v
theories/BurpPut.v
theories/BurpSpec.v
theories/BurpTbl.v
theories/BurpTblFacts.v
theories/BurpUse.v
theories/CompactInt.v
theories/CompactIntFacts.v
theories/CompactIntMain.v
theories/CompactIntMain2.v
theories/CompactIntMain3.v
theories/CompactRle.v
theories/CompactRleFacts.v
theories/CompactRleMain.v
theories/CompactShort.v
theories/Compress32.v
theories/Compress32Facts.v
theories/Compress32Main.v
theories/ConvertIp.v
theories/Convip.v
theories/ConvipBack.v
theories/ConvipFacts.v
theories/ConvipLevel.v
theories/ConvipMain.v
theories/ConvipOld.v
theories/ConvipSame.v
theories/ConvipTrip.v
theories/Crc.v
theories/CrcFacts.v
theories/CrcSpec.v
theories/Dates.v
theories/DatesCal.v
theories/DatesConv.v
theories/DatesFacts.v
theories/DatesModes.v
theories/DatesSpec.v
theories/DatesThm.v
theories/Excdes.v
theories/ExcdesDates.v
theories/ExcdesFacts.v
theories/ExcdesHist.v
theories/ExcdesIp.v
theories/ExcdesSpec.v
theories/Flo.v
theories/FloatDouble.v
theories/FloatField.v
theories/FloatFieldFacts.v
theories/FloatFieldHeader.v
theories/FloatFieldMain.v
theories/FloatFieldValue.v
theories/FloatPack.v
theories/FloatPackFacts.v
theories/FloatPackLoss.v
theories/FloatPackMain.v
theories/FloatPackTwice.v
theories/FloatWords.v
theories/Fst.v
theories/FstDates.v
theories/FstDemo.v
theories/FstEff.v
theories/FstEffFacts.v
theories/FstFacts.v
theories/FstInl.v
theories/FstIps.v
theories/FstIpsFacts.v
theories/FstLuk.v
theories/FstMatch.v
theories/FstPack.v
theories/FstReal.v
theories/FstSearch.v
theories/FstSpec.v
theories/FstStd.v
theories/FstThm.v
theories/FstThm2.v
theories/Handles.v
theories/HandlesFacts.v
theories/MaskFacts.v
theories/Md5.v
theories/Md5Facts.v
theories/Md5Spec.v
theories/MinFacts.v
theories/Missing.v
theories/MissingFacts.v
theories/MissingInt.v
theories/P_Arc4.v
theories/P_Burp.v
theories/P_BurpCvt.v
theories/P_BurpTbl.v
theories/P_CompactInt.v
theories/P_CompactRle.v
theories/P_Compress32.v
theories/P_ConvertIp.v
theories/P_Convip.v
theories/P_Crc.v
theories/P_Dates.v
theories/P_Excdes.v
theories/P_FloatField.v
theories/P_FloatPack.v
theories/P_Fst.v
theories/P_FstEff.v
theories/P_FstIps.v
theories/P_Handles.v
theories/P_Md5.v
theories/P_Missing.v
theories/P_Sort.v
theories/P_Xdf.v
theories/P_XdfBuf.v
theories/P_XdfKeys.v
theories/P_XdfLink.v
theories/P_XdfRstr.v
theories/P_XdfUse.v
theories/P_Zfst.v
theories/ParaFacts.v
theories/ParaMain.v
theories/Rle1Facts.v
theories/Sort.v
theories/SortFacts.v
theories/SpecPack.v
theories/SpecZfst.v
theories/StreamFacts.v
theories/TileCodec.v
theories/TileFacts.v
theories/WaFile.v
theories/Xdf.v
theories/XdfAbs.v
theories/XdfBuf.v
theories/XdfBufFacts.v
theories/XdfBufSpec.v
theories/XdfCkpt.v
theories/XdfClose.v
theories/XdfClose2.v
theories/XdfCrash.v
theories/XdfCreate.v
theories/XdfDel.v
theories/XdfDemo.v
theories/XdfEnum.v
theories/XdfHist.v
theories/XdfInv.v
theories/XdfKeys.v
theories/XdfKeysFacts.v
theories/XdfKeysHist.v
theories/XdfKeysThm.v
theories/XdfLib.v
theories/XdfLink.v
theories/XdfLink2.v
theories/XdfLink3.v
theories/XdfLoc.v
theories/XdfOpen.v
theories/XdfPut.v
theories/XdfPut2.v
theories/XdfPut3.v
theories/XdfPut4.v
theories/XdfReopen.v
theories/XdfRstr.v
theories/XdfRstrThm.v
theories/XdfSearch.v
theories/XdfSpec.v
theories/XdfSta.v
theories/XdfSys.v
theories/XdfSys2.v
theories/XdfThm.v
theories/XdfThm2.v
theories/XdfThm3.v
theories/XdfUse.v
theories/XdfUseSpec.v
theories/XdfUseThm.v
theories/XdfUseThm2.v
theories/ZfstFacts.v
theories/ZfstLib.v
