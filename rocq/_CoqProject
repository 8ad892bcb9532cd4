-Q theories Verif
theories/PyBase.v
theories/PyBaseFacts.v
theories/PyFloat.v
theories/PyFloatFacts.v
theories/SpecChars.v
theories/CharFacts.v
theories/NumPy.v
theories/DataUtils.v
theories/Pack.v
theories/Dicts.v
theories/SpecDicts.v
theories/PackHeap.v
theories/SpecHeap.v
theories/SpecMask.v
theories/MaskProofs.v
theories/SpecPack.v
theories/PackProofs.v
theories/HeapProofs.v
theories/HeapCheck.v
theories/HeapRefine.v
theories/HeapHistory.v
theories/PackThms.v
theories/PropsPack.v
theories/DictsThms.v
theories/PropsDicts.v
theories/HeapThms.v
theories/PropsHeap.v
theories/Dbf.v
theories/SpecDbf.v
theories/DbfProofs.v
theories/DbfSelect.v
theories/DbfExamples.v
theories/DbfThms.v
theories/PropsDbf.v
theories/FloatReal.v
theories/XlDate.v
theories/SpecXlDate.v
theories/XlCalendar.v
theories/XlDateFloat.v
theories/XlDateThms.v
theories/PropsXlDate.v
theories/PyText.v
theories/ReadXl.v
theories/SpecXl.v
theories/XlProofs.v
theories/ReadXlThms.v
theories/PropsReadXl.v
theories/ReadText.v
theories/SpecText.v
theories/TextProofs.v
theories/ReadTextThms.v
theories/PropsReadText.v
theories/Preparse.v
theories/SpecPreparse.v
theories/PreparseProofs.v
theories/PreparseThms.v
theories/PropsPreparse.v
theories/XlSheet.v
theories/SpecXlSheet.v
theories/XlSheetProofs.v
theories/XlSheetThms.v
theories/PropsXlSheet.v
theories/XlStruct.v
theories/SpecRk.v
theories/RkThms.v
theories/PropsRk.v
theories/CompDoc.v
theories/SpecCompDoc.v
theories/CompDocProofs.v
theories/CompDocThms.v
theories/PropsCompDoc.v
theories/FmtDate.v
theories/SpecFmtDate.v
theories/FmtDateThms.v
theories/PropsFmtDate.v
theories/Sst.v
theories/SpecSst.v
theories/SstProofs.v
theories/XlNames.v
theories/XlObjects.v
theories/Biff.v
theories/SpecDoc.v
theories/DocProofs.v
theories/SstThms.v
theories/PropsSst.v
theories/DocThms.v
theories/PropsDoc.v
theories/SpecBytes.v
theories/SpecNames.v
theories/SpecObjects.v
theories/ObjectsProofs.v
theories/SpecBiff.v
theories/BytesProofs.v
theories/NamesProofs.v
theories/BiffProofs.v
theories/BiffThms.v
theories/PropsBiff.v
theories/SpecNumber.v
theories/NumberProofs.v
theories/SpecNumeral.v
theories/NumeralProofs.v
theories/XlAccess.v
theories/SpecAccess.v
theories/AccessProofs.v
theories/RangeName.v
theories/SpecRange.v
theories/RangeProofs.v
theories/XlCount.v
theories/SpecCount.v
theories/CountProofs.v
theories/SpecField.v
theories/FieldProofs.v
theories/NumberThms.v
theories/PropsNumber.v
theories/Xlsx.v
theories/SpecXlsx.v
theories/XlsxProofs.v
theories/XlsxThms.v
theories/PropsXlsx.v
theories/NamesThms.v
theories/PropsNames.v
theories/ObjectsThms.v
theories/PropsObjects.v
theories/EndsThms.v
theories/PropsEnds.v
theories/SpecSound.v
theories/SoundProofs.v
theories/SoundXml.v
theories/SoundPack.v
theories/SoundThms.v
theories/PropsSound.v
theories/SpecCoded.v
theories/CodedProofs.v
theories/CodedText.v
theories/CodedLazy.v
theories/CodedThms.v
theories/PropsCoded.v
theories/SpecRepr.v
theories/PackRepr.v
theories/ReprProofs.v
theories/ReprThms.v
theories/PropsRepr.v
theories/BiffOld.v
theories/SpecOld.v
theories/OldProofs.v
theories/SpecEarly.v
theories/EarlyProofs.v
theories/SpecXlw.v
theories/XlwProofs.v
theories/OldThms.v
theories/PropsOld.v
theories/EarlyThms.v
theories/PropsEarly.v
theories/EndsOld.v
theories/SoundOld.v
theories/EndsAllThms.v
theories/PropsEndsAll.v
theories/SoundAllThms.v
theories/PropsSoundAll.v
theories/OldNamesThms.v
theories/PropsOldNames.v
theories/XlwThms.v
theories/PropsXlw.v
theories/FileIO.v
theories/SpecIO.v
theories/SpecArray.v
theories/ArrayFacts.v
theories/SpecRaw.v
theories/FileIOProofs.v
theories/FileIOThms.v
theories/PropsFileIO.v
theories/XlFiles.v
theories/XlFilesProofs.v
theories/XlFilesThms.v
theories/PropsXlFiles.v
theories/RawThms.v
theories/PropsRaw.v
theories/ArrayThms.v
theories/PropsArray.v
theories/NumeralThms.v
theories/PropsNumeral.v
theories/FieldThms.v
theories/PropsField.v
theories/AccessThms.v
theories/PropsAccess.v
theories/RangeThms.v
theories/PropsRange.v
theories/CountThms.v
theories/PropsCount.v
theories/XlDump.v
theories/SpecDump.v
theories/DumpProofs.v
theories/DumpThms.v
theories/PropsDump.v
theories/XlDemand.v
theories/SpecDemand.v
theories/DemandProofs.v
theories/DemandThms.v
theories/PropsDemand.v
theories/NameArea.v
theories/SpecArea.v
theories/AreaThms.v
theories/PropsArea.v
theories/CellAddr.v
theories/SpecAddr.v
theories/AddrThms.v
theories/PropsAddr.v
theories/SheetView.v
theories/SpecView.v
theories/ViewThms.v
theories/PropsView.v
theories/ColWidth.v
theories/SpecWidth.v
theories/WidthThms.v
theories/PropsWidth.v
