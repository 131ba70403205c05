-Q theories Verif
theories/Base.v
theories/BaseFacts.v
theories/Types.v
theories/Binary.v
theories/SpecLayout.v
theories/BinaryProofs.v
theories/SliceProofs.v
theories/PropsBinary.v
theories/Doc.v
theories/F64.v
theories/SpecDoc.v
theories/ModelerWrite.v
theories/ModelerRead.v
theories/ModelerWriteProofs.v
theories/F64Facts.v
theories/ModelerReadProofs.v
theories/ModelerLayoutProofs.v
theories/ModelerShapeProofs.v
theories/ModelerAttrProofs.v
theories/PropsModelerWrite.v
theories/ModelerSparseProofs.v
theories/ModelerReadSpecProofs.v
theories/PropsModelerRead.v
theories/Base64.v
theories/SpecData.v
theories/Base64Proofs.v
theories/Url.v
theories/SpecPath.v
theories/UrlProofs.v
theories/PropsUri.v
theories/JsonText.v
theories/SpecText.v
theories/JsonTextProofs.v
theories/JsonStringProofs.v
theories/Codec.v
theories/SpecJson.v
theories/CodecProofs.v
theories/DocCodec.v
theories/SpecJsonDoc.v
theories/DocCodecBase.v
theories/DocCodecProofs.v
theories/CodecInv.v
theories/DocInvBase.v
theories/DocCodecInv.v
theories/Marshal.v
theories/ScanSound.v
theories/SpecMarshal.v
theories/MarshalProofs.v
theories/PropsJson.v
theories/Stream.v
theories/File.v
theories/StreamProofs.v
theories/DecodeProofs.v
theories/SpecFile.v
theories/EncodeProofs.v
theories/PlainProofs.v
theories/PropsFile.v
theories/PropsRoundTrip.v
theories/PiecesProofs.v
theories/PropsPieces.v
theories/SpecTarget.v
theories/ModelerTargetProofs.v
theories/PropsTarget.v
theories/Strings.v
theories/PropsStrings.v
theories/Norm.v
theories/NormProofs.v
theories/NormAlpha.v
theories/NormWhite.v
theories/PropsNorm.v
theories/Ext.v
theories/ReplaceProofs.v
theories/SpecExt.v
theories/SymText.v
theories/ExtTransform.v
theories/ExtSpecular.v
theories/HtmlFixed.v
theories/ExtProofs.v
theories/PropsExt.v
theories/Registry.v
theories/SpecRegistry.v
theories/RegistryProofs.v
theories/PropsRegistry.v
theories/SpecSchema.v
theories/SchemaProofs.v
theories/SchemaAccept.v
theories/PropsSchema.v
theories/PropsChunk.v
theories/SpecString.v
theories/PropsString.v
theories/PropsEscape.v
theories/SpecMeaning.v
theories/MeaningProofs.v
theories/MeaningUnique.v
theories/PropsMeaning.v
theories/NewDoc.v
theories/SpecSaved.v
theories/SavedProofs.v
theories/SavedReads.v
theories/SavedAgain.v
theories/PropsSaved.v
theories/Strconv.v
theories/StrconvRound.v
theories/StrconvShort.v
theories/SpecDecimal.v
theories/StrconvValue.v
theories/StrconvText.v
theories/StrconvFormat.v
theories/PropsFloat.v
theories/SpecExtMeaning.v
theories/ExtMeaning.v
theories/PropsExtMeaning.v
theories/ExtRegistry.v
theories/ExtRegistryProofs.v
theories/PropsExtDoc.v
theories/SpecSrgb.v
theories/SrgbReals.v
theories/SrgbProofs.v
theories/PropsSrgb.v
theories/Memory.v
theories/SpecMemory.v
theories/MemoryProofs.v
theories/MemoryReads.v
theories/MemoryRead2.v
theories/MemoryTyped.v
theories/MemoryAccessor.v
theories/MemoryCalls.v
theories/PropsMemory.v
theories/PropsMemoryNorm.v
theories/WriteMemory.v
theories/SpecWriteMemory.v
theories/WriteMemoryProofs.v
theories/WriteMemorySim.v
theories/PropsWriteMemory.v
theories/SpecGo.v
theories/SpecGoDoc.v
theories/EncodeExact.v
theories/DocExact.v
theories/ScanDepth.v
theories/IndentProofs.v
theories/PropsIndent.v
theories/SpecAlloc.v
theories/AllocProofs.v
theories/PropsAlloc.v
theories/DecodeAlloc.v
theories/PropsDecodeAlloc.v
theories/SpecKeep.v
theories/SpecKeepDoc.v
theories/KeepProofs.v
theories/DocKeepProofs.v
theories/KeepTree.v
theories/PropsKeep.v
theories/SpecKeepFile.v
theories/KeepFile.v
theories/DocWithin.v
theories/PropsKeepFile.v
theories/Reload.v
theories/DocReload.v
theories/ReloadFile.v
theories/PropsReload.v
theories/SpecLoaded.v
theories/LoadedProofs.v
theories/SpecLoadedDoc.v
theories/DocLoaded.v
theories/SpecExtGo.v
theories/ExtLoaded.v
theories/LoadedFile.v
theories/PropsLoaded.v
theories/PropsDefaults.v
theories/SpecAccessor.v
theories/AccessorProofs.v
theories/AccessorWriteProofs.v
theories/PropsAccessor.v
theories/Image.v
theories/SpecImage.v
theories/ImageProofs.v
theories/PropsImage.v
theories/PropsAccessorFile.v
theories/GoUrl.v
theories/SpecUrl.v
theories/GoUrlProofs.v
theories/PropsUrl.v
theories/ConformProofs.v
theories/PropsConform.v
theories/SpecAsset.v
theories/AssetProofs.v
theories/PropsAsset.v
theories/PropsAssetWritten.v
theories/SpecExchange.v
theories/PropsExchange.v
theories/SpecLoad.v
theories/PropsLoad.v
theories/SpecFetch.v
theories/FetchProofs.v
theories/PropsFetch.v
theories/SpecStore.v
theories/PropsStore.v
theories/SpecPut.v
theories/PropsPut.v
theories/SpecAppend.v
theories/PropsAppend.v
theories/SpecAdded.v
theories/PropsAdded.v
theories/SpecRules.v
theories/PropsRules.v
theories/SpecBuilt.v
theories/PropsBuilt.v
theories/PropsBuiltRead.v
theories/SpecComplete.v
theories/PropsComplete.v
theories/SpecSingle.v
theories/PropsSingle.v
theories/SpecRows.v
theories/PropsRows.v
theories/PropsOneRow.v
theories/PropsBytes.v
theories/SrgbExact.v
theories/PropsColour.v
theories/PropsOrder.v
theories/PropsBuiltSingle.v
theories/PropsBytesFile.v
theories/PropsBuiltBytes.v
theories/PropsBytesAll.v
theories/PropsBuiltBytesAll.v
theories/PropsBehind.v
theories/PropsBuiltBehind.v
theories/PropsBehindRead.v
theories/PropsAhead.v
theories/PropsAheadRead.v
