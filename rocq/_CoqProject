-Q theories Verif
theories/Base.v
theories/UtilModel.v
theories/RangeCoderModel.v
theories/BitCodecModel.v
theories/SessionModel.v
theories/FieldModel.v
theories/BaseProofs.v
theories/UtilSpec.v
theories/UtilProofs.v
theories/BitsSpec.v
theories/BitsProofs.v
theories/RangeCoderSpec.v
theories/CdfProofs.v
theories/RangeEncProofs.v
theories/RangeDecProofs.v
theories/SessionSpec.v
theories/SessionProofs.v
theories/SegmentProofs.v
theories/BitCodecSpec.v
theories/BitCodecProofs.v
theories/LebProofs.v
theories/FieldProofs.v
theories/PropertiesRange.v
theories/PropertiesCodec.v
theories/WriterModel.v
theories/SeqModel.v
theories/ObuModel.v
theories/WriterSpec.v
theories/WriterProofs.v
theories/SeqSpec.v
theories/SeqProofs.v
theories/SeqProofs2.v
theories/SeqProofs3.v
theories/ObuSpec.v
theories/ObuProofs.v
theories/PropertiesObu.v
theories/OptionModel.v
theories/MainModel.v
theories/OptionSpec.v
theories/MainSpec.v
theories/OptionProofs.v
theories/MainProofs.v
theories/PropertiesMain.v
theories/SyntaxSpec.v
theories/SyntaxProofs.v
theories/PropertiesMore.v
theories/ElementModel.v
theories/ReaderSpec.v
theories/ElementSpec.v
theories/ReaderProofs.v
theories/ElementProofs.v
theories/PropertiesElement.v
theories/CdfTables.v
theories/CdfTableSpec.v
theories/CdfTableProofs.v
theories/PropertiesTables.v
theories/BlockTables.v
theories/GeomModel.v
theories/GeomSpec.v
theories/GeomProofs.v
theories/PropertiesGeom.v
theories/TableLemmas.v
theories/TileModel.v
theories/TileSpec.v
theories/TileProofs.v
theories/PropertiesTile.v
theories/ContextModel.v
theories/ContextSpec.v
theories/ContextEdgeSpec.v
theories/ContextCallSpec.v
theories/ContextRunProofs.v
theories/ContextProofs.v
theories/ContextCoefProofs.v
theories/ContextWriterProofs.v
theories/ContextEdgeProofs.v
theories/PropertiesContext.v
theories/MvStackModel.v
theories/MvStackSpec.v
theories/MvStackListProofs.v
theories/MvStackProofs.v
theories/MvFindProofs.v
theories/MvStackExamples.v
theories/PropertiesMvStack.v
theories/ModeInfoModel.v
theories/ModeInfoSpec.v
theories/ModeInfoProofs.v
theories/ModeIndexProofs.v
theories/MvAssignProofs.v
theories/ModeWholeProofs.v
theories/ModeTableProofs.v
theories/SegFeatureProofs.v
theories/PropertiesModeInfo.v
theories/FrameParamModel.v
theories/FrameModel.v
theories/FrameSpec.v
theories/FrameBits.v
theories/FrameProofs.v
theories/FrameProofs2.v
theories/FrameProofs3.v
theories/FrameProofs4.v
theories/FrameProofs5.v
theories/FrameProofs6.v
theories/FrameProofs7.v
theories/FrameProofs8.v
theories/FrameProofs9.v
theories/PropertiesFrame.v
theories/LrModel.v
theories/LrSpec.v
theories/LrProofs.v
theories/LrProofs2.v
theories/LrProofs3.v
theories/PropertiesLr.v
theories/CloneModel.v
theories/CloneProofs.v
theories/PropertiesClone.v
theories/LongSessionProofs.v
theories/LongSegmentProofs.v
theories/PropertiesLong.v
theories/FrameProofs10.v
theories/PropertiesFrameState.v
theories/LongContextProofs.v
theories/PropertiesLongTile.v
theories/WholeTileModel.v
theories/WholeTileProofs.v
theories/PropertiesWholeTile.v
theories/StreamModel.v
theories/StreamSpec.v
theories/StreamProofs.v
theories/StreamProofs2.v
theories/PropertiesStream.v
theories/QuantTables.v
theories/QuantSpec.v
theories/QuantProofs.v
theories/PropertiesQuant.v
theories/FilterTables.v
theories/FilterSpec.v
theories/FilterProofs.v
theories/PropertiesFilter.v
theories/CosineProofs.v
theories/PropertiesCosine.v
theories/FloorSpec.v
theories/FloorProofs.v
theories/PropertiesFloor.v
theories/PartSpec.v
theories/PartProofs.v
theories/PropertiesPart.v
theories/TxTypeSpec.v
theories/TxTypeProofs.v
theories/PropertiesTxType.v
theories/CdefTables.v
theories/CdefSpec.v
theories/CdefProofs.v
theories/PropertiesCdef.v
theories/MotionSpec.v
theories/MotionProofs.v
theories/PropertiesMotion.v
theories/BuildModel.v
theories/BuildSpec.v
theories/BuildProofs.v
theories/BuildProofs2.v
theories/PropertiesBuild.v
theories/BuildEncModel.v
theories/BuildEncProofs.v
theories/BuildEncSpec.v
theories/BuildEncProofs2.v
theories/BuildEncProofs3.v
theories/PropertiesBuildEnc.v
theories/DeltaSpec.v
theories/DeltaProofs.v
theories/PropertiesDelta.v
theories/GmProofs.v
theories/PropertiesGm.v
theories/PairSpec.v
theories/PairProofs.v
theories/PropertiesPair.v
theories/PaletteSpec.v
theories/PaletteProofs.v
theories/PropertiesPalette.v
theories/BridgeSpec.v
theories/BridgeProofs.v
theories/InterBitsProofs.v
theories/DeltaBitsProofs.v
theories/MvCallSpec.v
theories/MvCallProofs.v
theories/MvOnlyProofs.v
theories/PropertiesBridge.v
theories/MvComponentModel.v
theories/MvComponentSpec.v
theories/MvComponentProofs.v
theories/PropertiesComponent.v
theories/AnyMotionSpec.v
theories/AnyMotionProofs.v
theories/AnyPairProofs.v
theories/PropertiesAnyMotion.v
theories/LeftoverSpec.v
theories/LeftoverProofs.v
theories/PairFewProofs.v
theories/PropertiesLeftover.v
theories/DamageSpec.v
theories/DamageProofs.v
theories/DamageFieldProofs.v
theories/DamageSizeProofs.v
theories/DamageExitProofs.v
theories/PropertiesDamage.v
theories/KeptSpec.v
theories/KeptProofs.v
theories/KeptFrameProofs.v
theories/KeptStateProofs.v
theories/PropertiesKept.v
theories/AdaptSpec.v
theories/AdaptProofs.v
theories/PropertiesAdapt.v
theories/OrderSpec.v
theories/OrderProofs.v
theories/PropertiesOrder.v
theories/FileModel.v
theories/FileSpec.v
theories/FileProofs.v
theories/PropertiesFile.v
theories/PropertiesRun.v
theories/CoefReleaseProofs.v
theories/PropertiesCoefRelease.v
theories/HelpModel.v
theories/HelpSpec.v
theories/HelpProofs.v
theories/PropertiesHelp.v
