-Q theories Verif
theories/PyBase.v
theories/Tactics.v
theories/EmbConst.v
theories/FunctionsModel.v
theories/HelperModel.v
theories/BitLemmas.v
theories/FunctionsProofs.v
theories/HelperProofs.v
theories/StreamModel.v
theories/StreamSpec.v
theories/StreamProofs.v
theories/DstModel.v
theories/DstSpec.v
theories/DstProofs.v
theories/DstFileProofs.v
theories/ExpModel.v
theories/U01Model.v
theories/TbfModel.v
theories/XxxModel.v
theories/PecModel.v
theories/JefModel.v
theories/FormatSpec.v
theories/EightBitProofs.v
theories/PecSpec.v
theories/PecProofs.v
theories/JefSpec.v
theories/JefProofs.v
theories/PropertiesFormats.v
theories/ThreadModel.v
theories/ThreadProofs.v
theories/PropertiesThread.v
theories/PropertiesCore.v
theories/PropertiesDst.v
theories/NumModel.v
theories/MatrixModel.v
theories/EncoderModel.v
theories/EncoderProofs.v
theories/NumQ.v
theories/EncoderPlanProofs.v
theories/EncoderSpec.v
theories/EncoderFlowProofs.v
theories/EncoderSewProofs.v
theories/EncoderThreadProofs.v
theories/PropertiesEncoder.v
theories/MetricSpec.v
theories/EncoderMetricProofs.v
theories/QuantModel.v
theories/QuantProofs.v
theories/PropertiesMetric.v
theories/NumR.v
theories/NumRProofs.v
theories/PropertiesReal.v
theories/SettingsModel.v
theories/PropertiesSettings.v
theories/PropertiesPipeline.v
theories/PatternModel.v
theories/PatternSpec.v
theories/TrimProofs.v
theories/EjectProofs.v
theories/PatternProofs.v
theories/MergeProofs.v
theories/PropertiesPattern.v
theories/HeapModel.v
theories/HeapSpec.v
theories/HeapProofs.v
theories/HeapOpsProofs.v
theories/JoinProofs.v
theories/JoinColourProofs.v
theories/PropertiesHeap.v
theories/Utf8Model.v
theories/Utf8Proofs.v
theories/Vp3Model.v
theories/Vp3Spec.v
theories/Vp3Proofs.v
theories/PropertiesVp3.v
theories/TextModel.v
theories/TextProofs.v
theories/ColorFileModel.v
theories/ColorFileProofs.v
theories/PropertiesColorFile.v
theories/PropertiesColorChain.v
theories/NameModel.v
theories/NameProofs.v
theories/CsvModel.v
theories/CsvProofs.v
theories/CsvFileProofs.v
theories/JsonModel.v
theories/PropertiesCsv.v
theories/CsvMetaProofs.v
theories/PropertiesCsvMeta.v
theories/CompressModel.v
theories/CompressProofs.v
theories/CompressRoundProofs.v
theories/PropertiesCompress.v
theories/PecFileModel.v
theories/PesModel.v
theories/PecGraphicsProofs.v
theories/PecFileSpec.v
theories/PecFileProofs.v
theories/PesSpec.v
theories/PesProofs.v
theories/PropertiesPes.v
theories/DstFileModel.v
theories/DstFileSpec.v
theories/DstTrimProofs.v
theories/DstHeaderProofs.v
theories/DstEntryProofs.v
theories/DstWholeProofs.v
theories/DstAnyProofs.v
theories/TrimKeepProofs.v
theories/PropertiesDstFile.v
theories/RecordModel.v
theories/RecordSpec.v
theories/RecordProofs.v
theories/RecordMoreProofs.v
theories/RecordAnyProofs.v
theories/PropertiesRecord.v
theories/BlockModel.v
theories/BlockSpec.v
theories/BlockProofs.v
theories/BlockMoreProofs.v
theories/BlockAnyProofs.v
theories/PropertiesBlock.v
theories/PmvModel.v
theories/PmvSpec.v
theories/PmvProofs.v
theories/PropertiesPmv.v
theories/PhbModel.v
theories/PhbSpec.v
theories/PhbProofs.v
theories/PropertiesPhb.v
theories/ZhsModel.v
theories/ZhsSpec.v
theories/ZhsProofs.v
theories/PropertiesZhs.v
theories/GcodeModel.v
theories/GcodeSpec.v
theories/GcodeProofs.v
theories/GcodeWriteProofs.v
theories/PropertiesGcode.v
theories/GenericModel.v
theories/GenericSpec.v
theories/GenericProofs.v
theories/PropertiesGeneric.v
theories/GenericTextModel.v
theories/GenericTextSpec.v
theories/GenericTextProofs.v
theories/PropertiesGenericText.v
theories/PropertiesGenericLines.v
theories/TextOutModel.v
theories/TextOutSpec.v
theories/TextOutProofs.v
theories/PropertiesTextOut.v
theories/PngModel.v
theories/PngSpec.v
theories/PngProofs.v
theories/PropertiesPng.v
theories/EncoderTotalProofs.v
theories/FidelitySpec.v
theories/FidelityProofs.v
theories/PropertiesFidelity.v
theories/WholeModel.v
theories/WholeSpec.v
theories/WholeProofs.v
theories/PropertiesWhole.v
theories/NeedleProofs.v
theories/MachineSpec.v
theories/MachineProofs.v
theories/PropertiesMachines.v
theories/ValueModel.v
theories/ValueSpec.v
theories/ValueProofs.v
theories/BlocksProofs.v
theories/PropertiesValues.v
theories/FilesModel.v
theories/FilesSpec.v
theories/FilesProofs.v
theories/PropertiesFiles.v
theories/EncoderColorSpec.v
theories/EncoderColorProofs.v
theories/BlockFileSpec.v
theories/PropertiesColor.v
theories/BlockFileProofs.v
theories/PropertiesBlockFiles.v
theories/JefThreads.v
theories/PropertiesJefColors.v
theories/JefFileModel.v
theories/EncoderSequinProofs.v
theories/ConvertSpec.v
theories/ConvertProofs.v
theories/PropertiesConvert.v
theories/DrawModel.v
theories/DrawSpec.v
theories/PropertiesDraw.v
theories/Vp3AnyProofs.v
theories/PropertiesVp3Any.v
theories/Vp3FileSpec.v
theories/Vp3FileProofs.v
theories/PropertiesVp3File.v
theories/FrameSpec.v
theories/EncoderFrameProofs.v
theories/PropertiesFrame.v
theories/ResaveSpec.v
theories/EncoderSettleProofs.v
theories/EncoderAgainProofs.v
theories/PropertiesResave.v
theories/EncoderCutProofs.v
theories/PropertiesPecAgain.v
theories/DstAgainSpec.v
theories/DstAgainProofs.v
theories/PropertiesDstAgain.v
theories/Vp3QModel.v
theories/Vp3QSpec.v
theories/Vp3QProofs.v
theories/Vp3QIntProofs.v
theories/PropertiesVp3Q.v
theories/ReadableSpec.v
theories/ReadableProofs.v
theories/ReadableMoreProofs.v
theories/PropertiesReadable.v
theories/EncoderMatrixProofs.v
theories/PlacementModel.v
theories/PlacementSpec.v
theories/PlacementProofs.v
theories/PlacementJoinProofs.v
theories/PropertiesPlacement.v
theories/FloatModel.v
theories/FloatSpec.v
theories/FloatProofs.v
theories/FloatMetricProofs.v
theories/FloatTotalProofs.v
theories/PropertiesFloat.v
theories/PropertiesFloatPipeline.v
theories/EqualProofs.v
theories/EqualEncodeProofs.v
theories/PropertiesEqual.v
theories/SegSpec.v
theories/SegProofs.v
theories/PropertiesSeg.v
theories/MatrixOpsModel.v
theories/PropertiesMatrixOps.v
theories/GraphicModel.v
theories/GraphicSpec.v
theories/GraphicProofs.v
theories/PropertiesGraphic.v
theories/EncodeAgainSpec.v
theories/EncodeAgainProofs.v
theories/EncodeAgainPlan.v
theories/EncodeAgainLoop.v
theories/PropertiesEncodeAgain.v
theories/PropertiesSelf.v
theories/PropertiesTabled.v
theories/PropertiesQuote.v
theories/ExpandSpec.v
theories/ExpandProofs.v
theories/PropertiesExpand.v
theories/JefAgainSpec.v
theories/JefAgainProofs.v
theories/JefSettleProofs.v
theories/EncoderApproachProofs.v
theories/JefWriteModel.v
theories/PropertiesJefAgain.v
theories/PropertiesJefTrims.v
theories/OutModel.v
theories/OutSpec.v
theories/OutProofs.v
theories/PropertiesOut.v
theories/PatternEqModel.v
theories/PropertiesEqualCalls.v
theories/CsvAgainModel.v
theories/PropertiesCsvAgain.v
theories/PropertiesXxxAgain.v
theories/JsonTextModel.v
theories/JsonTextSpec.v
theories/JsonTextProofs.v
theories/JsonFileProofs.v
theories/PropertiesJsonText.v
theories/JsonAgainModel.v
theories/JsonAgainProofs.v
theories/PropertiesJsonAgain.v
theories/JsonLinesProofs.v
theories/PropertiesJsonLines.v
theories/ItemModel.v
theories/PropertiesItems.v
theories/DeepCopyModel.v
theories/PropertiesDeepCopy.v
theories/GenericTableModel.v
theories/PropertiesGenericTables.v
theories/PaletteModel.v
theories/PropertiesPalette.v
theories/ReadIntoModel.v
theories/PropertiesReadInto.v
theories/PropertiesCentre.v
theories/PropertiesWork.v
theories/PropertiesWorkFile.v
theories/PropertiesWorkFiles.v
theories/PropertiesWorkU01.v
theories/PropertiesWorkXxx.v
theories/PropertiesWorkTbf.v
theories/PropertiesWorkPec.v
theories/PropertiesWorkVp3.v
theories/PropertiesWorkGcode.v
theories/PropertiesColorGcode.v
theories/PropertiesGcodeAgain.v
theories/PropertiesColorFiles.v
theories/PropertiesNeedleFiles.v
theories/PropertiesNeedleOrder.v
theories/PropertiesNeedleStitch.v
theories/PropertiesNeedleOwn.v
theories/PropertiesColorPec.v
theories/PropertiesColorJef.v
