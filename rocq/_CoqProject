-Q theories Verif
theories/Base.v
theories/IntervalMapModel.v
theories/IntervalMapSpec.v
theories/IntervalMapProofs.v
theories/IntervalMapProps.v
theories/BytesModel.v
theories/BytesProofs.v
theories/BytesMoreProofs.v
theories/BufferModel.v
theories/BufferSpec.v
theories/BufferProofs.v
theories/BufferProps.v
theories/TextModel.v
theories/TextSpec.v
theories/TextProofs.v
theories/TextProps.v
theories/Assoc.v
theories/ProfileModel.v
theories/BuilderModel.v
theories/BuilderSpec.v
theories/BuilderProofs.v
theories/BuilderValidProofs.v
theories/BuilderProps.v
theories/MapperModel.v
theories/MapperSpec.v
theories/MapperProofs.v
theories/MapperPlaceProofs.v
theories/MapperStepProofs.v
theories/MapperProps.v
theories/SpeModel.v
theories/SpeSpec.v
theories/SpeProofs.v
theories/SpeProps.v
theories/PerfProto.v
theories/NormalizerModel.v
theories/NormalizerSpec.v
theories/NormalizerProofs.v
theories/NormalizerStepProofs.v
theories/NormalizerMoreProofs.v
theories/NormalizerRangeProofs.v
theories/NormalizerMainProofs.v
theories/NormalizerBuildProofs.v
theories/NormalizerProps.v
theories/ConverterModel.v
theories/ConverterSpec.v
theories/ConverterProofs.v
theories/ConverterOpenProofs.v
theories/ConverterInvProofs.v
theories/ConverterKeyProofs.v
theories/ConverterStateProofs.v
theories/ConverterRunProofs.v
theories/ConverterTrackProofs.v
theories/ConverterMainProofs.v
theories/ConverterTotalProofs.v
theories/ConverterFinalProofs.v
theories/ConverterHeadSpec.v
theories/ConverterHeadProofs.v
theories/ConverterProps.v
theories/ConverterHeadProps.v
theories/HugePageModel.v
theories/HugePageSpec.v
theories/HugePageProofs.v
theories/HugePageDeduceProofs.v
theories/HugePageCombineProofs.v
theories/HugePageProps.v
theories/EventSizeModel.v
theories/EventSizeSpec.v
theories/EventSizeProofs.v
theories/EventSizeProps.v
theories/SampleModel.v
theories/SampleSpec.v
theories/SampleProofs.v
theories/SampleReadProofs.v
theories/SampleSafeProofs.v
theories/SampleMainProofs.v
theories/SampleProps.v
theories/SampleLayoutProps.v
theories/ReaderOpsModel.v
theories/ReaderOpsSpec.v
theories/ReaderOpsProofs.v
theories/ReaderOpsProps.v
theories/FileModel.v
theories/FileSpec.v
theories/FileProofs.v
theories/FileEventProofs.v
theories/FileOrderProofs.v
theories/FileReadProofs.v
theories/FileMetaProofs.v
theories/FileMainProofs.v
theories/FileExamples.v
theories/FileProps.v
theories/FileOrderProps.v
theories/ParserModel.v
theories/ParserSpec.v
theories/ParserMapperProofs.v
theories/ParserProofs.v
theories/ParserRunProofs.v
theories/ParserLoopProofs.v
theories/ParserOkProofs.v
theories/ParserEndProofs.v
theories/ParserProps.v
theories/SerializerModel.v
theories/SerializerSpec.v
theories/SerializerProofs.v
theories/SerializerSizeProofs.v
theories/SerializerSampleProofs.v
theories/SerializerMessageProofs.v
theories/SerializerSampleOfProofs.v
theories/SerializerBackProofs.v
theories/SerializerKindProofs.v
theories/SerializerMoreKindProofs.v
theories/SerializerLastKindProofs.v
theories/SerializerMainProofs.v
theories/SerializerLengthProofs.v
theories/SerializerTotalProofs.v
theories/SerializerProps.v
theories/AttrModel.v
theories/WriteModel.v
theories/WriteSpec.v
theories/WriteProofs.v
theories/WriteFeatureProofs.v
theories/WriteEventProofs.v
theories/WriteFileProofs.v
theories/WriteAllProofs.v
theories/WriteMetadataProofs.v
theories/WriteWholeProofs.v
theories/WriteSizeProofs.v
theories/WriteLayoutProofs.v
theories/WriteMainProofs.v
theories/WriteProps.v
theories/AttrSpec.v
theories/AttrProofs.v
theories/AttrProps.v
theories/RereadSpec.v
theories/RereadProofs.v
theories/RereadMetaProofs.v
theories/RereadBuildProofs.v
theories/RereadAttrProofs.v
theories/RereadEventProofs.v
theories/RereadMainProofs.v
theories/RereadProps.v
theories/OptionModel.v
theories/OptionSpec.v
theories/OptionProofs.v
theories/OptionProps.v
theories/StatModel.v
theories/StatSpec.v
theories/StatProps.v
theories/PipelineModel.v
theories/PipelineSpec.v
theories/PipelineHugeProofs.v
theories/PipelineCallProofs.v
theories/PipelineProofs.v
theories/PipelineParserProofs.v
theories/PipelineTotalProofs.v
theories/PipelineProps.v
theories/SuccessSpec.v
theories/SuccessHugeProofs.v
theories/SuccessParserProofs.v
theories/SuccessProofs.v
theories/JitProofs.v
theories/SuccessProps.v
theories/ConverterPlaceSpec.v
theories/ConverterPlaceProofs.v
theories/ConverterPlaceProps.v
theories/RecordSpec.v
theories/RecordNameProofs.v
theories/RecordProofs.v
theories/RecordFileProofs.v
theories/RecordProps.v
theories/ShownSpec.v
theories/OriginProofs.v
theories/ShownProofs.v
theories/ShownProps.v
theories/LostSpec.v
theories/LostProofs.v
theories/LostProps.v
theories/CommandModel.v
theories/CommandSpec.v
theories/CommandProofs.v
theories/CommandStepProofs.v
theories/CommandProps.v
theories/SpeShownSpec.v
theories/SpeShownProofs.v
theories/SpeShownProps.v
theories/ToolModel.v
theories/ToolSpec.v
theories/ToolProofs.v
theories/ToolProps.v
theories/DsoModel.v
theories/DsoSpec.v
theories/DsoProofs.v
theories/DsoFindProofs.v
theories/DsoProps.v
theories/RewriteModel.v
theories/RewriteSpec.v
theories/RewriteReadProofs.v
theories/RewriteEventProofs.v
theories/RewriteProofs.v
theories/RewriteProps.v
theories/QuipperModel.v
theories/QuipperSpec.v
theories/QuipperProofs.v
theories/QuipperProps.v
theories/ConvertModel.v
theories/ConvertSpec.v
theories/ConvertProps.v
theories/TempModel.v
theories/TempSpec.v
theories/TempProofs.v
theories/TempProps.v
theories/LogModel.v
theories/LogProps.v
theories/ProtoIoModel.v
theories/ProtoIoProps.v
theories/TempMakeModel.v
theories/TempMakeProps.v
theories/BuilderUrlProps.v
theories/BuilderEmitModel.v
theories/BuilderEmitProps.v
theories/TextMoreProps.v
theories/IntervalSizeProps.v
