-Q theories Verif

theories/Base.v
theories/BaseLemmas.v
theories/BitsModel.v
theories/BitsSpec.v
theories/BitsProofs.v
theories/BitsWrite.v
theories/Reader.v
theories/ReaderProofs.v
theories/BitsProps.v
theories/NaluModel.v
theories/NaluSpec.v
theories/NaluProofs.v
theories/NaluProps.v
theories/Sweep.v
theories/TimeModel.v
theories/TimeProps.v
theories/AudioHdrModel.v
theories/AudioHdrSpec.v
theories/AudioHdrProps.v
theories/AudioHdr2Props.v
theories/G711Model.v
theories/G711Props.v
theories/ParseTac.v
theories/JpegModel.v
theories/JpegProps.v
theories/VideoModel.v
theories/VideoProps.v
theories/Av1Model.v
theories/Av1Props.v
theories/Av1SeqProps.v
theories/Writer.v
theories/NoFuel.v
theories/AacModel.v
theories/AacSpec.v
theories/AacProofs.v
theories/AacProps.v
theories/AdtsProps.v
theories/IoModel.v
theories/IoSpec.v
theories/IoProps.v
theories/SampleModel.v
theories/SampleProps.v
theories/Mp4Box.v
theories/Mp4BoxProofs.v
theories/FragModel.v
theories/FragSpec.v
theories/FragProofs.v
theories/FragRead.v
theories/FragProps.v
theories/CodecModel.v
theories/BoxBytes.v
theories/InitModel.v
theories/CodecSpec.v
theories/InitProps.v
theories/CodecProps.v
theories/BytesWrite.v
theories/TsModel.v
theories/TsProps.v
theories/KlvProps.v
theories/OpusProps.v
theories/DescProps.v
theories/SpsModel.v
theories/SpsSpec.v
theories/SpsProofs.v
theories/SpsProps.v
theories/Sps5Model.v
theories/Sps5Spec.v
theories/Sps5Proofs.v
theories/Sps5Parse.v
theories/Sps5Props.v
theories/DtsModel.v
theories/DtsSpec.v
theories/DtsProofs.v
theories/DtsProps.v
theories/Dts5Model.v
theories/Dts5Spec.v
theories/Dts5Proofs.v
theories/Dts5Props.v
theories/PmpModel.v
theories/PmpTables.v
theories/PmpSpec.v
theories/PmpSort.v
theories/PmpProps.v
theories/Pmp2Props.v
theories/Pmp3Props.v
theories/Frag2Props.v
theories/PceModel.v
theories/PceSpec.v
theories/PceProps.v
theories/Ts2Model.v
theories/Ts2Spec.v
theories/Ts2Props.v
theories/Ts3Props.v
theories/Frag3Spec.v
theories/Frag3Props.v
theories/DemuxModel.v
theories/DemuxProps.v
theories/EntryProps.v
theories/EsdsModel.v
theories/EsdsProps.v
theories/ReuseModel.v
theories/ReuseProps.v
theories/RateProps.v
theories/Rate5Props.v
theories/IsoSpec.v
theories/IsoTables.v
theories/IsoCodec.v
theories/IsoProofs.v
theories/IsoProps.v
theories/PmtProps.v
theories/Iso2Props.v
theories/WireModel.v
theories/WireProofs.v
theories/WireDecode.v
theories/WireInit.v
theories/WireProps.v
theories/WireSafeProps.v
theories/WirePresProps.v
theories/IsoBoxSpec.v
theories/IsoBoxProofs.v
theories/IsoEntrySpec.v
theories/IsoEntryProofs.v
theories/IsoFileTables.v
theories/IsoFileSpec.v
theories/IsoFileProps.v
theories/IsoEntryProps.v
theories/IsoPartSpec.v
theories/IsoPartProps.v
theories/PmpBoundProps.v
theories/PayloadModel.v
theories/PayloadProps.v
theories/IsoFragSpec.v
theories/IsoFragProofs.v
theories/IsoFragProps.v
theories/SeekModel.v
theories/SeekSpec.v
theories/SeekProofs.v
theories/SeekProps.v
theories/IsoReadSpec.v
theories/IsoReadProofs.v
theories/IsoFieldProofs.v
theories/IsoReadProps.v
theories/PmpLongProps.v
theories/Reuse2Model.v
theories/Reuse2Props.v
theories/RemuxProps.v
theories/RemuxInitProps.v
theories/RemuxPresProps.v
theories/RelayProps.v
theories/RecordProps.v
theories/FragBigProps.v
theories/TsWriterModel.v
theories/TsWriterProps.v
theories/InitGramSpec.v
theories/InitGramProps.v
theories/PresGramSpec.v
theories/PresGramTables.v
theories/PresGramProps.v
theories/ExactTac.v
theories/AacExactSpec.v
theories/AacExactProps.v
theories/AdtsExactProps.v
theories/CodeSpec.v
theories/CodeTac.v
theories/Av1ExactProps.v
theories/SpsExactSpec.v
theories/SpsExactProps.v
theories/Sps5ExactSpec.v
theories/Sps5ExactProps.v
theories/HdrExactProps.v
theories/DeliverProps.v
theories/DescExactProps.v
theories/DtsHistProps.v
theories/RecoverProps.v
theories/WriterIoModel.v
theories/WriterIoProps.v
theories/Dts5PlainProps.v
theories/DtsTraceProps.v
theories/LossProps.v
theories/Loss5Props.v
theories/Loss1Props.v
theories/ReuseAv1Props.v
theories/VecNalu.v
theories/VecSps.v
theories/VecAv1.v
theories/VecAudio.v
theories/VecTs.v
theories/VecFrag.v
theories/VecMp4.v
theories/Assumptions.v
