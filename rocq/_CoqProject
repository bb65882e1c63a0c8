-Q theories Verif
theories/Base.v
theories/ChannelModel.v
theories/ChannelSpec.v
theories/BitProofs.v
theories/ChannelProofs.v
theories/SetProofs.v
theories/HistProofs.v
theories/VlsdProofs.v
theories/ChanExtra.v
theories/ChannelProps.v
theories/StreamModel.v
theories/StreamSpec.v
theories/StreamProofs.v
theories/StreamProofs2.v
theories/RangeProofs.v
theories/VlsdReadProofs.v
theories/Stream3Model.v
theories/Stream3Proofs.v
theories/IdProofs.v
theories/StreamExtra.v
theories/StreamProps.v
theories/QueueModel.v
theories/QueueSpec.v
theories/QueueProofs.v
theories/EncProofs.v
theories/QueueProofs2.v
theories/WriterModel.v
theories/WriterProofs.v
theories/QueueExtra.v
theories/QueueProps.v
theories/BlockModel.v
theories/BlockSpec.v
theories/BlockProofs.v
theories/BlockProofs2.v
theories/BlockProofs3.v
theories/BlockProofs4.v
theories/BlockProps.v
theories/DataModel.v
theories/TransProofs.v
theories/DataSpec.v
theories/DataProofs.v
theories/ListProofs.v
theories/StoreProofs.v
theories/StoreProofs2.v
theories/SignalProofs.v
theories/DataExtra.v
theories/DataProps.v
theories/TextModel.v
theories/TextSpec.v
theories/TextProofs.v
theories/TextProps.v
theories/FinalModel.v
theories/FinalSpec.v
theories/FinalProofs.v
theories/FinalProofs2.v
theories/FinalProps.v
theories/ConvModel.v
theories/ConvSpec.v
theories/ConvProofs.v
theories/ConvProofs2.v
theories/ConvProofs3.v
theories/CcModel.v
theories/CcProofs.v
theories/Cc3Proofs.v
theories/ConvProofs4.v
theories/ConvExtra.v
theories/ConvProps.v
theories/BusModel.v
theories/BusSpec.v
theories/BusProofs.v
theories/BusBits.v
theories/BusRun.v
theories/LinModel.v
theories/LinSpec.v
theories/LinProofs.v
theories/LinProps.v
theories/CanModel.v
theories/CanSpec.v
theories/CanProofs.v
theories/CanProofs2.v
theories/CanProps.v
theories/EthModel.v
theories/EthSpec.v
theories/EthProofs.v
theories/EthProps.v
theories/FlxModel.v
theories/FlxSpec.v
theories/FlxProofs.v
theories/FlxProps.v
theories/MostModel.v
theories/MostSpec.v
theories/MostProofs.v
theories/MostProps.v
theories/Md5Model.v
theories/Md5Spec.v
theories/Md5Proofs.v
theories/Md5Props.v
theories/ObsModel.v
theories/ObsSpec.v
theories/ObsProofs.v
theories/ObsProps.v
theories/SortModel.v
theories/SortSpec.v
theories/SortProofs.v
theories/SortProofs2.v
theories/SortProofs3.v
theories/SortProps.v
theories/TimeModel.v
theories/TimeSpec.v
theories/TimeProofs.v
theories/TimeProofs2.v
theories/TimeProofs3.v
theories/TimeProps.v
theories/MetaModel.v
theories/MetaSpec.v
theories/MetaProofs.v
theories/MetaCc.v
theories/MetaProofs2.v
theories/MetaProofs3.v
theories/MetaProofs4.v
theories/MetaProps.v
theories/IdentModel.v
theories/IdentSpec.v
theories/IdentProofs.v
theories/IdentProps.v
theories/MeasModel.v
theories/MeasSpec.v
theories/MeasProofs.v
theories/MeasProofs2.v
theories/MeasProofs3.v
theories/MeasProofs4.v
theories/MeasProofs5.v
theories/MeasStream.v
theories/MeasProps.v
theories/CutModel.v
theories/CutSpec.v
theories/CutProofs.v
theories/CutProofs2.v
theories/CutProps.v
theories/CompModel.v
theories/CompSpec.v
theories/CompProofs.v
theories/CompProofs2.v
theories/CompProofs3.v
theories/CompProps.v
theories/CompCutModel.v
theories/CompCutProofs.v
theories/CompCutProofs2.v
theories/CompCutProofs3.v
theories/CompCutProps.v
theories/Meta3Model.v
theories/Meta3Spec.v
theories/Meta3Proofs.v
theories/Meta3Proofs2.v
theories/Meta3Props.v
theories/Meas3Model.v
theories/Meas3Spec.v
theories/Meas3Proofs.v
theories/Meas3Proofs2.v
theories/Meas3Proofs3.v
theories/Meas3Proofs4.v
theories/Meas3Proofs5.v
theories/Meas3Proofs6.v
theories/Meas3Proofs7.v
theories/Meas3Proofs8.v
theories/Meas3Props.v
theories/XmlModel.v
theories/XmlSpec.v
theories/XmlProofs.v
theories/XmlProofs2.v
theories/XmlProofs3.v
theories/XmlProofs4.v
theories/XmlProofs5.v
theories/XmlProofs6.v
theories/XmlProofs7.v
theories/XmlProofs8.v
theories/XmlProps.v
theories/SrModel.v
theories/SrSpec.v
theories/SrProofs.v
theories/SrProofs2.v
theories/SrProps.v
theories/ValueModel.v
theories/ValueSpec.v
theories/ValueProofs.v
theories/ValueProofs2.v
theories/ValueProofs3.v
theories/ValueProofs4.v
theories/ValueProofs5.v
theories/ValueProofs6.v
theories/ValueProofs7.v
theories/ValueProofs8.v
theories/ValueProps.v
theories/AttModel.v
theories/AttSpec.v
theories/AttProofs.v
theories/AttProofs2.v
theories/AttProps.v
theories/CommentModel.v
theories/CommentSpec.v
theories/CommentProofs.v
theories/CommentProofs2.v
theories/CommentProofs3.v
theories/CommentProofs4.v
theories/CommentProofs5.v
theories/CommentProofs6.v
theories/CommentProps.v
theories/BulkModel.v
theories/BulkSpec.v
theories/BulkProofs.v
theories/BulkProofs2.v
theories/BulkProofs3.v
theories/BulkProofs4.v
theories/BulkProps.v
theories/StrModel.v
theories/StrSpec.v
theories/StrProofs.v
theories/StrProofs2.v
theories/StrProofs3.v
theories/StrProofs4.v
theories/StrProps.v
theories/BusLogModel.v
theories/BusLogSpec.v
theories/BusLogProofs.v
theories/BusLogProofs2.v
theories/BusLogProofs3.v
theories/BusLogProofs4.v
theories/BusLogProofs5.v
theories/BusLogProofs6.v
theories/BusLogProps.v
theories/NoteModel.v
theories/NoteSpec.v
theories/NoteProofs.v
theories/NoteProofs2.v
theories/NoteProofs3.v
theories/NoteProofs4.v
theories/NoteProps.v
theories/MethModel.v
theories/MethSpec.v
theories/MethProofs.v
theories/MethProofs2.v
theories/MethProps.v
theories/UnitModel.v
theories/UnitSpec.v
theories/UnitProofs.v
theories/UnitProps.v
theories/PvModel.v
theories/PvSpec.v
theories/PvProofs.v
theories/PvProps.v
theories/PickModel.v
theories/PickSpec.v
theories/PickProofs.v
theories/PickProps.v
theories/PickFileModel.v
theories/PickFileProps.v
theories/VirtModel.v
theories/VirtProps.v
theories/LookModel.v
theories/LookSpec.v
theories/LookProps.v
theories/LookIdProps.v
theories/LookTreeModel.v
theories/LookTreeProps.v
