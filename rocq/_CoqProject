-Q theories Verif
theories/Base.v
theories/UIntModel.v
theories/UIntSpec.v
theories/UIntProofs.v
theories/UIntProps.v
theories/HeaderModel.v
theories/HeaderSpec.v
theories/HeaderProofs.v
theories/HeaderProps.v
theories/OptEncModel.v
theories/OptSpec.v
theories/StreambufModel.v
theories/OptEncProofs.v
theories/StreambufProofs.v
theories/OptEncProps.v
theories/PullProofs.v
theories/PullProps.v
theories/OptDecModel.v
theories/OptDecSpec.v
theories/OptDecProofs.v
theories/OptDecProps.v
theories/DecoderModel.v
theories/DecoderSpec.v
theories/DecoderProofs.v
theories/CutProofs.v
theories/DecoderProps.v
theories/ChunkSpec.v
theories/ChunkProofs.v
theories/ChunkProps.v
theories/CodecProps.v
theories/BlockModel.v
theories/BlockSpec.v
theories/BlockProofs.v
theories/BlockProps.v
theories/RetryModel.v
theories/RetrySpec.v
theories/RetryProofs.v
theories/RetryProps.v
theories/CborModel.v
theories/CborSpec.v
theories/CborProofs.v
theories/CborProps.v
theories/CborOldModel.v
theories/CborOldSpec.v
theories/CborOldProps.v
theories/NetbufModel.v
theories/NetbufSpec.v
theories/NetbufProofs.v
theories/NetbufProps.v
theories/ContextModel.v
theories/ReplyProps.v
theories/ObserveModel.v
theories/ObserveSpec.v
theories/ObserveProofs.v
theories/ObserveProps.v
theories/UriModel.v
theories/UriSpec.v
theories/UriProofs.v
theories/UriProps.v
theories/DispatchModel.v
theories/DispatchSpec.v
theories/DispatchProofs.v
theories/DispatchProps.v
theories/RouteProofs.v
theories/RouteProps.v
theories/SubjectModel.v
theories/SubjectSpec.v
theories/SubjectProofs.v
theories/SubjectProps.v
theories/SbDecModel.v
theories/SbDecSpec.v
theories/SbDecProofs.v
theories/SbDecProps.v
theories/AppModel.v
theories/AppSpec.v
theories/AppProofs.v
theories/AppProps.v
theories/NetDecModel.v
theories/NetDecSpec.v
theories/NetDecProofs.v
theories/NetDecProps.v
theories/RespModel.v
theories/RespSpec.v
theories/RespProofs.v
theories/RespProps.v
theories/CopyModel.v
theories/CopySpec.v
theories/CopyProofs.v
theories/CopyProps.v
theories/EchoModel.v
theories/EchoProofs.v
theories/EchoProps.v
theories/DiagModel.v
theories/DiagSpec.v
theories/DiagProofs.v
theories/DiagProps.v
theories/PumpModel.v
theories/PumpSpec.v
theories/PumpProofs.v
theories/PumpProps.v
theories/CborRespModel.v
theories/CborRespSpec.v
theories/CborRespProofs.v
theories/CborRespProps.v
theories/AggregateModel.v
theories/AggregateSpec.v
theories/AggregateProofs.v
theories/AggregateProps.v
theories/DtlsModel.v
theories/DtlsSpec.v
theories/DtlsProofs.v
theories/DtlsProps.v
theories/RetryMemModel.v
theories/RetryMemSpec.v
theories/RetryMemProofs.v
theories/RetryMemProps.v
theories/RetryInlModel.v
theories/RetryInlSpec.v
theories/RetryInlProofs.v
theories/RetryInlKeptProofs.v
theories/RetryInlProps.v
theories/CtxSubModel.v
theories/CtxSubSpec.v
theories/CtxSubProofs.v
theories/CtxSubProps.v
theories/EspObsModel.v
theories/EspObsSpec.v
theories/EspObsProofs.v
theories/EspObsProps.v
theories/NbEncModel.v
theories/NbEncProofs.v
theories/NbEncProps.v
theories/MetaModel.v
theories/MetaProps.v
theories/TestsMsg.v
theories/TestsCbor.v
theories/TestsApp.v
theories/ExchangeModel.v
theories/ExchangeSpec.v
theories/ExchangeProofs.v
theories/ExchangeProps.v
theories/TestsUnity.v
theories/DispCtxModel.v
theories/DispCtxSpec.v
theories/DispCtxProofs.v
theories/DispCtxRoute.v
theories/DispCtxProps.v
theories/ObsNetSpec.v
theories/ObsNetProps.v
theories/IsolSpec.v
theories/IsolProofs.v
theories/IsolProps.v
theories/NamesModel.v
theories/NamesProps.v
theories/CanonSpec.v
theories/CanonProps.v
theories/HeadCutSpec.v
theories/HeadCutProofs.v
theories/HeadCutProps.v
theories/AnySpec.v
theories/AnyProofs.v
theories/AnyProps.v
theories/NbPiecesProps.v
theories/NetAnySpec.v
theories/NetAnyProofs.v
theories/NetCutProofs.v
theories/NetAnyProps.v
theories/PumpAnySpec.v
theories/PumpAnyProofs.v
theories/PumpAnyProps.v
theories/CborAnySpec.v
theories/CborAnyProofs.v
theories/CborAnyProps.v
theories/CborPumpModel.v
theories/CborPumpSpec.v
theories/CborPumpProofs.v
theories/CborPumpProps.v
theories/VisitSpec.v
theories/VisitProofs.v
theories/VisitProps.v
theories/DiscoverModel.v
theories/DiscoverSpec.v
theories/DiscoverProps.v
theories/LwipModel.v
theories/LwipSpec.v
theories/LwipProps.v
theories/GroupProofs.v
theories/GroupProps.v
theories/WatchSpec.v
theories/WatchProofs.v
theories/WatchProps.v
theories/ScheduleSpec.v
theories/ScheduleProofs.v
theories/ScheduleProps.v
theories/RefCtxModel.v
theories/RefCtxSpec.v
theories/RefCtxProofs.v
theories/RefCtxProps.v
theories/ExchScheduleSpec.v
theories/ExchScheduleProofs.v
theories/ExchScheduleProps.v
theories/InlScheduleSpec.v
theories/InlScheduleProofs.v
theories/InlScheduleProps.v
theories/OptObjModel.v
theories/OptObjSpec.v
theories/OptObjProofs.v
theories/OptObjProps.v
theories/FactoryModel.v
theories/FactorySpec.v
theories/FactoryProofs.v
theories/FactoryProps.v
theories/BlockTypeModel.v
theories/BlockTypeSpec.v
theories/BlockTypeProps.v
theories/UriTableModel.v
theories/UriTableSpec.v
theories/UriTableProofs.v
theories/UriTableProps.v
