-Q theories Verif
theories/Base.v
theories/BaseFacts.v
theories/FramesModel.v
theories/FramesProofs.v
theories/FramesProps.v
theories/FragmentProofs.v
theories/FragmentProps.v
theories/BufferModel.v
theories/BufferProofs.v
theories/BufferProps.v
theories/TcpModel.v
theories/TcpProofs.v
theories/SessionProofs.v
theories/TcpProps.v
theories/WasmModel.v
theories/WasmProofs.v
theories/WasmProps.v
theories/InvokeModel.v
theories/InvokeProofs.v
theories/InvokeProps.v
theories/LookupModel.v
theories/LookupProofs.v
theories/LookupProps.v
theories/MsgpackModel.v
theories/MsgpackSpec.v
theories/MsgpackProofs.v
theories/MsgpackValues.v
theories/MsgpackAny.v
theories/MsgpackSkip.v
theories/MsgpackBounds.v
theories/RecordModel.v
theories/RecordProofs.v
theories/MsgpackProps.v
theories/MonoModel.v
theories/MonoFacts.v
theories/MonoProps.v
theories/FluxModel.v
theories/FluxFacts.v
theories/FluxProps.v
theories/SliceProps.v
theories/RespModel.v
theories/RespProps.v
theories/RaceProps.v
theories/MonoObserve.v
theories/AdapterModel.v
theories/AdapterProps.v
theories/FlowModel.v
theories/FlowProps.v
theories/HandlerModel.v
theories/HandlerFacts.v
theories/HandlerProps.v
theories/HandlerCallProps.v
theories/HandlerServeProps.v
theories/HandlerCrashProps.v
theories/JointModel.v
theories/JointFacts.v
theories/JointProps.v
theories/HostModel.v
theories/HostProps.v
theories/MeshModel.v
theories/MeshProps.v
theories/SectionModel.v
theories/SectionProps.v
theories/UuidModel.v
theories/UuidProps.v
theories/WasmEndModel.v
theories/WasmEndFacts.v
theories/WasmEndProps.v
theories/DemandProps.v
theories/ChanModel.v
theories/ChanProps.v
theories/TransformModel.v
theories/TransformProps.v
theories/BlockModel.v
theories/BlockProps.v
theories/ServerModel.v
theories/ServerProps.v
theories/ProcProps.v
theories/TableModel.v
theories/TableProps.v
theories/WordModel.v
theories/WordProps.v
theories/StubModel.v
theories/StubProps.v
theories/CompModel.v
theories/CompProps.v
theories/ConvertModel.v
theories/ConvertProps.v
theories/StreamFacts.v
theories/StreamProps.v
theories/ChannelFacts.v
theories/ChannelPulls.v
theories/ChannelProps.v
theories/StreamStubModel.v
theories/StreamStubProps.v
theories/WasmCallFacts.v
theories/WasmCallProps.v
theories/WasmJointModel.v
theories/WasmJointFacts.v
theories/WasmJointProps.v
theories/WasmStreamProps.v
theories/MeshCallModel.v
theories/MeshCallProps.v
theories/HostClientModel.v
theories/HostClientProps.v
theories/MeshTypedModel.v
theories/MeshTypedProps.v
theories/RemoteMonoModel.v
theories/RemoteMonoProps.v
theories/MeshStreamModel.v
theories/MeshStreamProps.v
theories/RemoteFluxModel.v
theories/RemoteFluxProps.v
theories/WasmChannelProps.v
theories/ImmModel.v
theories/ImmProps.v
theories/WasmTypedProps.v
theories/MeshChannelProps.v
theories/MeshTypedStreamProps.v
