-Q theories Verif
theories/Base.v
theories/BaseLemmas.v
theories/BitsModel.v
theories/BitsProps.v
theories/ByteOrderModel.v
theories/ByteOrderSpec.v
theories/ByteOrderProofs.v
theories/ByteOrderProps.v
theories/SerializationModel.v
theories/SerializationSpec.v
theories/SerializationProofs.v
theories/SerializationProps.v
theories/Store.v
theories/StoreLemmas.v
theories/StaticVectorModel.v
theories/StaticVectorSpec.v
theories/StaticVectorProofs.v
theories/StaticVectorProps.v
theories/StaticArrayModel.v
theories/StaticArrayProps.v
theories/IteratorsModel.v
theories/IteratorsProps.v
theories/CircularArrayModel.v
theories/CircularArraySpec.v
theories/CircularArrayProofs.v
theories/CircularArrayProps.v
theories/CircularConstSpec.v
theories/CircularConstProps.v
theories/VectorModel.v
theories/VectorSpec.v
theories/VectorProofs.v
theories/VectorProps.v
theories/ListModel.v
theories/ListSpec.v
theories/ListProofs.v
theories/ListOps.v
theories/ListRun.v
theories/ListTwo.v
theories/ListProps.v
theories/ListNextSpec.v
theories/ListNextProofs.v
theories/ListNextProps.v
theories/StringModel.v
theories/StringSpec.v
theories/StringProofs.v
theories/StringProps.v
theories/ToStringModel.v
theories/ToStringSpec.v
theories/ToStringProofs.v
theories/ToStringProps.v
theories/PointersModel.v
theories/PointersSpec.v
theories/PointersProofs.v
theories/PointersProps.v
theories/SharedExactProps.v
theories/VariantModel.v
theories/VariantSpec.v
theories/VariantProofs.v
theories/VariantProps.v
theories/VariantExactSpec.v
theories/VariantExactProps.v
theories/OptionalModel.v
theories/OptionalSpec.v
theories/OptionalProofs.v
theories/OptionalProps.v
theories/ExpectedModel.v
theories/ExpectedSpec.v
theories/ExpectedProofs.v
theories/ExpectedProps.v
theories/ExpectedExactProps.v
theories/UtilsModel.v
theories/UtilsProps.v
theories/IntegralModel.v
theories/IntegralProps.v
theories/ByteModel.v
theories/ByteSpec.v
theories/ByteProps.v
theories/TupleModel.v
theories/TupleSpec.v
theories/TupleProps.v
theories/ProxyModel.v
theories/ProxySpec.v
theories/ProxyProps.v
theories/EnumTable.v
theories/EnumModel.v
theories/EnumSpec.v
theories/EnumProps.v
theories/TestRunModel.v
theories/TestRunProps.v
theories/CppTypes.v
theories/TraitsModel.v
theories/TraitsSpec.v
theories/TraitsProps.v
theories/ObjectModel.v
theories/ObjectSpec.v
theories/ObjectProofs.v
theories/ObjectProps.v
theories/ObjectExactSpec.v
theories/ObjectExactProps.v
theories/Ipv4Model.v
theories/Ipv4Spec.v
theories/Ipv4Proofs.v
theories/Ipv4Props.v
theories/ConcModel.v
theories/ConcSpec.v
theories/ConcProofs.v
theories/QueueModel.v
theories/QueueSpec.v
theories/QueueProofs.v
theories/QueueProps.v
theories/RegistrarModel.v
theories/RegistrarProps.v
theories/LockModel.v
theories/LockSpec.v
theories/LockProofs.v
theories/LockProps.v
theories/UniqueLockerModel.v
theories/UniqueLockerSpec.v
theories/UniqueLockerProofs.v
theories/UniqueLockerProps.v
theories/LockerLedgerSpec.v
theories/LockerLedgerProps.v
theories/SocketModel.v
theories/SocketSpec.v
theories/SocketProofs.v
theories/SocketProps.v
theories/NetIoModel.v
theories/NetIoProps.v
theories/StreamModel.v
theories/StreamSpec.v
theories/StreamProofs.v
theories/StreamProps.v
theories/FileIoModel.v
theories/FileIoSpec.v
theories/FileIoProofs.v
theories/FileIoProps.v
theories/FileOwnerModel.v
theories/FileOwnerSpec.v
theories/FileOwnerProofs.v
theories/FileOwnerProps.v
theories/HybridVectorModel.v
theories/HybridVectorSpec.v
theories/HybridVectorProofs.v
theories/HybridVectorProps.v
theories/CounterModel.v
theories/CounterSpec.v
theories/CounterProps.v
theories/CondVarModel.v
theories/CondVarSpec.v
theories/CondVarProofs.v
theories/CondVarProps.v
theories/WinLockModel.v
theories/WinLockSpec.v
theories/WinLockProps.v
theories/WinTokensSpec.v
theories/WinTokensProps.v
theories/WinMutexModel.v
theories/WinMutexSpec.v
theories/WinMutexProofs.v
theories/WinMutexProps.v
theories/WinSemLeakProps.v
theories/ThreadModel.v
theories/ThreadSpec.v
theories/ThreadProofs.v
theories/ThreadProps.v
theories/PipeOpenModel.v
theories/PipeOpenSpec.v
theories/PipeOpenProps.v
theories/WinStreamModel.v
theories/WinStreamSpec.v
theories/WinStreamProofs.v
theories/WinStreamProps.v
theories/LockObjectModel.v
theories/LockObjectProps.v
theories/WideIntModel.v
theories/WideIntSpec.v
theories/WideIntProofs.v
theories/WideIntProps.v
theories/LibraryModel.v
theories/LibrarySpec.v
theories/LibraryProofs.v
theories/LibraryProps.v
theories/Pkcs11Model.v
theories/Pkcs11Spec.v
theories/Pkcs11Proofs.v
theories/Pkcs11Props.v
theories/SoftPkcs11Model.v
theories/SoftPkcs11Spec.v
theories/SoftPkcs11Proofs.v
theories/SoftPkcs11Props.v
theories/AllocatorModel.v
theories/AllocatorSpec.v
theories/AllocatorProofs.v
theories/AllocatorProps.v
theories/AllocatorLedgerSpec.v
theories/AllocatorLedgerProps.v
theories/HolderModel.v
theories/HolderSpec.v
theories/HolderProps.v
theories/EventModel.v
theories/EventSpec.v
theories/EventProofs.v
theories/EventProps.v
theories/WinCatcherModel.v
theories/WinCatcherSpec.v
theories/WinCatcherProps.v
theories/WinEventModel.v
theories/WinEventSpec.v
theories/WinEventProofs.v
theories/WinEventProps.v
theories/WinSocketModel.v
theories/WinSocketSpec.v
theories/WinSocketProps.v
theories/WinThreadModel.v
theories/WinThreadSpec.v
theories/WinThreadProofs.v
theories/WinThreadProps.v
theories/StructsModel.v
theories/StructsSpec.v
theories/StructsTable.v
theories/StructsProofs.v
theories/StructsProps.v
theories/RouteModel.v
theories/RouteSpec.v
theories/RouteTable.v
theories/RouteProps.v
theories/Pkcs11InitProps.v
theories/TcpStreamModel.v
theories/TcpStreamSpec.v
theories/TcpStreamProps.v
theories/UdpClientModel.v
theories/UdpClientSpec.v
theories/UdpClientProps.v
theories/BackwardModel.v
theories/BackwardSpec.v
theories/BackwardProps.v
theories/CloneModel.v
theories/CloneProps.v
theories/CircularVectorModel.v
theories/CircularVectorProps.v
theories/WinSockModel.v
theories/WinSockSpec.v
theories/WinSockProps.v
theories/GrowthSpec.v
theories/GrowthProps.v
theories/MessageModel.v
theories/MessageProps.v
theories/TcpServerModel.v
theories/TcpServerSpec.v
theories/TcpServerProps.v
theories/OomModel.v
theories/OomProps.v
theories/ForwardModel.v
theories/ForwardProps.v
theories/OverloadModel.v
theories/OverloadProps.v
theories/AliasModel.v
theories/AliasSpec.v
theories/AliasProofs.v
theories/AliasTextProofs.v
theories/AliasProps.v
theories/RefSpec.v
theories/RefProofs.v
theories/RefProps.v
theories/BufferedModel.v
theories/BufferedSpec.v
theories/BufferedProps.v
theories/UbjsonModel.v
theories/UbjsonSpec.v
theories/UbjsonProps.v
theories/MechanismModel.v
theories/MechanismSpec.v
theories/MechanismProps.v
theories/LockStatusModel.v
theories/LockStatusSpec.v
theories/LockStatusProps.v
theories/CondWaitModel.v
theories/CondWaitSpec.v
theories/CondWaitProps.v
theories/CondEndProps.v
theories/CompareModel.v
theories/CompareSpec.v
theories/CompareProps.v
theories/ReferenceModel.v
theories/ReferenceSpec.v
theories/ReferenceProps.v
theories/GuardedModel.v
theories/GuardedSpec.v
theories/GuardedProps.v
theories/WinIoModel.v
theories/WinIoSpec.v
theories/WinIoProps.v
theories/HybridOrderModel.v
theories/HybridOrderSpec.v
theories/HybridOrderProps.v
theories/NotifyModel.v
theories/NotifySpec.v
theories/NotifyProps.v
theories/AppendModel.v
theories/AppendSpec.v
theories/AppendProps.v
theories/HybridCopyModel.v
theories/HybridCopySpec.v
theories/HybridCopyProps.v
theories/LifeModel.v
theories/LifeSpec.v
theories/LifeProofs.v
theories/LifeProps.v
theories/CircProgramModel.v
theories/CircProgramSpec.v
theories/CircProgramProps.v
theories/WinNetModel.v
theories/WinNetSpec.v
theories/WinNetProps.v
theories/ThreadExactSpec.v
theories/ThreadExactProps.v
theories/EmplaceOwnModel.v
theories/EmplaceOwnProps.v
theories/PipeFilesSpec.v
theories/PipeFilesProps.v
theories/HybridOwnModel.v
theories/HybridOwnProps.v
theories/VectorExactSpec.v
theories/VectorExactProps.v
theories/HybridExactSpec.v
theories/HybridExactProps.v
theories/StaticVectorExactProps.v
theories/RangeModel.v
theories/RangeSpec.v
theories/RangeProps.v
theories/HybridRefSpec.v
theories/HybridRefProps.v
