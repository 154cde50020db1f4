-Q theories Verif
theories/Py.v
theories/ObjTableModel.v
theories/ObjTableSpec.v
theories/ObjTableProofs.v
theories/ObjTableProps.v
theories/DateTimeModel.v
theories/DateTimeSpec.v
theories/DateTimeProofs.v
theories/DateTimeProps.v
theories/NdArrayModel.v
theories/NdArraySpec.v
theories/NdArrayProofs.v
theories/Base64Model.v
theories/Base64Proofs.v
theories/NdArrayProps.v
theories/SerModel.v
theories/SerSpec.v
theories/SerProofs.v
theories/SerProofs2.v
theories/SerProofsJ.v
theories/SerProps.v
theories/FrameModel.v
theories/ServerModel.v
theories/ClientModel.v
theories/RpcModel.v
theories/FrameProofs.v
theories/WireSpec.v
theories/WireProofs.v
theories/ServerProofs.v
theories/ServerProofs2.v
theories/ClientProofs.v
theories/RpcSpec.v
theories/RpcInv.v
theories/RpcInv2.v
theories/RpcInv3.v
theories/RpcInv4.v
theories/RpcProofs.v
theories/ApiModel.v
theories/ApiSpec.v
theories/RpcProgress.v
theories/RpcLife.v
theories/RpcLife2.v
theories/LifeDemo.v
theories/LifeProps.v
theories/RpcProofs2.v
theories/ApiProofs.v
theories/LifeSpec.v
theories/LifeProofs.v
theories/LifeProofs2.v
theories/ApiProofs2.v
theories/RpcProofs3.v
theories/RpcDemo.v
theories/RpcProps.v
theories/NameModel.v
theories/NameSpec.v
theories/NameProofs.v
theories/ClientProofs2.v
theories/RpcFindings.v
theories/ClientProps.v
theories/ApiProps.v
theories/WaitModel.v
theories/WaitProofs.v
theories/WaitProofs2.v
theories/WaitProps.v
theories/ReentrantModel.v
theories/ReentrantSpec.v
theories/ReentrantProofs.v
theories/ReentrantProps.v
theories/RegistryModel.v
theories/RegistrySpec.v
theories/RegistryProofs.v
theories/RegistryProofs2.v
theories/RegistryProofs3.v
theories/RegistryProps.v
theories/ProxyModel.v
theories/ProxySpec.v
theories/ProxyProofs.v
theories/ProxyProofs2.v
theories/ProxyProps.v
theories/TimerModel.v
theories/TimerSpec.v
theories/TimerProofs.v
theories/TimerProofs2.v
theories/TimerProps.v
theories/TimerSrvModel.v
theories/TimerSrvSpec.v
theories/TimerSrvProofs.v
theories/TimerSrvProofs2.v
theories/TimerSrvProofs3.v
theories/TimerSrvProps.v
theories/LogHandlerModel.v
theories/LogHandlerSpec.v
theories/LogHandlerProofs.v
theories/LogHandlerProps.v
theories/LogFwdModel.v
theories/LogFwdSpec.v
theories/LogFwdProofs.v
theories/LogFwdProps.v
theories/PipeModel.v
theories/PipeSpec.v
theories/PipeProofs.v
theories/PipeProps.v
theories/ShmemModel.v
theories/ShmemSpec.v
theories/ShmemProofs.v
theories/ShmemProps.v
theories/UtilModel.v
theories/UtilSpec.v
theories/UtilProofs.v
theories/UtilProps.v
theories/ClockModel.v
theories/ClockSpec.v
theories/ClockProofs.v
theories/ClockProps.v
theories/QtRelayModel.v
theories/QtRelaySpec.v
theories/QtRelayProofs.v
theories/QtRelayProps.v
theories/QtUtilModel.v
theories/QtUtilSpec.v
theories/QtUtilProofs.v
theories/QtUtilProps.v
theories/ConnModel.v
theories/ConnSpec.v
theories/ConnProofs.v
theories/ConnProps.v
theories/EnsureModel.v
theories/EnsureSpec.v
theories/EnsureDemo.v
theories/EnsureProofs.v
theories/EnsureProofs2.v
theories/EnsureProps.v
theories/ProcessModel.v
theories/ProcessSpec.v
theories/ProcessProofs.v
theories/ProcessProps.v
theories/ChildModel.v
theories/ChildSpec.v
theories/ChildDemo.v
theories/ChildProofs.v
theories/ChildProofs2.v
theories/ChildProofs3.v
theories/ChildProofs4.v
theories/ChildProps.v
theories/KillModel.v
theories/KillSpec.v
theories/KillProofs.v
theories/KillProps.v
theories/LogTreeModel.v
theories/LogTreeSpec.v
theories/LogTreeProofs.v
theories/LogTreeProps.v
theories/LocalModel.v
theories/LocalSpec.v
theories/LocalProofs.v
theories/LocalProofs2.v
theories/LocalProps.v
theories/QtCloseModel.v
theories/QtCloseSpec.v
theories/QtCloseProofs.v
theories/QtCloseProps.v
theories/AddrModel.v
theories/AddrSpec.v
theories/AddrProofs.v
theories/AddrProps.v
theories/LogNetModel.v
theories/LogNetSpec.v
theories/LogNetProofs.v
theories/LogNetProps.v
theories/TimerProofs3.v
theories/KeySpec.v
theories/KeyProofs.v
theories/KeyProps.v
theories/PxOptModel.v
theories/PxOptSpec.v
theories/PxOptProofs.v
theories/PxOptProps.v
theories/PxThreadModel.v
theories/PxThreadSpec.v
theories/PxThreadProofs.v
theories/PxThreadProps.v
theories/InplModel.v
theories/InplSpec.v
theories/InplProofs.v
theories/InplProps.v
theories/SyncOpModel.v
theories/SyncOpSpec.v
theories/SyncOpProofs.v
theories/SyncOpProps.v
theories/FutModel.v
theories/FutSpec.v
theories/FutProofs.v
theories/FutProps.v
theories/ReprModel.v
theories/ReprSpec.v
theories/ReprProofs.v
theories/ReprProps.v
theories/LookupModel.v
theories/LookupSpec.v
theories/LookupProofs.v
theories/LookupProps.v
theories/LogArgModel.v
theories/LogArgSpec.v
theories/LogArgProofs.v
theories/LogArgProps.v
theories/TnameModel.v
theories/TnameSpec.v
theories/TnameProofs.v
theories/TnameProps.v
theories/FilterModel.v
theories/FilterSpec.v
theories/FilterProofs.v
theories/FilterProps.v
theories/IdLenModel.v
theories/IdLenSpec.v
theories/IdLenProofs.v
theories/IdLenProps.v
theories/RedirModel.v
theories/RedirSpec.v
theories/RedirProofs.v
theories/RedirProps.v
theories/ErrTextModel.v
theories/ErrTextSpec.v
theories/ErrTextProofs.v
theories/ErrTextProps.v
theories/AtExitModel.v
theories/AtExitSpec.v
theories/AtExitProofs.v
theories/AtExitProps.v
theories/SetAddrModel.v
theories/SetAddrSpec.v
theories/SetAddrProofs.v
theories/SetAddrProps.v
theories/LogStopModel.v
theories/LogStopSpec.v
theories/LogStopProofs.v
theories/LogStopProps.v
theories/CondaModel.v
theories/CondaSpec.v
theories/CondaProofs.v
theories/CondaProps.v
