-Q theories Verif
theories/Base.v
theories/QueueModel.v
theories/QueueSpec.v
theories/QueueRun.v
theories/QueueProofs.v
theories/PoolModel.v
theories/PoolSpec.v
theories/PoolProofs.v
theories/QueueRing.v
theories/PoolRing.v
theories/Props_Queue.v
theories/Props_Pool.v
theories/MsgStorageModel.v
theories/MsgStorageSpec.v
theories/MsgStorageProofs.v
theories/Props_MsgStorage.v
theories/ReactorModel.v
theories/ReactorSpec.v
theories/ReactorProofs.v
theories/Props_Reactor.v
theories/RoutingModel.v
theories/RoutingSpec.v
theories/RoutingProofs.v
theories/Props_Routing.v
theories/TimeModel.v
theories/TimeSpec.v
theories/TimeProofs.v
theories/Props_Time.v
theories/LinkModel.v
theories/LinkSpec.v
theories/LinkProofs.v
theories/Props_Link.v
theories/ModbusCodecModel.v
theories/ModbusCodecSpec.v
theories/ModbusCodecProofs.v
theories/Props_ModbusCodec.v
theories/ModbusClientModel.v
theories/ModbusStoreProofs.v
theories/ModbusClientSpec.v
theories/ModbusClientProofs.v
theories/ModbusClientRuns.v
theories/ModbusClientFacts.v
theories/Props_ModbusClient.v
theories/ModbusServerModel.v
theories/ModbusServerSpec.v
theories/ModbusServerProofs.v
theories/ModbusServerRuns.v
theories/ModbusServerFacts.v
theories/ModbusServerWire.v
theories/Props_ModbusServer.v
theories/UaCodecModel.v
theories/UaCodecSpec.v
theories/UaCodecProofs.v
theories/UaCodecLocal.v
theories/Props_UaCodec.v
theories/EntProofs.v
theories/UaTcpModel.v
theories/UaTcpSpec.v
theories/UaTcpProofs.v
theories/UaTcpRuns.v
theories/UaTcpFacts.v
theories/Props_UaTcp.v
theories/UaChanModel.v
theories/UaChanSpec.v
theories/UaChanProofs.v
theories/UaChanRuns.v
theories/UaChanFacts.v
theories/Props_UaChan.v
theories/UaServiceModel.v
theories/UaServiceSpec.v
theories/UaServiceProofs.v
theories/UaServiceRuns.v
theories/UaServiceFacts.v
theories/Props_UaService.v
theories/FsmModel.v
theories/FsmSpec.v
theories/Props_Fsm.v
theories/UaEqModel.v
theories/UaEqSpec.v
theories/UaEqProofs.v
theories/Props_UaEq.v
theories/UaTableModel.v
theories/Props_UaTypeId.v
theories/ModbusCompModel.v
theories/ModbusCompSpec.v
theories/ModbusCompProofs.v
theories/ModbusCompRuns.v
theories/ModbusCompFacts.v
theories/Props_ModbusComp.v
theories/ProtoConnModel.v
theories/ProtoConnSpec.v
theories/ProtoConnProofs.v
theories/ProtoConnFacts.v
theories/ProtoHello.v
theories/Props_ProtoConn.v
theories/Props_Redial.v
theories/ControllerModel.v
theories/ControllerSpec.v
theories/ControllerProofs.v
theories/ControllerFacts.v
theories/Props_Controller.v
theories/UaSystemModel.v
theories/UaSystemSpec.v
theories/UaSystemProofs.v
theories/UaSystemFacts.v
theories/UaSystemRuns.v
theories/UaHello.v
theories/UaNet.v
theories/UaSystemProgress.v
theories/Props_UaSystem.v
theories/Props_UaDialogue.v
theories/ModbusNetModel.v
theories/ModbusNetSpec.v
theories/ModbusNetProofs.v
theories/ModbusNetRuns.v
theories/ModbusNetFacts.v
theories/Props_ModbusNet.v
theories/EventLoopModel.v
theories/EventLoopSpec.v
theories/EventLoopProofs.v
theories/Props_EventLoop.v
theories/SecLibModel.v
theories/SecLibSpec.v
theories/SecLibProofs.v
theories/SecLibFacts.v
theories/SecLibWire.v
theories/SecLibRuns.v
theories/Props_SecLib.v
theories/SecLibPair.v
theories/Props_SecPair.v
theories/Props_LibApp.v
theories/AppModel.v
theories/AppSpec.v
theories/AppProofs.v
theories/AppBound.v
theories/AppFacts.v
theories/AppLeft.v
theories/OverloadModel.v
theories/OverloadSpec.v
theories/OverloadProofs.v
theories/OverloadFacts.v
theories/OverloadQueue.v
theories/Props_Overload.v
theories/Props_App.v
theories/ShutdownModel.v
theories/ShutdownSpec.v
theories/ShutdownProofs.v
theories/Props_Shutdown.v
theories/LoggerModel.v
theories/LoggerSites.v
theories/LoggerSpec.v
theories/LoggerProofs.v
theories/Props_Logger.v
theories/Props_UaHeader.v
theories/SelfTestModel.v
theories/SelfTestSpec.v
theories/SelfTestTable.v
theories/SelfTestCore.v
theories/SelfTestLink.v
theories/SelfTestRound.v
theories/SelfTestWire.v
theories/SelfTestProofs.v
theories/SelfTestOrder.v
theories/Props_SelfTest.v
