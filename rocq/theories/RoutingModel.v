(** Model of message routing: common/reactor/ReactorManager.cpp, Deployer.cpp,
    common/CompDefs.hpp, common/MsgDefs.hpp and the destination and handler
    tables spread over common/msg/*.hpp and the components. *)
From Verif Require Import Base QueueModel MsgStorageModel ReactorModel.
Local Open Scope Z_scope.

(** CompIds, CompDefs.hpp:8-17. *)
Inductive comp := compConnector | compDetector | compController | compModbus
  | compUaTransport | compUaSecChannel | compUaService.

(** CompDefs.hpp:8-17. *)
Definition comp_id (c : comp) : Z :=
  match c with
  | compConnector => 0 | compDetector => 1 | compController => 2 | compModbus => 3
  | compUaTransport => 4 | compUaSecChannel => 5 | compUaService => 6
  end.

(** MsgIds, MsgDefs.hpp:8-62, in declaration order. *)
Inductive msgkind :=
| controllerStartReq
| controllerStopReq
| connectorInitReq
| connectorInitRsp
| detectorInitReq
| detectorInitRsp
| modbusInitReq
| modbusInitRsp
| modbusReleaseReq
| modbusReleaseRsp
| modbusConfigReq
| modbusConfigRsp
| modbusClientAduReq
| modbusClientAduRsp
| modbusAduReq
| modbusAduRsp
| uaTransportInitReq
| uaTransportInitRsp
| uaTransportReleaseReq
| uaTransportReleaseRsp
| uaTransportConfigReq
| uaTransportConfigRsp
| uaSecuredMessageSendReq
| uaSecuredMessageReceiveInd
| uaConnectionReleaseReq
| uaConnectionReleaseInd
| uaSecureChannelInitReq
| uaSecureChannelInitRsp
| uaSecureChannelReleaseReq
| uaSecureChannelReleaseRsp
| uaSecureChannelConfigReq
| uaSecureChannelConfigRsp
| uaOpenSecureChannelReq
| uaOpenSecureChannelRsp
| uaCloseSecureChannelReq
| uaCloseSecureChannelRsp
| uaAssociateSecureChannelReq
| uaServiceInitReq
| uaServiceInitRsp
| uaServiceReleaseReq
| uaServiceReleaseRsp
| uaServiceConfigReq
| uaServiceConfigRsp
| uaEncodedMessageSendReq
| uaEncodedMessageReceiveInd.

(** All of them, MsgDefs.hpp:8-62. *)
Definition all_kinds : list msgkind :=
  [controllerStartReq;
   controllerStopReq;
   connectorInitReq;
   connectorInitRsp;
   detectorInitReq;
   detectorInitRsp;
   modbusInitReq;
   modbusInitRsp;
   modbusReleaseReq;
   modbusReleaseRsp;
   modbusConfigReq;
   modbusConfigRsp;
   modbusClientAduReq;
   modbusClientAduRsp;
   modbusAduReq;
   modbusAduRsp;
   uaTransportInitReq;
   uaTransportInitRsp;
   uaTransportReleaseReq;
   uaTransportReleaseRsp;
   uaTransportConfigReq;
   uaTransportConfigRsp;
   uaSecuredMessageSendReq;
   uaSecuredMessageReceiveInd;
   uaConnectionReleaseReq;
   uaConnectionReleaseInd;
   uaSecureChannelInitReq;
   uaSecureChannelInitRsp;
   uaSecureChannelReleaseReq;
   uaSecureChannelReleaseRsp;
   uaSecureChannelConfigReq;
   uaSecureChannelConfigRsp;
   uaOpenSecureChannelReq;
   uaOpenSecureChannelRsp;
   uaCloseSecureChannelReq;
   uaCloseSecureChannelRsp;
   uaAssociateSecureChannelReq;
   uaServiceInitReq;
   uaServiceInitRsp;
   uaServiceReleaseReq;
   uaServiceReleaseRsp;
   uaServiceConfigReq;
   uaServiceConfigRsp;
   uaEncodedMessageSendReq;
   uaEncodedMessageReceiveInd].

(** The value of the enumerator, MsgDefs.hpp:8-62. *)
Definition msg_id (k : msgkind) : Z :=
  match k with
  | controllerStartReq => 0
  | controllerStopReq => 1
  | connectorInitReq => 2
  | connectorInitRsp => 3
  | detectorInitReq => 4
  | detectorInitRsp => 5
  | modbusInitReq => 6
  | modbusInitRsp => 7
  | modbusReleaseReq => 8
  | modbusReleaseRsp => 9
  | modbusConfigReq => 10
  | modbusConfigRsp => 11
  | modbusClientAduReq => 12
  | modbusClientAduRsp => 13
  | modbusAduReq => 14
  | modbusAduRsp => 15
  | uaTransportInitReq => 16
  | uaTransportInitRsp => 17
  | uaTransportReleaseReq => 18
  | uaTransportReleaseRsp => 19
  | uaTransportConfigReq => 20
  | uaTransportConfigRsp => 21
  | uaSecuredMessageSendReq => 22
  | uaSecuredMessageReceiveInd => 23
  | uaConnectionReleaseReq => 24
  | uaConnectionReleaseInd => 25
  | uaSecureChannelInitReq => 26
  | uaSecureChannelInitRsp => 27
  | uaSecureChannelReleaseReq => 28
  | uaSecureChannelReleaseRsp => 29
  | uaSecureChannelConfigReq => 30
  | uaSecureChannelConfigRsp => 31
  | uaOpenSecureChannelReq => 32
  | uaOpenSecureChannelRsp => 33
  | uaCloseSecureChannelReq => 34
  | uaCloseSecureChannelRsp => 35
  | uaAssociateSecureChannelReq => 36
  | uaServiceInitReq => 37
  | uaServiceInitRsp => 38
  | uaServiceReleaseReq => 39
  | uaServiceReleaseRsp => 40
  | uaServiceConfigReq => 41
  | uaServiceConfigRsp => 42
  | uaEncodedMessageSendReq => 43
  | uaEncodedMessageReceiveInd => 44
  end.

(** Destination component: second template argument of MsgBase in each
    message header (file and line beside each case). *)
Definition msg_dst (k : msgkind) : comp :=
  match k with
  | controllerStartReq => compController   (* MsgControllerStartReq.hpp:10 *)
  | controllerStopReq => compController   (* MsgControllerStopReq.hpp:10 *)
  | connectorInitReq => compConnector   (* MsgConnectorInitReq.hpp:10 *)
  | connectorInitRsp => compController   (* MsgConnectorInitRsp.hpp:10 *)
  | detectorInitReq => compDetector   (* MsgDetectorInitReq.hpp:10 *)
  | detectorInitRsp => compController   (* MsgDetectorInitRsp.hpp:10 *)
  | modbusInitReq => compModbus   (* MsgModbusInitReq.hpp:10 *)
  | modbusInitRsp => compController   (* MsgModbusInitRsp.hpp:10 *)
  | modbusReleaseReq => compModbus   (* MsgModbusReleaseReq.hpp:10 *)
  | modbusReleaseRsp => compController   (* MsgModbusReleaseRsp.hpp:10 *)
  | modbusConfigReq => compModbus   (* MsgModbusConfigReq.hpp:24 *)
  | modbusConfigRsp => compController   (* MsgModbusConfigRsp.hpp:19 *)
  | modbusClientAduReq => compModbus   (* MsgModbusClientAduReq.hpp:26 *)
  | modbusClientAduRsp => compController   (* MsgModbusClientAduRsp.hpp:15 *)
  | modbusAduReq => compController   (* MsgModbusAduReq.hpp:14 *)
  | modbusAduRsp => compModbus   (* MsgModbusAduRsp.hpp:14 *)
  | uaTransportInitReq => compUaTransport   (* MsgUaTransportInitReq.hpp:10 *)
  | uaTransportInitRsp => compController   (* MsgUaTransportInitRsp.hpp:10 *)
  | uaTransportReleaseReq => compUaTransport   (* MsgUaTransportReleaseReq.hpp:10 *)
  | uaTransportReleaseRsp => compController   (* MsgUaTransportReleaseRsp.hpp:10 *)
  | uaTransportConfigReq => compUaTransport   (* MsgUaTransportConfigReq.hpp:12 *)
  | uaTransportConfigRsp => compController   (* MsgUaTransportConfigRsp.hpp:10 *)
  | uaSecuredMessageSendReq => compUaTransport   (* MsgUaSecuredMessageSendReq.hpp:14 *)
  | uaSecuredMessageReceiveInd => compUaSecChannel   (* MsgUaSecuredMessageReceiveInd.hpp:14 *)
  | uaConnectionReleaseReq => compUaTransport   (* MsgUaConnectionReleaseReq.hpp:12 *)
  | uaConnectionReleaseInd => compUaSecChannel   (* MsgUaConnectionReleaseInd.hpp:12 *)
  | uaSecureChannelInitReq => compUaSecChannel   (* MsgUaSecureChannelInitReq.hpp:10 *)
  | uaSecureChannelInitRsp => compUaSecChannel   (* MsgUaSecureChannelInitRsp.hpp:10 *)
  | uaSecureChannelReleaseReq => compUaSecChannel   (* MsgUaSecureChannelReleaseReq.hpp:10 *)
  | uaSecureChannelReleaseRsp => compUaSecChannel   (* MsgUaSecureChannelReleaseRsp.hpp:10 *)
  | uaSecureChannelConfigReq => compUaSecChannel   (* MsgUaSecureChannelConfigReq.hpp:10 *)
  | uaSecureChannelConfigRsp => compUaSecChannel   (* MsgUaSecureChannelConfigRsp.hpp:10 *)
  | uaOpenSecureChannelReq => compUaSecChannel   (* MsgUaOpenSecureChannelReq.hpp:14 *)
  | uaOpenSecureChannelRsp => compUaTransport   (* MsgUaOpenSecureChannelRsp.hpp:14 *)
  | uaCloseSecureChannelReq => compUaSecChannel   (* MsgUaCloseSecureChannelReq.hpp:14 *)
  | uaCloseSecureChannelRsp => compUaTransport   (* MsgUaCloseSecureChannelRsp.hpp:14 *)
  | uaAssociateSecureChannelReq => compUaSecChannel   (* MsgUaAssociateSecureChannelReq.hpp:12 *)
  | uaServiceInitReq => compUaService   (* MsgUaServiceInitReq.hpp:10 *)
  | uaServiceInitRsp => compUaSecChannel   (* MsgUaServiceInitRsp.hpp:10 *)
  | uaServiceReleaseReq => compUaService   (* MsgUaServiceReleaseReq.hpp:10 *)
  | uaServiceReleaseRsp => compUaSecChannel   (* MsgUaServiceReleaseRsp.hpp:10 *)
  | uaServiceConfigReq => compUaService   (* MsgUaServiceConfigReq.hpp:10 *)
  | uaServiceConfigRsp => compUaSecChannel   (* MsgUaServiceConfigRsp.hpp:10 *)
  | uaEncodedMessageSendReq => compUaSecChannel   (* MsgUaEncodedMessageSendReq.hpp:12 *)
  | uaEncodedMessageReceiveInd => compUaService   (* MsgUaEncodedMessageReceiveInd.hpp:12 *)
  end.

(** Message kinds for which a component registers a handler in its
    constructor. *)
Definition registered (c : comp) : list msgkind :=
  match c with
  | compConnector =>   (* connector/ConnectorSimple.cpp:16-22 *)
      [connectorInitReq]
  | compDetector =>   (* detector/Detector.cpp:17-23 *)
      [detectorInitReq]
  | compController =>   (* controller/ControllerComponent.cpp:15-36 *)
      [controllerStartReq;
       controllerStopReq;
       modbusInitRsp;
       modbusReleaseRsp;
       modbusConfigRsp;
       modbusClientAduRsp;
       modbusAduReq;
       uaSecureChannelInitRsp;
       uaSecureChannelConfigRsp;
       uaSecureChannelReleaseRsp;
       uaTransportInitRsp;
       uaTransportConfigRsp;
       uaTransportReleaseRsp;
       uaServiceInitRsp;
       uaServiceConfigRsp;
       uaServiceReleaseRsp]
  | compModbus =>   (* modbus/ModbusComponent.cpp:26-36 *)
      [modbusInitReq;
       modbusReleaseReq;
       modbusConfigReq;
       modbusClientAduReq;
       modbusAduRsp]
  | compUaTransport =>   (* ua/transport/UaTransportComponent.cpp:17-29 *)
      [uaTransportInitReq;
       uaTransportConfigReq;
       uaOpenSecureChannelRsp;
       uaCloseSecureChannelRsp;
       uaSecuredMessageSendReq;
       uaConnectionReleaseReq;
       uaTransportReleaseReq]
  | compUaSecChannel =>   (* ua/securechannel/UaSecureChannelComponent.cpp:17-31 *)
      [uaSecureChannelInitReq;
       uaSecureChannelConfigReq;
       uaOpenSecureChannelReq;
       uaCloseSecureChannelReq;
       uaAssociateSecureChannelReq;
       uaSecuredMessageReceiveInd;
       uaConnectionReleaseInd;
       uaEncodedMessageSendReq;
       uaSecureChannelReleaseReq]
  | compUaService =>   (* ua/service/UaServiceComponent.cpp:17-26 *)
      [uaServiceInitReq;
       uaServiceConfigReq;
       uaEncodedMessageReceiveInd;
       uaServiceReleaseReq]
  end.

(** ReactorManager state: components by id (ReactorManager.hpp); a component
    is represented by the reactor it was built on. Lines 34-35. *)
Definition manager := Z -> option nat.
(** No component is registered. ReactorManager.hpp:35. *)
Definition m_empty : manager := fun _ => None.

(** addComponent, ReactorManager.cpp:34-43: the first one stays. *)
Definition add_component (m : manager) (cid : Z) (reactor : nat) : manager :=
  match m cid with
  | Some _ => m
  | None => fun x => if x =? cid then Some reactor else m x
  end.

(** send, ReactorManager.cpp:23-32: the list of reactors whose [send] is
    called. *)
Definition m_send (m : manager) (cid : Z) : list nat :=
  match m cid with None => [] | Some r => [r] end.

(** getDepl, Deployer.cpp:22-44: component lists, one reactor each. *)
Inductive deployment := depDef | depCpu3.
(** Deployer.cpp:22-44. *)
Definition get_depl (d : deployment) : list (list comp) :=
  match d with
  | depDef => [[compConnector; compDetector; compController]]
  | depCpu3 => [[compConnector]; [compModbus];
                [compUaTransport; compUaSecChannel; compUaService]; [compController]]
  end.

(** Component construction, Deployer.cpp:59-103: compDetector falls into the
    default branch and is not built.  Building a component registers its
    handlers with the reactor. *)
Definition is_built (c : comp) : bool := match c with compDetector => false | _ => true end.

(** The handlers a component registers when it is constructed, Deployer.cpp:59-103. *)
Definition build_handlers (h : hmap comp) (c : comp) : hmap comp :=
  if is_built c then register_all h (map (fun k => (msg_id k, Some c)) (registered c)) else h.

(** The component is made known to the manager, Deployer.cpp:59-103. *)
Definition build_manager (r : nat) (m : manager) (c : comp) : manager :=
  if is_built c then add_component m (comp_id c) r else m.

(** apply, Deployer.cpp:47-106. *)
Fixpoint apply_depl (r : nat) (m : manager) (hs : list (hmap comp)) (cs : list (list comp))
  : manager * list (hmap comp) :=
  match cs with
  | [] => (m, hs)
  | c :: rest =>
      apply_depl (S r) (fold_left (build_manager r) c m)
                 (hs ++ [fold_left build_handlers c (h_empty (H:=comp))]) rest
  end.

(** Deployer.cpp:47-106. *)
Definition deployed_as (cs : list (list comp)) : manager * list (hmap comp) :=
  apply_depl 0 m_empty [] cs.

(** The component whose handler finally runs for a message of kind [k]:
    manager routing (ReactorManager.cpp:23-32) then the reactor's handler table
    (Reactor.cpp:153). *)
Definition handled_in (cs : list (list comp)) (k : msgkind) : option comp :=
  let '(m, hs) := deployed_as cs in
  match m_send m (comp_id (msg_dst k)) with
  | [r] => match nth_error hs r with Some h => h (msg_id k) | None => None end
  | _ => None
  end.

(** The same under one of the deployments of Deployer.cpp:22-44. *)
Definition handled_by (d : deployment) (k : msgkind) : option comp := handled_in (get_depl d) k.
