(** Model of the deployed application while it is started and stopped: main.cpp, the three reactors that take part
    (Deployer.cpp:31-38: the Modbus component, the three OPC UA layers, the controller; each with one thread), and the messages between
    them that create, configure and release components.

    A handler runs to its end on its reactor's thread; the messages it sends are handed to other reactors one after the other
    (Reactor.cpp:109-118), so between two of them other threads may run: a reactor here has a queue and an outbox, the messages its handler still has to hand over.
    (The handlers modelled change their component before they send: ControllerComponent.cpp:38-56, UaTransportComponent.cpp:31-57, Modbus.cpp:9-63.)
    The queue is what ReactorModel.v proves of it (C07, C09): first in first out; a full one refuses the message, which is lost.
    OPC UA client traffic is left out: it creates and destroys none of the layers and its handlers send to no other reactor.  The
    controller's two seconds of sleep (ModbusTestController.cpp:336-340) are a pause of its thread. *)
From Verif Require Import Base QueueModel MsgStorageModel ModbusCodecModel ModbusClientModel ModbusServerModel ModbusCompModel ControllerModel RoutingModel.
Local Open Scope Z_scope.

(** The reactors of the Modbus component, of the OPC UA layers and of the controller in the deployment main.cpp:18 applies, Deployer.cpp:31-38 (the connector's reactor is not modelled here). *)
Inductive rx := RModbus | RUa | RCtrl.

(** Messages, common/msg/*.hpp. One header each in common/msg; identifiers MsgDefs.hpp:8-62. *)
Inductive amsg :=
| GStart | GStop                                          (* MsgControllerStartReq, MsgControllerStopReq *)
| GFromModbus (e : tev)                                   (* MsgModbusInitRsp, ...ReleaseRsp, ...ConfigRsp, ...ClientAduRsp, ...AduReq *)
| GInited (l : layer) | GReleased (l : layer)             (* MsgUa...InitRsp, MsgUa...ReleaseRsp *)
| GModbusInit (ns nc : Z) | GModbusConfig (items : list (Z * bool * list Z)) | GModbusRelease
| GBatch (its : list item)                                (* MsgModbusClientAduReq *)
| GReply (server session tid : Z) (ok : bool) (err : Z) (nbytes : Z) (data : list Z) (* MsgModbusAduRsp *)
| GInit (l : layer) | GConfig (l : layer) (addr : list Z) | GRelease (l : layer).

(** The identifier of a message, MsgDefs.hpp:8-62 and msgId() in common/msg/*.hpp. *)
Definition kind_of (m : amsg) : msgkind :=
  match m with
  | GStart => controllerStartReq | GStop => controllerStopReq
  | GFromModbus e => match e with TvInitRsp => modbusInitRsp | TvReleaseRsp => modbusReleaseRsp | TvConfigRsp => modbusConfigRsp
                                | TvReq _ => modbusAduReq | _ => modbusClientAduRsp end
  | GInited l => match l with LChannel => uaSecureChannelInitRsp | LTransport => uaTransportInitRsp | LService => uaServiceInitRsp end
  | GReleased l => match l with LChannel => uaSecureChannelReleaseRsp | LTransport => uaTransportReleaseRsp | LService => uaServiceReleaseRsp end
  | GModbusInit _ _ => modbusInitReq | GModbusConfig _ => modbusConfigReq | GModbusRelease => modbusReleaseReq
  | GBatch _ => modbusClientAduReq | GReply _ _ _ _ _ _ _ => modbusAduRsp
  | GInit l => match l with LChannel => uaSecureChannelInitReq | LTransport => uaTransportInitReq | LService => uaServiceInitReq end
  | GConfig l _ => match l with LChannel => uaSecureChannelConfigReq | LTransport => uaTransportConfigReq | LService => uaServiceConfigReq end
  | GRelease l => match l with LChannel => uaSecureChannelReleaseReq | LTransport => uaTransportReleaseReq | LService => uaServiceReleaseReq end
  end.

(** The reactor a message goes to (ReactorManager.cpp:23-32, Deployer.cpp:31-38); shown to agree with RoutingModel.v in
    AppProofs.v.  The initialisation and release responses of the channel and service layers name the channel component and reach
    its reactor, which has no handler for them. *)
Definition home (m : amsg) : rx :=
  match m with
  | GStart | GStop | GFromModbus _ | GInited LTransport | GReleased LTransport => RCtrl
  | GModbusInit _ _ | GModbusConfig _ | GModbusRelease | GBatch _ | GReply _ _ _ _ _ _ _ => RModbus
  | _ => RUa
  end.

(** The OPC UA transport: absent, without acceptor, listening, or with an acceptor whose listen() failed
    (UaTcpServer.cpp:42-46, Acceptor.cpp:42-79; its descriptor is -1). *)
Inductive tport := PNone | PIdle | PListen (addr : list Z) | PBroken.

(** A list of messages per reactor. Model only. *)
Record boxes := mkBox { x_m : list amsg; x_u : list amsg; x_c : list amsg }.
(** The messages of one reactor (model only). *)
Definition at_r (b : boxes) (r : rx) : list amsg := match r with RModbus => x_m b | RUa => x_u b | RCtrl => x_c b end.
(** Replacing the messages of one reactor (model only). *)
Definition set_r (b : boxes) (r : rx) (l : list amsg) : boxes :=
  match r with RModbus => mkBox l (x_u b) (x_c b) | RUa => mkBox (x_m b) l (x_c b) | RCtrl => mkBox (x_m b) (x_u b) l end.

(** The application: members ControllerComponent.hpp:88-89, ModbusComponent.hpp:57, UaTransportComponent.hpp:59, UaSecureChannelComponent.hpp:64, UaServiceComponent.hpp:51; messages in the reactors' queues and messages of a running handler not handed over yet. *)
Record app := mkApp {
  p_ctrl : ctrl;                     (* ControllerComponent.hpp: modbus, opcUa *)
  p_modbus : option modbus;          (* ModbusComponent.hpp: modbus *)
  p_port : tport;                    (* UaTransportComponent.hpp: uaTransport *)
  p_chan : bool; p_svc : bool;       (* UaSecureChannelComponent.hpp, UaServiceComponent.hpp: does the layer exist *)
  p_q : boxes; p_out : boxes
}.
(** Before the first command (main.cpp:14-20). *)
Definition app0 : app := mkApp ctrl0 None PNone false false (mkBox [] [] []) (mkBox [] [] []).

(** [kept]: the receiver's queue had room.  The other arguments are the answers of the environment to what a handler asks:
    [tok] a free timer, [acc] a free acceptor, [lis] bind and listen succeed; [e] of the Modbus reactor names the message
    with the answers it gets, or an event of one of its links and timers. *)
Inductive aev :=
| ACmd (start kept : bool)          (* main calls ReactorManager::send, main.cpp:22-29 *)
| APut (r : rx) (kept : bool)       (* the handler on [r] hands over its next message *)
| ATakeC (tok : bool)               (* the controller handles its next message *)
| ATakeU (acc lis : bool)           (* an OPC UA layer handles its next message *)
| ATakeM (e : mev)                  (* the Modbus component handles its next message *)
| ATick                             (* the controller's timer expires *)
| ANet (e : mev).                   (* a link, timer or acceptor of the Modbus component *)

(** Outcome of a step: impossible now, undefined behaviour, std::terminate, or a next state (model only). *)
Inductive ares := ADisabled | AUndefined | ATerminate | ANext (s : app).

(** What a handler of the controller (Modbus component) sends. ControllerComponent.hpp:62-84. *)
Definition k_sends (o : kout) : list amsg :=
  match o with
  | KoModbusInit a b => [GModbusInit a b]
  | KoModbusConfig its => [GModbusConfig its]
  | KoModbusRelease => [GModbusRelease]
  | KoBatch its => [GBatch its]
  | KoReply a b c d e f d' => [GReply a b c d e f d']
  | KoInit l => [GInit l] | KoConfig l a => [GConfig l a] | KoRelease l => [GRelease l]
  | _ => []
  end.
(** The same for the effects of a client: the responses, ModbusClient.cpp:82-186, 198-239. *)
Definition c_sends (o : cout) : list amsg :=
  match o with ORsp c t ok err d => [GFromModbus (TvRsp (mkCrsp c t err ok (Z.of_nat (length d)) d))] | _ => [] end.
(** The same for the effects of a server's session: the request passed on, ModbusSession.cpp:139-151. *)
Definition s_sends (id : Z) (o : sout) : list amsg :=
  match o with TReq uid tid f _ st n nb d => [GFromModbus (TvReq (mkMreq id uid tid f st n nb d))] | _ => [] end.
(** The same for the effects of the Modbus component, ModbusComponent.cpp:38-80, Modbus.cpp:20-96. *)
Definition m_sends (o : mout) : list amsg :=
  match o with
  | MInitRsp => [GFromModbus TvInitRsp] | MReleaseRsp => [GFromModbus TvReleaseRsp] | MConfigRsp _ => [GFromModbus TvConfigRsp]
  | MNoClient c t => [GFromModbus (TvRsp (mkCrsp c t 0 false 0 []))]
  | MCli _ _ os => flat_map c_sends os
  | MSrv id _ os => flat_map (s_sends id) os
  | _ => []
  end.

(** A controller message as the controller's model takes it; [None]: no handler. ControllerComponent.cpp:15-36. *)
Definition k_event (tok : bool) (m : amsg) : option kev :=
  match m with
  | GStart => Some (KStart tok) | GStop => Some KStop
  | GFromModbus e => Some (KModbus e)
  | GInited l => Some (KInited l) | GReleased _ => Some KOtherUa
  | _ => None
  end.
(** A handler of the controller runs: ControllerComponent.cpp and the controllers it calls; what it sends is handed over afterwards, one message at a time. ControllerComponent.cpp:38-163. *)
Definition k_handle (g : list Z) (s : app) (e : kev) (q : boxes) : ares :=
  match k_step g (p_ctrl s) e with
  | None => AUndefined
  | Some (c, os) => ANext (mkApp c (p_modbus s) (p_port s) (p_chan s) (p_svc s) q (set_r (p_out s) RCtrl (flat_map k_sends os)))
  end.

(** Do message and event of the Modbus component belong together?  The octets of a batch are those of ModbusCompModel.v, any
    octets here. Model only. *)
Definition same_cfg (x : Z * bool * list Z) (g : cfg) : bool := (g_id g =? fst (fst x)) && (g_mode g =? if snd (fst x) then 1 else 0).
(** The items of a configuration request are those the component's model is given, MsgModbusConfigReq.hpp. MsgModbusConfigReq.hpp:24-27. *)
Fixpoint same_cfgs (xs : list (Z * bool * list Z)) (gs : list cfg) : bool :=
  match xs, gs with [], [] => true | x :: xs', g :: gs' => same_cfg x g && same_cfgs xs' gs' | _, _ => false end.
(** The event given to the component's model belongs to the message taken, ModbusComponent.cpp handlers. ModbusComponent.cpp:38-80. *)
Definition m_event (m : amsg) (e : mev) : bool :=
  match m, e with
  | GModbusInit a b, MvInit a' b' => (a =? a') && (b =? b')
  | GModbusRelease, MvRelease => true
  | GModbusConfig xs, MvConfig gs => same_cfgs xs gs
  | GBatch _, MvAdu _ => true
  | GReply s ss tid ok err nb d, MvRsp s' p _ =>
      (s =? s') && (ss =? p_session p) && (tid =? p_tid p) && Bool.eqb ok (p_ok p) && (err =? p_error p) && (nb =? p_nbytes p) && zlist_eqb d (p_data p)
  | _, _ => false
  end.
(** std::terminate among the effects: a destructor threw (see [config_item] in ModbusCompModel.v).  Exceptions that leave a handler are caught, Reactor.cpp:165-178, and do not end the process. *)
Definition m_ends (os : list mout) : bool := existsb (fun o => match o with MTerminate => true | _ => false end) os.
(** A handler of the Modbus component runs, ModbusComponent.cpp, Modbus.cpp. ModbusComponent.cpp:38-80, Modbus.cpp:20-96. *)
Definition m_handle (s : app) (e : mev) (q : boxes) : ares :=
  match mb_step (p_modbus s) e with
  | None => AUndefined
  | Some (b, os) => if m_ends os then ATerminate
                    else ANext (mkApp (p_ctrl s) b (p_port s) (p_chan s) (p_svc s) q (set_r (p_out s) RModbus (flat_map m_sends os)))
  end.

(** The OPC UA layers: UaTransportComponent.cpp:31-57, UaSecureChannelComponent.cpp:33-59, UaServiceComponent.cpp:28-54 (the
    configuration of channel and service layers does nothing, UaSecureChannel.cpp:22-24, UaService.cpp:28-30), and
    UaTcpServer.cpp:42-46: the new acceptor is created, the old one destroyed, then listen().  Destroying an acceptor that
    does not listen throws out of a unique_ptr's deleter (Acceptor.cpp:36-40, 81-86) and ends the process.  An exception
    from createAcceptor or listen() is caught by Reactor.cpp:173-176. *)
Definition u_next (s : app) (port : tport) (chan svc : bool) (q : boxes) (out : list amsg) : ares :=
  ANext (mkApp (p_ctrl s) (p_modbus s) port chan svc q (set_r (p_out s) RUa out)).
(** The same of the OPC UA layers; [acc]: the acceptor pool has an entry, [lis]: listen() succeeds. UaTransportComponent.cpp:31-57, UaSecureChannelComponent.cpp:33-59, UaServiceComponent.cpp:28-54. *)
Definition u_handle (s : app) (m : amsg) (acc lis : bool) (q : boxes) : ares :=
  match m with
  | GInit LTransport => match p_port s with PBroken => ATerminate | _ => u_next s PIdle (p_chan s) (p_svc s) q [GInited LTransport] end
  | GRelease LTransport => match p_port s with PBroken => ATerminate | _ => u_next s PNone (p_chan s) (p_svc s) q [GReleased LTransport] end
  | GConfig LTransport a =>
      match p_port s with
      | PNone => u_next s PNone (p_chan s) (p_svc s) q []
      | p => if negb acc then u_next s p (p_chan s) (p_svc s) q []
             else match p with PBroken => ATerminate | _ => u_next s (if lis then PListen a else PBroken) (p_chan s) (p_svc s) q [] end
      end
  | GInit LChannel => u_next s (p_port s) true (p_svc s) q [GInited LChannel]
  | GInit LService => u_next s (p_port s) (p_chan s) true q [GInited LService]
  | GRelease LChannel => u_next s (p_port s) false (p_svc s) q [GReleased LChannel]
  | GRelease LService => u_next s (p_port s) (p_chan s) false q [GReleased LService]
  | _ => u_next s (p_port s) (p_chan s) (p_svc s) q []
  end.

(** ReactorManager::send up to the push, ReactorManager.cpp:23-32, Reactor.cpp:109-118. *)
Definition push_msg (q : boxes) (m : amsg) (kept : bool) : boxes := if kept then set_r q (home m) (at_r q (home m) ++ [m]) else q.

(** A reactor takes its next message (or event) when the handler before has ended. Reactor.cpp:140-162. *)
Definition idle (s : app) (r : rx) : bool := match at_r (p_out s) r with [] => true | _ => false end.
(** Reactor::onFdEvent, Reactor.cpp:133-163: the next message of reactor [r], if its thread is free. *)
Definition with_next (s : app) (r : rx) (f : amsg -> boxes -> ares) : ares :=
  if idle s r then match at_r (p_q s) r with [] => ADisabled | m :: rest => f m (set_r (p_q s) r rest) end else ADisabled.
(** One step of the application: a reactor takes a message or an event, or a message is handed over. Reactor.cpp:140-162 for taking, ReactorManager.cpp:23-32 for handing over. *)
Definition astep (g : list Z) (s : app) (e : aev) : ares :=
  match e with
  | ACmd start kept =>
      ANext (mkApp (p_ctrl s) (p_modbus s) (p_port s) (p_chan s) (p_svc s) (push_msg (p_q s) (if start then GStart else GStop) kept) (p_out s))
  | APut r kept =>
      match at_r (p_out s) r with
      | [] => ADisabled
      | m :: rest => ANext (mkApp (p_ctrl s) (p_modbus s) (p_port s) (p_chan s) (p_svc s) (push_msg (p_q s) m kept) (set_r (p_out s) r rest))
      end
  | ATakeC tok => with_next s RCtrl (fun m q => match k_event tok m with Some k => k_handle g s k q | None => ADisabled end)
  | ATakeU acc lis => with_next s RUa (fun m q => u_handle s m acc lis q)
  | ATakeM e => with_next s RModbus (fun m q => if m_event m e then m_handle s e q else ADisabled)
  | ATick => if idle s RCtrl && k_enabled (p_ctrl s) (KModbus TvTimer) then k_handle g s (KModbus TvTimer) (p_q s) else ADisabled
  | ANet e => if idle s RModbus then match e with MvCli _ _ | MvSrv _ _ => m_handle s e (p_q s) | _ => ADisabled end else ADisabled
  end.
