(** Model of the assembled OPC UA server: the transport, the secure channels and the services on the one-threaded
    reactor that Deployer.cpp:31-38 gives them, exchanging messages through the queue of that reactor
    (common/reactor/Reactor.cpp:109-154). *)
From Verif Require Import Base PoolModel ModbusClientModel UaCodecModel UaTcpModel UaChanModel UaServiceModel.
Local Open Scope Z_scope.

(** Messages between the three components (common/msg). Model only. *)
Inductive imsg :=
| IFwd (k : kind) (m : umsg)   (* transport to channels: SecuredMessageReceiveInd, OpenSecureChannelReq, CloseSecureChannelReq *)
| IRelInd (conn ch : Z)        (* transport to channels: ConnectionReleaseInd *)
| ITx (k : kind) (m : umsg)    (* channels to transport: SecuredMessageSendReq, OpenSecureChannelRsp, CloseSecureChannelRsp *)
| IRelReq (conn : Z)           (* channels to transport: ConnectionReleaseReq *)
| IInd (m : emsg)              (* channels to services: EncodedMessageReceiveInd *)
| ISend (m : emsg)             (* services to channels: EncodedMessageSendReq *)
| IAssoc (h : ehdr).           (* services to channels: AssociateSecureChannelReq *)

(** The messages among the effects of a handler, in the order they are sent: UaTransportComponent.hpp, UaSecureChannelComponent.hpp,
    UaServiceComponent.hpp (the [send] overrides, all through ComponentBase to Reactor::send). UaTransportComponent.hpp:46-52. *)
Definition t_msgs (os : list uout) : list imsg :=
  flat_map (fun o => match o with
                     | UFwd k uid ch ck len d => [IFwd k (mkUm uid ch ck len d)]
                     | URelInd uid ch => [IRelInd uid ch]
                     | _ => []
                     end) os.
(** The same for the channel layer, UaSecureChannelComponent.cpp. UaSecureChannelComponent.hpp:50-57. *)
Definition c_msgs (os : list cout) : list imsg :=
  flat_map (fun o => match o with CTx k m => [ITx k m] | CInd m => [IInd m] | CRelReq conn => [IRelReq conn] | _ => [] end) os.
(** The same for the services, UaServiceComponent.cpp. UaServiceComponent.hpp:40-44. *)
Definition s_msgs (os : list sout) : list imsg :=
  flat_map (fun o => match o with SSend m => [ISend m] | SAssoc h => [IAssoc h] | _ => [] end) os.

(** Reactor::send, Reactor.cpp:109-118, drops a message when the queue is full.  The queue is shared with whatever else
    runs on the reactor, so the model leaves open which messages are lost: [false] in [keep] loses one. *)
Fixpoint kept (keep : list bool) (ms : list imsg) : list imsg :=
  match ms with
  | [] => []
  | m :: r => match keep with
              | [] => m :: r
              | b :: k => if b then m :: kept k r else kept k r
              end
  end.

(** The three layers and the reactor's queue. The members behind UaTransport.hpp, UaSecureChannel.hpp, UaService.hpp; the queue is MsgMemStorage.cpp (C05). *)
Record usys := mkY { y_t : tserver; y_c : csrv; y_s : option svc; y_q : list imsg }.

(** After initialisation: UaTransportComponent.cpp:32-40, UaSecureChannelComponent.cpp, UaServiceComponent.cpp:28-36. *)
Definition y_new (b0 : list Z) (ini : list (Z * Z)) : option usys :=
  match tsrv_new maxConn b0, csrv_new ini, svc_new with
  | Some t, Some c, Some s => Some (mkY t c (Some s) [])
  | _, _, _ => None
  end.

(** What a handler may find: result of write(2), indeterminate contents of its receive buffer, rand(), the clock. Model only. *)
Record oracle := mkO { o_w : option nat; o_j : list Z; o_rnd : Z; o_t1 : Z; o_t2 : Z }.

(** An event of the outside world at the transport, or the delivery of the first message of the queue
    (Reactor::onFdEvent, Reactor.cpp:133-154). *)
Inductive yev := YNet (e : tev) (keep : list bool) | YMsg (o : oracle) (keep : list bool).

(** One handler call: layer, what it was given, its effects. Model only. *)
Inductive yrec := RT (e : tev) (os : list uout) | RC (e : cev) (os : list cout) | RS (e : sev) (os : list sout).

(** A handler of the transport runs. UaTransportComponent.cpp:59-89. *)
Definition y_tsrv (y : usys) (q : list imsg) (e : tev) (keep : list bool) : option (usys * yrec) :=
  match tsrv_step (y_t y) e with
  | Some (v, os) => Some (mkY v (y_c y) (y_s y) (q ++ kept keep (t_msgs os)), RT e os)
  | None => None
  end.
(** A handler of the channel layer runs. UaSecureChannelComponent.cpp:61-106. *)
Definition y_csrv (y : usys) (q : list imsg) (e : cev) (keep : list bool) : option (usys * yrec) :=
  match csrv_step (y_c y) e with
  | Some (v, os) => Some (mkY (y_t y) v (y_s y) (q ++ kept keep (c_msgs os)), RC e os)
  | None => None
  end.
(** A handler of the services runs. UaServiceComponent.cpp:56-62. *)
Definition y_svc (y : usys) (q : list imsg) (e : sev) (keep : list bool) : option (usys * yrec) :=
  match svc_step (y_s y) e with
  | Some (v, os) => Some (mkY (y_t y) (y_c y) v (q ++ kept keep (s_msgs os)), RS e os)
  | None => None
  end.

(** The handlers the components register: UaTransportComponent.cpp:18-30, UaSecureChannelComponent.cpp, UaServiceComponent.cpp:18-26. *)
Definition y_deliver (y : usys) (m : imsg) (q : list imsg) (o : oracle) (keep : list bool) : option (usys * yrec) :=
  match m with
  | IFwd KOpn x => y_csrv y q (CvOpen x (o_j o) (o_rnd o) (o_t1 o) (o_t2 o)) keep
  | IFwd KClo x => y_csrv y q (CvClose x (o_j o) (o_t1 o)) keep
  | IFwd KMsg x => y_csrv y q (CvMsg x (o_j o)) keep
  | IRelInd conn ch => y_csrv y q (CvRelInd conn ch) keep
  | IAssoc h => y_csrv y q (CvAssoc h) keep
  | ISend x => y_csrv y q (CvSend x) keep
  | ITx k x => y_tsrv y q (EvMsg k x (o_w o)) keep
  | IRelReq conn => y_tsrv y q (EvRelease conn) keep
  | IInd x => y_svc y q (SvInd x (o_j o) (o_t1 o)) keep
  end.

(** [None]: undefined behaviour in the handler called. Reactor.cpp:133-163, one call of a handler. *)
Definition y_step (y : usys) (e : yev) : option (usys * yrec) :=
  match e with
  | YNet e keep => y_tsrv y (y_q y) e keep
  | YMsg o keep => match y_q y with [] => None | m :: q => y_deliver y m q o keep end
  end.

(** Events of the outside world are those of sockets and timers; a delivery needs a message. Model only. *)
Definition y_enabled (y : usys) (e : yev) : bool :=
  match e with
  | YNet e _ => match e with EvMsg _ _ _ | EvRelease _ => false | _ => tsrv_enabled (y_t y) e end
  | YMsg _ _ => match y_q y with [] => false | _ => true end
  end.
