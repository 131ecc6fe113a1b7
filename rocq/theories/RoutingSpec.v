(** Who is meant to receive each message, stated by the role of the message: requests go to the component that does the work,
    replies to lifecycle requests and Modbus traffic for the application to the controller, data and channel messages to the neighbouring
    layer. *)
From Verif Require Import Base RoutingModel.

Definition comp_eq_dec (a b : comp) : {a = b} + {a <> b}.
Proof. decide equality. Defined.

Definition receiver (k : msgkind) : comp :=
  match k with
  | controllerStartReq | controllerStopReq => compController
  | connectorInitReq => compConnector
  | detectorInitReq => compDetector
  | modbusInitReq | modbusReleaseReq | modbusConfigReq | modbusClientAduReq | modbusAduRsp => compModbus
  | uaTransportInitReq | uaTransportReleaseReq | uaTransportConfigReq
  | uaSecuredMessageSendReq | uaConnectionReleaseReq | uaOpenSecureChannelRsp | uaCloseSecureChannelRsp => compUaTransport
  | uaSecureChannelInitReq | uaSecureChannelReleaseReq | uaSecureChannelConfigReq | uaSecuredMessageReceiveInd | uaConnectionReleaseInd
  | uaOpenSecureChannelReq | uaCloseSecureChannelReq | uaAssociateSecureChannelReq | uaEncodedMessageSendReq => compUaSecChannel
  | uaServiceInitReq | uaServiceReleaseReq | uaServiceConfigReq | uaEncodedMessageReceiveInd => compUaService
  | _ => compController
  end.

(** The container that lists a component first. *)
Fixpoint home (cs : list (list comp)) (c : comp) : option nat :=
  match cs with
  | [] => None
  | l :: rest => if in_dec comp_eq_dec c l then Some 0%nat else option_map S (home rest c)
  end.

(** Two components run on the same reactor. *)
Definition together (cs : list (list comp)) (c d : comp) : Prop :=
  exists r l, home cs c = Some r /\ nth_error cs r = Some l /\ In d l.

(** Lifecycle replies of the secure channel and service components. *)
Definition lifecycle_reply (k : msgkind) : bool :=
  match k with
  | uaSecureChannelInitRsp | uaSecureChannelConfigRsp | uaSecureChannelReleaseRsp
  | uaServiceInitRsp | uaServiceConfigRsp | uaServiceReleaseRsp => true
  | _ => false
  end.

(** Messages no component takes. *)
Definition unwanted (k : msgkind) : bool :=
  match k with detectorInitReq | detectorInitRsp | connectorInitRsp => true | _ => false end.

(** The messages that reach nobody in the shipped deployment. *)
Definition dropped (k : msgkind) : bool :=
  match k with
  | detectorInitReq | detectorInitRsp | connectorInitRsp
  | uaSecureChannelInitRsp | uaSecureChannelConfigRsp | uaSecureChannelReleaseRsp
  | uaServiceInitRsp | uaServiceConfigRsp | uaServiceReleaseRsp => true
  | _ => false
  end.
