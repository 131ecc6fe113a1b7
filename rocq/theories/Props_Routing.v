(** C11, C12: routing of messages to components. *)
From Verif Require Import Base QueueModel MsgStorageModel ReactorModel RoutingModel RoutingSpec RoutingProofs.
Local Open Scope Z_scope.

(** C11.  For every registration history and every destination id, a message
    goes to exactly one reactor (that of the first component registered under
    the id) or to none. *)
Theorem C11_routed_to_first_registered : forall (l : list (Z * nat)) (cid : Z),
  m_send (fold_left (fun m '(c, r) => add_component m c r) l m_empty) cid =
  match first_registered l cid with Some r => [r] | None => [] end.
Proof. exact routing. Qed.
Print Assumptions C11_routed_to_first_registered.

Example C11_case : first_registered [(3, 0%nat); (5, 1%nat); (3, 2%nat)] 3 = Some 0%nat.
Proof. reflexivity. Qed.

(** In the shipped deployment every message whose destination component
    handles it is handled by that component. *)
Theorem C11_deployed_messages_handled : forall k, In k (registered (msg_dst k)) ->
  is_built (msg_dst k) = true -> handled_by depCpu3 k = Some (msg_dst k).
Proof. exact cpu3_handled. Qed.
Print Assumptions C11_deployed_messages_handled.

Example C11_deployed_case : In uaOpenSecureChannelReq (registered (msg_dst uaOpenSecureChannelReq)).
Proof. cbn. tauto. Qed.

(** Which message reaches whom in the shipped deployment: every message the component it is meant for, except nine that reach nobody. *)
Theorem C11_every_message : forall k, handled_by depCpu3 k = if dropped k then None else Some (receiver k).
Proof. intros k. destruct k; vm_compute; reflexivity. Qed.
Print Assumptions C11_every_message.
Example C11_every_case : dropped uaEncodedMessageReceiveInd = false /\ receiver uaEncodedMessageReceiveInd = compUaService.
Proof. split; reflexivity. Qed.

(** Under every placement of components on reactors, not just the shipped
    ones: a message is handled by nobody but the component meant for it, and
    it is handled if that component is placed anywhere. *)
Theorem C11_any_placement : forall cs k,
  (forall c, handled_in cs k = Some c -> c = receiver k) /\
  (unwanted k = false -> lifecycle_reply k = false -> In (receiver k) (concat cs) -> handled_in cs k = Some (receiver k)) /\
  (unwanted k = true -> handled_in cs k = None).
Proof.
  intros cs k. split; [apply reaches_only_receiver|]. split; [apply placed_handled|apply unwanted_lost].
Qed.
Print Assumptions C11_any_placement.
Example C11_any_case :
  handled_in [[compUaService]; [compUaTransport]; [compUaSecChannel; compUaTransport]] uaConnectionReleaseReq = Some compUaTransport.
Proof. apply (C11_any_placement _ uaConnectionReleaseReq); [reflexivity..|cbn; tauto]. Qed.

(** C12 is false: of the messages the controller registers a handler for,
    exactly the six secure-channel and service lifecycle replies never reach it. *)
Theorem C12_lifecycle_replies_refuted :
  exists k, In k (registered compController) /\ handled_by depCpu3 k <> Some compController.
Proof. exists uaServiceInitRsp. split; [cbn; tauto|vm_compute; discriminate]. Qed.
Print Assumptions C12_lifecycle_replies_refuted.

Theorem C12_lifecycle_replies_partial : forall k, In k (registered compController) ->
  (handled_by depCpu3 k = Some compController <->
   ~ In k [uaSecureChannelInitRsp; uaSecureChannelConfigRsp; uaSecureChannelReleaseRsp;
           uaServiceInitRsp; uaServiceConfigRsp; uaServiceReleaseRsp]).
Proof. exact lost_iff. Qed.
Print Assumptions C12_lifecycle_replies_partial.

(** Exactly when the six are delivered, over all placements: when the
    controller shares a reactor with the (first) secure channel component. *)
Theorem C12_any_placement_partial : forall cs k, lifecycle_reply k = true ->
  (handled_in cs k = Some compController <-> together cs compUaSecChannel compController).
Proof. exact replies_need. Qed.
Print Assumptions C12_any_placement_partial.
Example C12_any_case : handled_in [[compModbus]; [compUaSecChannel; compController]] uaServiceInitRsp = Some compController.
Proof. apply C12_any_placement_partial; [reflexivity|]. exists 1%nat, [compUaSecChannel; compController]. cbn. tauto. Qed.
