(** Model of the OPC UA TCP transport of the server: ua/transport/server
    (UaTcpConnection*.cpp, UaTcpServer.cpp), common/ua/common/UaEntityPool.hpp. *)
From Verif Require Import Base QueueModel PoolModel ModbusCodecModel ModbusClientModel UaCodecModel.
Local Open Scope Z_scope.

(** ua/transport/server/UaTcpDefs.hpp:8-12. *)
Definition uaTimeout : Z := 30000000.
(** UaTcpDefs.hpp:8-12. *)
Definition uaBufSize : Z := 65536.
(** UaTcpDefs.hpp:8-12. *)
Definition uaMaxChunks : Z := 5000.

(** common/msg/types/UaChunkType.hpp:8-41; the enumerators are 0..3. *)
Definition chunk_octet (v : Z) : Z :=
  match v with 1 => 67 | 2 => 70 | 3 => 65 | _ => 0 end.
(** fromUint8, UaChunkType.hpp:8-41. *)
Definition chunk_of (o : Z) : Z :=
  if o =? 67 then 1 else if o =? 70 then 2 else if o =? 65 then 3 else 0.

(** UaSecMsgType.hpp and fromString, common/ua/common/types/UaMessageHeader.hpp:39-54. *)
Inductive kind := KMsg | KOpn | KClo.
(** The three letters compared with, UaMessageHeader.hpp:14-27, 39-54. *)
Definition kind_octets (k : kind) : list Z :=
  match k with KMsg => [77; 83; 71] | KOpn => [79; 80; 78] | KClo => [67; 76; 79] end.
(** fromString, UaMessageHeader.hpp:39-54. *)
Definition kind_of (m : list Z) : option kind :=
  match m with
  | a :: b :: c :: _ =>
      if (a =? 77) && (b =? 83) && (c =? 71) then Some KMsg
      else if (a =? 79) && (b =? 80) && (c =? 78) then Some KOpn
      else if (a =? 67) && (b =? 76) && (c =? 79) then Some KClo
      else None
  | _ => None
  end.

(** A message of the secure channel layer to a connection: MsgUaSecuredMessageSendReq,
    MsgUaOpenSecureChannelRsp, MsgUaCloseSecureChannelRsp (common/msg), which have the same members.
    [um_data]: the octets behind the message header. Lines 14-21 of each. *)
Record umsg := mkUm { um_conn : Z; um_chan : Z; um_chunk : Z; um_len : Z; um_data : list Z }.

(** Observable effects, each with the connection they concern. Model only. *)
Inductive uout :=
| UFwd (k : kind) (uid chan chunk len : Z) (data : list Z) (* secured message to the secure channel layer *)
| URelInd (uid chan : Z)                                   (* MsgUaConnectionReleaseInd *)
| UTx (uid : Z) (pkt : list Z) (taken : nat)               (* write(2) of [pkt]; the kernel took [taken] octets *)
| UArm (uid us : Z)                                        (* timer->start *)
| UDisarm (uid : Z)                                        (* timer->stop *)
| UFree (uid : Z)                                          (* link, timer and connection id released *)
| UThrow.                                                  (* exception leaves the event handler *)

(** The states, ua/transport/server/UaTcpConnection*.hpp. The class at line 8 of UaTcpConnectionInit.hpp, UaTcpConnectionReceiveHello.hpp, UaTcpConnectionConnected.hpp. *)
Inductive ust := UInit | UHello | UConn.
(** Equality of states (model only). *)
Definition ust_eqb (a b : ust) : bool :=
  match a, b with UInit, UInit | UHello, UHello | UConn, UConn => true | _, _ => false end.

(** Members, UaTcpConnection.hpp:50-62.  [t_timer], [t_link] as for the Modbus sessions:
    [None] no object; otherwise the armed interval, resp. whether the link has a descriptor. *)
Record tconn := mkT {
  t_st : ust; t_timer : option (option Z); t_link : option bool; t_rx : sdu; t_chan : option Z
}.
(** Assignment to the state. FsmBase.hpp:33. *)
Definition z_st c x := mkT x (t_timer c) (t_link c) (t_rx c) (t_chan c).
(** Assignment to the timer. UaTcpConnection.hpp:60. *)
Definition z_timer c x := mkT (t_st c) x (t_link c) (t_rx c) (t_chan c).
(** Assignment to the link. UaTcpConnection.hpp:59. *)
Definition z_link c x := mkT (t_st c) (t_timer c) x (t_rx c) (t_chan c).
(** Assignment to the receive buffer. UaTcpConnection.hpp:61. *)
Definition z_rx c x := mkT (t_st c) (t_timer c) (t_link c) x (t_chan c).
(** Assignment to the channel id. UaTcpConnection.hpp:62. *)
Definition z_chan c x := mkT (t_st c) (t_timer c) (t_link c) (t_rx c) x.

(** OpcUaSduBuffer::reset, OpcUaSduBuffer.cpp:66-69. *)
Definition sdu_reset (b : sdu) : sdu := mkSdu 0 0 (k_pkt b).

(** startTimer, stopTimer, UaTcpConnection.cpp:161-169; [None]: null timer. *)
Definition u_arm (uid : Z) (c : tconn) : option (tconn * list uout) :=
  match t_timer c with
  | Some _ => Some (z_timer c (Some (Some uaTimeout)), [UArm uid uaTimeout])
  | None => None
  end.
(** stopTimer, UaTcpConnection.cpp:166-169. *)
Definition u_disarm (uid : Z) (c : tconn) : option (tconn * list uout) :=
  match t_timer c with
  | Some _ => Some (z_timer c (Some None), [UDisarm uid])
  | None => None
  end.

(** onExit: UaTcpConnectionReceiveHello.cpp:40-43, UaTcpConnectionConnected.cpp:98-101,
    UaTcpConnectionState.hpp:42 otherwise. *)
Definition u_exit (uid : Z) (c : tconn) : option (tconn * list uout) :=
  match t_st c with UInit => Some (c, []) | UHello | UConn => u_disarm uid c end.

(** onEnter: UaTcpConnectionInit.cpp:8-11 with release, UaTcpConnection.cpp:148-154 (the return
    of the id to the pool is done by the server on [UFree]); UaTcpConnectionReceiveHello.cpp:10-14,
    UaTcpConnectionConnected.cpp:9-13 with receivePreaction, UaTcpConnection.cpp:171-174. *)
Definition u_enter (uid : Z) (c : tconn) : option (tconn * list uout) :=
  match t_st c with
  | UInit => Some (mkT UInit None None (t_rx c) None, [UFree uid])
  | UHello | UConn => match u_arm uid c with
                      | Some (c1, o) => Some (z_rx c1 (sdu_reset (t_rx c1)), o)
                      | None => None
                      end
  end.

(** transit, common/utils/FsmBase.hpp:22-35. *)
Definition u_transit (uid : Z) (c : tconn) (st : ust) : option (tconn * list uout) :=
  if ust_eqb (t_st c) st then Some (c, [])
  else match u_exit uid c with
       | None => None
       | Some (c1, o1) =>
           match u_enter uid (z_st c1 st) with
           | None => None
           | Some (c2, o2) => Some (c2, o1 ++ o2)
           end
       end.

(** Two calls in a row (model only: C++ sequencing). *)
Definition u_then (o : option (tconn * list uout)) (k : tconn -> option (tconn * list uout)) :=
  match o with
  | None => None
  | Some (c, o1) => match k c with None => None | Some (c', o2) => Some (c', o1 ++ o2) end
  end.

(** UaTcpConnection::Result, or an exception. UaTcpConnection.hpp:26-31. *)
Inductive ures := UrNoerror | UrDone | UrError | UrThrow.

(** receive(), UaTcpConnection.cpp:176-216.  [None]: undefined behaviour (null link, header
    outside the packet array). *)
Definition u_receive (c : tconn) (r : lrx) : option (tconn * ures) :=
  let b := t_rx c in
  if (1024 <? Z.of_nat (k_head b)) then Some (c, UrError)
  else match t_link c with
  | None => None
  | Some fd =>
      match (if fd then r else RxErr) with
      | RxNa => Some (c, UrNoerror)
      | RxErr => Some (c, UrError)
      | RxBytes bs0 =>
          let bs := firstn (length (k_pkt b) - k_head b) bs0 in
          let m := buf_write (k_pkt b) (k_head b) bs in
          let n := (k_head b + length bs)%nat in
          let c1 := z_rx c (mkSdu (k_tail b) n m) in
          if (Z.of_nat n <? 8) then Some (c1, UrNoerror)
          else match getMsgSizeFromHdr (skipn (k_tail b) m) with
               | None => None
               | Some size =>
                   if (Z.of_nat n <? size) then Some (c1, UrNoerror)
                   else if negb (Z.of_nat n =? size) then Some (c1, UrError)
                   else Some (c1, UrDone)
               end
      end
  end.

(** The transmit buffer: encode with [e], append [data], set the size field, UaTcpConnection.cpp:44-57.
    The indeterminate octets of the fresh buffer are 0 here; only written octets are sent.
    [None]: write outside the packet array. *)
Definition tx_packet (e : wr) (data : list Z) : option (list Z) :=
  match e (mkSdu 0 0 (repeat 0 (Z.to_nat maxPacketLen))) with
  | None => None
  | Some b =>
      let n := (k_head b + length data)%nat in
      if (maxPacketLen <? Z.of_nat n) then None
      else Some (firstn n (setPayloadSizeToHdr (buf_write (k_pkt b) (k_head b) data) (Z.of_nat n)))
  end.

(** Link::send, common/reactor/Link.cpp:101-113: [wr = None]: write(2) returned -1; [Some n]: it took
    [n] octets, possibly fewer than given, which send reports as success.  [None]: null link. *)
Definition u_write (uid : Z) (c : tconn) (pkt : list Z) (w : option nat) : option (list uout * bool) :=
  match t_link c with
  | None => None
  | Some fd => match (if fd then w else None) with
               | None => Some ([], false)
               | Some n => Some ([UTx uid pkt (Nat.min n (length pkt))], true)
               end
  end.

(** sendAcknowledge, UaTcpConnection.cpp:248-279. *)
Definition ack_octets : wr :=
  enc_mhdr (mkMh [65; 67; 75] 70 0) ;;
  enc_ack (mkAck 0 uaBufSize uaBufSize (u32 (uaMaxChunks * uaBufSize)) uaMaxChunks).
(** UaTcpConnection.cpp:248-279. *)
Definition u_ack (uid : Z) (c : tconn) (w : option nat) : option (list uout * ures) :=
  match tx_packet ack_octets [] with
  | None => None
  | Some pkt => match u_write uid c pkt w with
                | None => None
                | Some (o, ok) => Some (o, if ok then UrDone else UrError)
                end
  end.

(** [codec >> hdr >> hello], UaTcpConnection.cpp:239-241. *)
Definition dec_hello_msg : rd hello := do h <- dec_mhdr mhdr0; dec_hello hello0.

(** receiveHello, UaTcpConnection.cpp:218-246: the type octets are not looked at.  The only throwing
    point is the length of the url, 32 octets after the read cursor, which therefore stays there. *)
Definition u_hello (uid : Z) (c : tconn) (r : lrx) (w : option nat) : option (tconn * list uout * ures) :=
  match u_receive c r with
  | None => None
  | Some (c1, UrDone) =>
      match dec_hello_msg (t_rx c1) with
      | DOk _ b => match u_ack uid c1 w with
                   | None => None
                   | Some (o, res) => Some (z_rx c1 b, o, res)
                   end
      | DThrow => let b := t_rx c1 in
                  Some (z_rx c1 (mkSdu (k_tail b + 32) (k_head b) (k_pkt b)), [UThrow], UrThrow)
      | DAbort | DOob => None
      end
  | Some (c1, res) => Some (c1, [], res)
  end.

(** Octets available for data in a message of common/msg (the message header takes 24 of
    the 4096 octets of MsgStore). MsgStore.hpp:27, MaxMsgSize.hpp:6, e.g. MsgUaSecuredMessageReceiveInd.hpp:14-21. *)
Definition msgRoom : Z := 4072.

(** receiveSecuredMessage, UaTcpConnection.cpp:281-356.  The length handed on is the size of the whole
    packet, and that many octets are copied from behind the header.  [None]: copy beyond
    the message or the packet. *)
Definition u_secured (uid : Z) (c : tconn) (r : lrx) : option (tconn * list uout * ures) :=
  match u_receive c r with
  | None => None
  | Some (c1, UrDone) =>
      let m := skipn (k_tail (t_rx c1)) (k_pkt (t_rx c1)) in
      match dec_uhdr uhdr0 (t_rx c1) with
      | DOk h b =>
          let c2 := z_rx c1 b in
          let fwd k :=
            if (msgRoom <? Z.of_nat (k_head b)) then None
            else Some (c2, [UFwd k uid (uh_chan h) (chunk_of (uh_final h)) (Z.of_nat (k_head b))
                                 (firstn (k_head b) (skipn (k_tail b) (k_pkt b)))], UrDone) in
          match kind_of m with
          | Some KOpn => fwd KOpn
          | Some k => match t_chan c with
                      | Some a => if a =? uh_chan h then fwd k else Some (c2, [], UrError)
                      | None => Some (c2, [], UrError)
                      end
          | None => Some (c2, [], UrError)
          end
      | DThrow | DAbort | DOob => None
      end
  | Some (c1, res) => Some (c1, [], res)
  end.

(** receive(Msg...), UaTcpConnection.cpp:36-126.  [None]: null link, copy beyond the message
    or the packet. *)
Definition u_message (uid : Z) (k : kind) (c : tconn) (m : umsg) (w : option nat) : option (tconn * list uout * ures) :=
  let c1 := match k with KOpn => z_chan c (Some (um_chan m)) | _ => c end in
  if match t_chan c1 with Some a => a =? um_chan m | None => false end then
    if negb (um_len m <=? Z.of_nat (length (um_data m))) then None
    else match tx_packet (enc_uhdr (mkUh (kind_octets k) (chunk_octet (um_chunk m)) 0 (um_chan m)))
                         (firstn (Z.to_nat (um_len m)) (um_data m)) with
         | None => None
         | Some pkt => match u_write uid c1 pkt w with
                       | None => None
                       | Some (o, ok) => Some (c1, o, if ok then UrDone else UrError)
                       end
         end
  else Some (c1, [], UrError).

(** sendUaConnectionReleaseInd, UaTcpConnection.cpp:23-34. *)
Definition u_relind (uid : Z) (c : tconn) : list uout :=
  match t_chan c with Some a => [URelInd uid a] | None => [] end.
(** Indication, then transit to Init: UaTcpConnectionConnected.cpp:29-30, 46-47, 63-64, 80-81, 94-95. *)
Definition u_fail (uid : Z) (c : tconn) : option (tconn * list uout) :=
  u_then (Some (c, u_relind uid c)) (fun c => u_transit uid c UInit).

(** onAcceptLink: UaTcpConnectionInit.cpp:13-18; the id was just taken from the pool.  [tok]: the reactor has a free timer,
    otherwise createTimer (common/reactor/Reactor.cpp:57-72) throws. *)
Definition u_accept (uid : Z) (c : tconn) (tok : bool) : option (tconn * list uout) :=
  match t_st c with
  | UInit =>
      let c1 := z_link c (Some true) in
      if negb tok then Some (c1, [UThrow]) else u_transit uid (z_timer c1 (Some None)) UHello
  | _ => Some (c, [])
  end.

(** onDataReceived: UaTcpConnectionReceiveHello.cpp:16-33, UaTcpConnectionConnected.cpp:15-34. *)
Definition u_data (uid : Z) (c : tconn) (r : lrx) (w : option nat) : option (tconn * list uout) :=
  match t_st c with
  | UInit => Some (c, [])
  | UHello =>
      match u_hello uid c r w with
      | None => None
      | Some (c1, o, UrDone) => u_then (Some (c1, o)) (fun c => u_transit uid c UConn)
      | Some (c1, o, UrError) => u_then (Some (c1, o)) (fun c => u_transit uid c UInit)
      | Some (c1, o, _) => Some (c1, o)
      end
  | UConn =>
      match u_secured uid c r with
      | None => None
      | Some (c1, o, UrDone) =>
          u_then (Some (c1, o)) (fun c => match u_arm uid c with
                                          | Some (c2, o2) => Some (z_rx c2 (sdu_reset (t_rx c2)), o2)
                                          | None => None
                                          end)
      | Some (c1, o, UrError) => u_then (Some (c1, o)) (u_fail uid)
      | Some (c1, o, _) => Some (c1, o)
      end
  end.

(** onReceive: UaTcpConnectionConnected.cpp:36-90; logged and ignored in the other states. *)
Definition u_msg (uid : Z) (k : kind) (c : tconn) (m : umsg) (w : option nat) : option (tconn * list uout) :=
  match t_st c with
  | UConn =>
      match u_message uid k c m w with
      | None => None
      | Some (c1, o, UrDone) => Some (c1, o)
      | Some (c1, o, _) => u_then (Some (c1, o)) (u_fail uid)
      end
  | _ => Some (c, [])
  end.
(** onReceive(MsgUaConnectionReleaseReq), UaTcpConnectionConnected.cpp:87-90; ignored in the other states. *)
Definition u_release (uid : Z) (c : tconn) : option (tconn * list uout) :=
  match t_st c with UConn => u_transit uid c UInit | _ => Some (c, []) end.

(** onTimer: UaTcpConnectionReceiveHello.cpp:35-38, UaTcpConnectionConnected.cpp:92-96; the timer is one-shot. *)
Definition u_timer (uid : Z) (c0 : tconn) : option (tconn * list uout) :=
  let c := z_timer c0 (match t_timer c0 with Some _ => Some None | None => None end) in
  match t_st c with
  | UInit => Some (c, [])
  | UHello => u_transit uid c UInit
  | UConn => u_fail uid c
  end.

(** LinkEvent::error (UaTcpConnection.cpp:141-143): only logged; the link has closed its descriptor. *)
Definition u_error (c : tconn) : tconn :=
  z_link c (match t_link c with Some _ => Some false | None => None end).

(** * UaTcpServer *)

Definition maxConn : nat := 32.   (* UaEntityPool.hpp:15 *)
Record tserver := mkTs { d_pool : pool; d_conn : list tconn }.

(** Events.  [EvAccept lok aok tok]: the listening socket is readable; the reactor has a free link,
    accepting succeeds, the reactor has a free timer. [w]: result of write(2) should the handler call it. Where they enter: UaTcpServer.cpp:18-68. *)
Inductive tev :=
| EvAccept (lok aok tok : bool)
| EvData (uid : Z) (r : lrx) (w : option nat)
| EvError (uid : Z)
| EvTimer (uid : Z)
| EvMsg (k : kind) (m : umsg) (w : option nat)   (* SendReq, OpenSecureChannelRsp, CloseSecureChannelRsp *)
| EvRelease (uid : Z).                           (* MsgUaConnectionReleaseReq *)

(** Constructor, UaTcpServer.cpp:7-12, UaEntityPool.hpp:21-32; [b0]: indeterminate packet octets;
    [n]: number of connections, 32. *)
Definition tsrv_new (n : nat) (b0 : list Z) : option tserver :=
  option_map (fun p => mkTs p (repeat (mkT UInit None None (mkSdu 0 0 b0) None) n)) (pool_new 1 n).

(** release, UaTcpServer.cpp:48-51, for the releases among the effects. *)
Fixpoint tsrv_release (p : pool) (os : list uout) : option pool :=
  match os with
  | [] => Some p
  | UFree u :: r => match pool_release p u with Some p' => tsrv_release p' r | None => None end
  | _ :: r => tsrv_release p r
  end.

(** Run [k] on connection [uid] (UaEntityPool.hpp:53-56: [None] if the id is outside 1..32), then hand its
    releases to the pool.  In the code the release happens inside the handler; nothing between it
    and the end of the handler uses the pool. *)
Definition tsrv_on (v : tserver) (uid : Z) (k : tconn -> option (tconn * list uout)) : option (tserver * list uout) :=
  match pool_get (d_pool v) uid with
  | None => None
  | Some i =>
      match nth_error (d_conn v) i with
      | None => None
      | Some s =>
          match k s with
          | None => None
          | Some (s', os) =>
              match tsrv_release (d_pool v) os with
              | None => None
              | Some p' => Some (mkTs p' (upd (d_conn v) i s'), os)
              end
          end
      end
  end.

(** UaTcpServer.cpp:18-40, onAcceptEvent 53-68: createLink and accept come before the
    allocation of the id; when they throw, or the pool is exhausted, only the link object is dropped. *)
Definition tsrv_step (v : tserver) (e : tev) : option (tserver * list uout) :=
  match e with
  | EvAccept lok aok tok =>
      if negb (lok && aok) then Some (v, [UThrow])
      else match pool_alloc (d_pool v) with
           | None => None
           | Some (p, None) => Some (mkTs p (d_conn v), [])
           | Some (p, Some uid) => tsrv_on (mkTs p (d_conn v)) uid (fun c => u_accept uid c tok)
           end
  | EvData uid r w => tsrv_on v uid (fun c => u_data uid c r w)
  | EvError uid => tsrv_on v uid (fun c => Some (u_error c, []))
  | EvTimer uid => tsrv_on v uid (fun c => u_timer uid c)
  | EvMsg k m w => tsrv_on v (um_conn m) (fun c => u_msg (um_conn m) k c m w)
  | EvRelease uid => tsrv_on v uid (fun c => u_release uid c)
  end.

(** Several events (model only). *)
Fixpoint tsrv_run (v : tserver) (es : list tev) : option (tserver * list (tev * list uout)) :=
  match es with
  | [] => Some (v, [])
  | e :: r =>
      match tsrv_step v e with
      | None => None
      | Some (v1, os) => match tsrv_run v1 r with
                         | None => None
                         | Some (v2, tr) => Some (v2, (e, os) :: tr)
                         end
      end
  end.

(** What the reactor can deliver: data and errors only to a link with a descriptor, timer events
    only to an armed timer. UaEntityPool.hpp:53-56. *)
Definition conn_of (v : tserver) (uid : Z) : option tconn :=
  match pool_get (d_pool v) uid with Some i => nth_error (d_conn v) i | None => None end.
(** The events that can happen now (Reactor.cpp:133-163, Link.cpp:140-175, Timer.cpp). *)
Definition tsrv_enabled (v : tserver) (e : tev) : bool :=
  match e with
  | EvData uid _ _ | EvError uid =>
      (1 <=? uid) && (uid <? 33) &&
      match conn_of v uid with Some s => match t_link s with Some true => true | _ => false end | None => false end
  | EvTimer uid =>
      (1 <=? uid) && (uid <? 33) &&
      match conn_of v uid with Some s => match t_timer s with Some (Some _) => true | _ => false end | None => false end
  | _ => true
  end.
