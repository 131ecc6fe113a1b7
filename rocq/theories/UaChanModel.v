(** Model of the OPC UA secure channel layer of the server: ua/securechannel/channel
    (UaServerSecureChannel*.cpp), ua/securechannel/UaSecureChannel.cpp. *)
From Verif Require Import Base QueueModel PoolModel UaCodecModel UaTcpModel.
Local Open Scope Z_scope.

(** common/msg/types/UaSessionId.hpp:10 *)
Definition invalidSuid : Z := 2147483647.
(** UaEncodedMessageHdr, common/msg/types/UaEncodedMessageHdr.hpp:11-17. *)
Record ehdr := mkEh { e_conn : Z; e_chan : Z; e_req : Z; e_sess : Z }.
(** MsgUaEncodedMessageReceiveInd, MsgUaEncodedMessageSendReq (common/msg), which have the same members. MsgUaEncodedMessageReceiveInd.hpp:12-16, MsgUaEncodedMessageSendReq.hpp:12-16, UaEncodedMessageHdr.hpp:11-17. *)
Record emsg := mkEm { em_hdr : ehdr; em_len : Z; em_data : list Z }.
(** Octets such a message can carry: its header takes 32 of the 4096 octets of MsgStore. MsgStore.hpp:27, MaxMsgSize.hpp:6. *)
Definition emsgRoom : Z := 4064.

(** Observable effects. Model only. *)
Inductive cout :=
| CTx (k : kind) (m : umsg)   (* MsgUaSecuredMessageSendReq, MsgUaOpenSecureChannelRsp, MsgUaCloseSecureChannelRsp to the transport *)
| CInd (m : emsg)             (* MsgUaEncodedMessageReceiveInd to the services *)
| CRelReq (conn : Z)          (* MsgUaConnectionReleaseReq to the transport *)
| CFree (chan : Z)            (* channel id given back *)
| CThrow.                     (* exception leaves the message handler *)

(** Members, UaServerSecureChannel.hpp:48-58, without the unused storedRequestId and
    storedRequestedLifetime; [h_est]: state Established, otherwise Init. *)
Record chan := mkCh { h_est : bool; h_tx : Z; h_rx : Z; h_tok : Z; h_conn : option Z; h_sess : option Z }.

(** The receive buffer: [len] octets of the message, behind them the indeterminate contents [j] of the
    local array (UaServerSecureChannel.cpp:41-43, 100-102, 177-179). [None]: copy beyond message or array. *)
Definition rx_load (len : Z) (data j : list Z) : option sdu :=
  if (0 <=? len) && (len <=? Z.of_nat (length data)) && (len <=? Z.of_nat (length j))
  then Some (mkSdu 0 (Z.to_nat len) (firstn (Z.to_nat len) data ++ skipn (Z.to_nat len) j))
  else None.

(** The transmit buffer after encoding [e] and appending [data], copied into a message. [None]: write
    outside the packet array or the message. UaServerSecureChannel.cpp:58-86, 128-151, 228-250. *)
Definition tx_octets (e : wr) (data : list Z) : option (list Z) :=
  match e (mkSdu 0 0 (repeat 0 (Z.to_nat maxPacketLen))) with
  | None => None
  | Some b =>
      let n := (k_head b + length data)%nat in
      if (maxPacketLen <? Z.of_nat n) || (msgRoom <? Z.of_nat n) then None
      else Some (firstn (k_head b) (k_pkt b) ++ data)
  end.

(** [UaChunkType::fromUint8('F')]. UaChunkType.hpp:32-37. *)
Definition chunkF : Z := chunk_of 70.
(** A message to the transport: connection, channel, chunk type 'F', octets, UaServerSecureChannel.cpp:80-90, 145-153, 244-252. *)
Definition to_conn (conn uid : Z) (octs : list Z) : umsg := mkUm conn uid chunkF (Z.of_nat (length octs)) octs.

(** "http://opcfoundation.org/UA/SecurityPolicy#None", UaServerSecureChannel.cpp:62. *)
Definition policyNone : ustr :=
  [104; 116; 116; 112; 58; 47; 47; 111; 112; 99; 102; 111; 117; 110; 100; 97; 116; 105; 111; 110; 46; 111; 114; 103; 47; 85; 65; 47;
   83; 101; 99; 117; 114; 105; 116; 121; 80; 111; 108; 105; 99; 121; 35; 78; 111; 110; 101].

(** UaServerSecureChannel.cpp:45-52: the decoded type id is not looked at. *)
Definition dec_open_msg : rd (seqhdr * openreq) :=
  do s <- dec_sechdr sechdr0; do q <- dec_seqhdr; do r <- dec_cont dec_openreq (cont_new 446 openreq0); ret (q, co_msg r).

(** UaServerSecureChannel.cpp:61-78. *)
Definition open_rsp_octets (uid seq req handle token t1 t2 life : Z) : wr :=
  enc_sechdr (mkSh policyNone [] []) ;; enc_seqhdr (mkSq seq req) ;;
  enc_cont enc_openrsp (cont_new 449 (mkOr (mkRp t1 handle 0 diag0 [] extobj0) 0 (mkCt uid token t2 life) [])).

(** receive(MsgUaOpenSecureChannelReq), UaServerSecureChannel.cpp:39-90, in UaServerSecureChannelInit.cpp:13-24
    (the result is always done).  [rnd]: what rand() returns; [t1], [t2]: the clock.
    When decoding throws nothing was assigned yet and the state stays Init. *)
Definition c_open (uid : Z) (c : chan) (m : umsg) (j : list Z) (rnd t1 t2 : Z) : option (chan * list cout) :=
  if h_est c then Some (c, [])
  else match rx_load (um_len m) (um_data m) j with
  | None => None
  | Some b =>
      match dec_open_msg b with
      | DOk (q, r) _ =>
          let token := rnd mod 2147483647 in
          match tx_octets (open_rsp_octets uid (h_tx c) (sq_req q) (rq_handle (oq_hdr r)) token t1 t2 (oq_life r)) [] with
          | None => None
          | Some octs => Some (mkCh true (u32 (h_tx c + 1)) (sq_num q) token (Some (um_conn m)) (h_sess c),
                               [CTx KOpn (to_conn (um_conn m) uid octs)])
          end
      | DThrow => Some (c, [CThrow])
      | DAbort | DOob => None
      end
  end.

(** transit to Init, common/utils/FsmBase.hpp:22-35, with onEnter, UaServerSecureChannelInit.cpp:8-11, and release,
    UaServerSecureChannel.cpp:23-29 (the pool gets the id back on [CFree]). *)
Definition c_release (uid : Z) (c : chan) : chan * list cout := (mkCh false 0 (h_rx c) (h_tok c) None None, [CFree uid]).

(** The comparison with the channel's connection, UaServerSecureChannel.cpp:94, 159, 171, 217. *)
Definition own_conn (c : chan) (conn : Z) : bool := match h_conn c with Some a => a =? conn | None => false end.

(** UaServerSecureChannel::Result, or an exception of the decoder. UaServerSecureChannel.hpp:22-26. *)
Inductive cres := CrDone | CrError | CrThrow.

(** Token and sequence number checks, UaServerSecureChannel.cpp:104-123, 181-200. *)
Definition c_check (c : chan) (b : sdu) : option (chan * option (seqhdr * sdu)) :=
  match dec_tokhdr b with
  | DOk t b1 =>
      if negb (th_token t =? h_tok c) then Some (c, None)
      else match dec_seqhdr b1 with
           | DOk q b2 => if negb (sq_num q =? u32 (h_rx c + 1)) then Some (c, None)
                         else Some (mkCh (h_est c) (h_tx c) (sq_num q) (h_tok c) (h_conn c) (h_sess c), Some (q, b2))
           | _ => None
           end
  | _ => None
  end.

(** receive(MsgUaCloseSecureChannelReq), UaServerSecureChannel.cpp:92-155. *)
Definition close_rsp_octets (token seq req handle now : Z) : wr :=
  enc_tokhdr (mkTh token) ;; enc_seqhdr (mkSq seq req) ;;
  enc_cont enc_closersp (cont_new 455 (mkCr (mkRp now handle 0 diag0 [] extobj0))).
(** UaServerSecureChannel.cpp:92-155. *)
Definition c_close_msg (uid : Z) (c : chan) (m : umsg) (j : list Z) (now : Z) : option (chan * list cout * cres) :=
  if negb (own_conn c (um_conn m)) then Some (c, [], CrError)
  else match rx_load (um_len m) (um_data m) j with
  | None => None
  | Some b =>
      match c_check c b with
      | None => None
      | Some (c1, None) => Some (c1, [], CrError)
      | Some (c1, Some (q, b2)) =>
          match dec_cont dec_closereq (cont_new 452 closereq0) b2 with
          | DOk r _ =>
              match tx_octets (close_rsp_octets (h_tok c1) (h_tx c1) (sq_req q) (rq_handle (cq_hdr (co_msg r))) now) [] with
              | None => None
              | Some octs => Some (mkCh (h_est c1) (u32 (h_tx c1 + 1)) (h_rx c1) (h_tok c1) (h_conn c1) (h_sess c1),
                                   [CTx KClo (to_conn (um_conn m) uid octs)], CrDone)
              end
          | DThrow => Some (c1, [CThrow], CrThrow)
          | DAbort | DOob => None
          end
      end
  end.

(** UaServerSecureChannelEstablished.cpp:8-13; logged and ignored in Init (UaServerSecureChannelState.hpp:23-33). *)
Definition c_close (uid : Z) (c : chan) (m : umsg) (j : list Z) (now : Z) : option (chan * list cout) :=
  if negb (h_est c) then Some (c, [])
  else match c_close_msg uid c m j now with
       | None => None
       | Some (c1, o, CrThrow) => Some (c1, o)
       | Some (c1, o, _) => let '(c2, o2) := c_release uid c1 in Some (c2, o ++ CRelReq (um_conn m) :: o2)
       end.

(** receive(MsgUaAssociateSecureChannelReq), UaServerSecureChannel.cpp:157-167, UaServerSecureChannelEstablished.cpp:15-18. *)
Definition c_assoc (c : chan) (h : ehdr) : chan :=
  if h_est c && own_conn c (e_conn h) then mkCh (h_est c) (h_tx c) (h_rx c) (h_tok c) (h_conn c) (Some (e_sess h)) else c.

(** receive(MsgUaSecuredMessageReceiveInd), UaServerSecureChannel.cpp:169-213: as many octets as the
    received message had are copied from behind the headers. *)
Definition c_msg_msg (uid : Z) (c : chan) (m : umsg) (j : list Z) : option (chan * list cout * cres) :=
  if negb (own_conn c (um_conn m)) then Some (c, [], CrError)
  else match rx_load (um_len m) (um_data m) j with
  | None => None
  | Some b =>
      match c_check c b with
      | None => None
      | Some (c1, None) => Some (c1, [], CrError)
      | Some (c1, Some (q, b2)) =>
          if (emsgRoom <? Z.of_nat (k_head b2)) || (length (k_pkt b2) <? k_tail b2 + k_head b2)%nat then None
          else Some (c1, [CInd (mkEm (mkEh (um_conn m) uid (sq_req q) (match h_sess c1 with Some s => s | None => invalidSuid end))
                                     (Z.of_nat (k_head b2)) (firstn (k_head b2) (skipn (k_tail b2) (k_pkt b2))))], CrDone)
      end
  end.
(** UaServerSecureChannelEstablished.cpp:30-37. *)
Definition c_msg (uid : Z) (c : chan) (m : umsg) (j : list Z) : option (chan * list cout) :=
  if negb (h_est c) then Some (c, [])
  else match c_msg_msg uid c m j with
       | None => None
       | Some (c1, o, CrDone) => Some (c1, o)
       | Some (c1, o, _) => let '(c2, o2) := c_release uid c1 in Some (c2, o ++ CRelReq (um_conn m) :: o2)
       end.

(** receive(MsgUaEncodedMessageSendReq), UaServerSecureChannel.cpp:215-254, UaServerSecureChannelEstablished.cpp:25-28. *)
Definition c_send (uid : Z) (c : chan) (m : emsg) : option (chan * list cout) :=
  if negb (h_est c) then Some (c, [])
  else if negb (own_conn c (e_conn (em_hdr m))) then Some (c, [])
  else if match h_sess c with Some s => negb (s =? e_sess (em_hdr m)) | None => false end then Some (c, [])
  else if negb ((0 <=? em_len m) && (em_len m <=? Z.of_nat (length (em_data m)))) then None
  else match tx_octets (enc_tokhdr (mkTh (h_tok c)) ;; enc_seqhdr (mkSq (h_tx c) (e_req (em_hdr m))))
                       (firstn (Z.to_nat (em_len m)) (em_data m)) with
       | None => None
       | Some octs => Some (mkCh (h_est c) (u32 (h_tx c + 1)) (h_rx c) (h_tok c) (h_conn c) (h_sess c),
                            [CTx KMsg (to_conn (e_conn (em_hdr m)) uid octs)])
       end.

(** receive(MsgUaConnectionReleaseInd), UaServerSecureChannelEstablished.cpp:20-23: the connection is not looked at. *)
Definition c_relind (uid : Z) (c : chan) : chan * list cout :=
  if h_est c then c_release uid c else (c, []).

(** * UaSecureChannel *)
(** Members, UaSecureChannel.hpp:36, with the channels of the pool. *)
Record csrv := mkCs { q_pool : pool; q_ch : list chan }.

(** Messages.  [j]: indeterminate contents of the receive buffer. UaSecureChannelComponent.cpp:61-106. *)
Inductive cev :=
| CvOpen (m : umsg) (j : list Z) (rnd t1 t2 : Z)   (* MsgUaOpenSecureChannelReq *)
| CvClose (m : umsg) (j : list Z) (now : Z)        (* MsgUaCloseSecureChannelReq *)
| CvMsg (m : umsg) (j : list Z)                    (* MsgUaSecuredMessageReceiveInd *)
| CvAssoc (h : ehdr)                               (* MsgUaAssociateSecureChannelReq *)
| CvSend (m : emsg)                                (* MsgUaEncodedMessageSendReq *)
| CvRelInd (conn ch : Z).                          (* MsgUaConnectionReleaseInd *)

(** Constructor, UaSecureChannel.cpp:8-11, UaEntityPool.hpp:21-32, one channel for every element of [ini], the
    indeterminate sequence number and token members (UaServerSecureChannel.hpp:52-56). *)
Definition csrv_new (ini : list (Z * Z)) : option csrv :=
  option_map (fun p => mkCs p (map (fun x => mkCh false 1 (fst x) (snd x) None None) ini)) (pool_new 1 (length ini)).

(** release, UaSecureChannel.cpp:17-20. *)
Fixpoint csrv_release (p : pool) (os : list cout) : option pool :=
  match os with
  | [] => Some p
  | CFree u :: r => match pool_release p u with Some p' => csrv_release p' r | None => None end
  | _ :: r => csrv_release p r
  end.

(** UaEntityPool.hpp:53-56 ([None]: id outside 1..32), then the handler; its release goes to the pool. *)
Definition csrv_on (v : csrv) (uid : Z) (k : chan -> option (chan * list cout)) : option (csrv * list cout) :=
  match pool_get (q_pool v) uid with
  | None => None
  | Some i =>
      match nth_error (q_ch v) i with
      | None => None
      | Some c =>
          match k c with
          | None => None
          | Some (c', os) =>
              match csrv_release (q_pool v) os with
              | None => None
              | Some p' => Some (mkCs p' (upd (q_ch v) i c'), os)
              end
          end
      end
  end.

(** UaSecureChannel.cpp:26-66. *)
Definition csrv_step (v : csrv) (e : cev) : option (csrv * list cout) :=
  match e with
  | CvOpen m j rnd t1 t2 =>
      match pool_alloc (q_pool v) with
      | None => None
      | Some (p, None) => Some (mkCs p (q_ch v), [])
      | Some (p, Some uid) => csrv_on (mkCs p (q_ch v)) uid (fun c => c_open uid c m j rnd t1 t2)
      end
  | CvClose m j now => csrv_on v (um_chan m) (fun c => c_close (um_chan m) c m j now)
  | CvMsg m j => csrv_on v (um_chan m) (fun c => c_msg (um_chan m) c m j)
  | CvAssoc h => csrv_on v (e_chan h) (fun c => Some (c_assoc c h, []))
  | CvSend m => csrv_on v (e_chan (em_hdr m)) (fun c => c_send (e_chan (em_hdr m)) c m)
  | CvRelInd _ ch => csrv_on v ch (fun c => Some (c_relind ch c))
  end.
