(** Model of the OPC UA secure channel library: common/ua/protocols/secure (OpcUaSecureChannel.cpp,
    OpcUaServerSecureChannel*.cpp, OpcUaClientSecureChannel*.cpp), on top of the connection library of ProtoConnModel.
    One record and one step function with a role cover both classes. *)
From Verif Require Import Base ModbusCodecModel ModbusClientModel UaCodecModel UaTcpModel UaChanModel ProtoConnModel.
Local Open Scope Z_scope.

(** Init, Connecting, ReceiveOpenReq or ReceiveOpenRsp, Established. The class at line 8 of OpcUaServerSecureChannelInit.hpp, OpcUaServerSecureChannelConnecting.hpp, OpcUaServerSecureChannelReceiveOpenReq.hpp, OpcUaServerSecureChannelEstablished.hpp and of their Client counterparts. *)
Inductive sst := SInit | SDial | SShake | SEst.
(** OpcUaServerSecureChannel.hpp:54-61 (the members behind [s_c] are the server's only); FsmBase holds the state. *)
Record sch := mkS { s_st : sst; s_c : pconn; s_id : Z; s_tx : Z; s_rxn : Z; s_req : Z; s_life : Z; s_tok : Z }.
(** Assignment to the state. FsmBase.hpp:33. *)
Definition x_st x v := mkS v (s_c x) (s_id x) (s_tx x) (s_rxn x) (s_req x) (s_life x) (s_tok x).
(** Assignment to the connection. OpcUaServerSecureChannel.hpp:54. *)
Definition x_c x v := mkS (s_st x) v (s_id x) (s_tx x) (s_rxn x) (s_req x) (s_life x) (s_tok x).
(** Assignment to the channel id. OpcUaServerSecureChannel.hpp:56. *)
Definition x_id x v := mkS (s_st x) (s_c x) v (s_tx x) (s_rxn x) (s_req x) (s_life x) (s_tok x).
(** sequenceNumberTx++. OpcUaServerSecureChannel.hpp:57. *)
Definition x_bump x := mkS (s_st x) (s_c x) (s_id x) (u32 (s_tx x + 1)) (s_rxn x) (s_req x) (s_life x) (s_tok x).
(** Assignment of both numbers of a sequence header. OpcUaServerSecureChannel.hpp:58-59. *)
Definition x_took x q := mkS (s_st x) (s_c x) (s_id x) (s_tx x) (sq_num q) (sq_req q) (s_life x) (s_tok x).
(** Assignment to the lifetime. OpcUaServerSecureChannel.hpp:60. *)
Definition x_life x v := mkS (s_st x) (s_c x) (s_id x) (s_tx x) (s_rxn x) (s_req x) v (s_tok x).
(** Assignment to the token id. OpcUaServerSecureChannel.hpp:61. *)
Definition x_tok x v := mkS (s_st x) (s_c x) (s_id x) (s_tx x) (s_rxn x) (s_req x) (s_life x) v.

(** Notifications, OpcUaSecureChannel.cpp:26-42 (notifyEstablished, lines 20-24, is called nowhere).  [SHeard m] is not one
    of them: it records what the connection's receive buffer holds from its read position on when the connection
    announces data; a request is notified with that buffer, read position behind the 24 octets of the headers. *)
Inductive snote := SHeard (m : list Z) | SRequest | SClosed | SError.

(** What a channel does when its connection notifies it: new members, calls on the connection, notifications of its own,
    and whether decoding threw. Model only. *)
Definition sres := option (sch * list pcall * list snote * bool).

(** ** Sending *)
(** "OPN", "MSG", "CLO". UaMessageHeader.hpp:16; OpcUaServerSecureChannel.cpp:211-213, OpcUaClientSecureChannel.cpp:69-71. *)
Definition opn_type : list Z := [79; 80; 78].
(** "MSG". UaMessageHeader.hpp:26; OpcUaServerSecureChannel.cpp:171-173. *)
Definition msg_type : list Z := [77; 83; 71].
(** "CLO". UaMessageHeader.hpp:21. *)
Definition clo_type : list Z := [67; 76; 79].
(** OpcUaServerSecureChannel::send, OpcUaServerSecureChannel.cpp:165-201; the connection's answer is not looked at.
    [body]: the octets copied, buf.size() many from buf.begin(). *)
Definition s_send (x : sch) (u : list Z * option nat) : option (sch * pcall) :=
  match tx_packet (enc_uhdr (mkUh msg_type 70 0 (s_id x)) ;; enc_tokhdr (mkTh (s_tok x)) ;; enc_seqhdr (mkSq (s_tx x) (s_req x))) (fst u) with
  | None => None
  | Some pkt => Some (x_bump x, KSend pkt (snd u))
  end.
(** The user's calls of send() from inside a notification, in order.  The client's send() does nothing
    (OpcUaClientSecureChannel.cpp:54-56); so do open() and close() inside a notification, since the state is not Init then
    and close() is empty (OpcUaServerSecureChannel.cpp:61-64, OpcUaClientSecureChannel.cpp:45-47). *)
Fixpoint s_sends (x : sch) (us : list (list Z * option nat)) : option (sch * list pcall) :=
  match us with
  | [] => Some (x, [])
  | u :: r => match s_send x u with
              | None => None
              | Some (x1, k) => match s_sends x1 r with None => None | Some (x2, ks) => Some (x2, k :: ks) end
              end
  end.
(** Notify the user, who sends [us] from inside; then the calls [ks] on the connection, then the state [st]. OpcUaSecureChannel.cpp:20-42. *)
Definition s_tell (role : prole) (x : sch) (pre : list pcall) (n : snote) (us : list (list Z * option nat)) (ks : list pcall) (st : sst) : sres :=
  match (match role with RServer => s_sends x us | RClient => Some (x, []) end) with
  | None => None
  | Some (x1, sent) => Some (x_st x1 st, pre ++ sent ++ ks, [n], false)
  end.

(** ** Server: receiving *)
(** sendOpenSecureChannelRsp, OpcUaServerSecureChannel.cpp:203-251: the packet, and the members afterwards. *)
Definition open_rsp_pkt (x : sch) (t1 t2 : Z) : option (list Z) :=
  tx_packet (enc_uhdr (mkUh opn_type 70 0 (s_id x)) ;; open_rsp_octets (s_id x) (s_tx x) (s_req x) 0 (s_tok x) t1 t2 (s_life x)) [].
(** onOpenSecureChannelReq, OpcUaServerSecureChannelReceiveOpenReq.cpp:9-43, OpcUaServerSecureChannelEstablished.cpp:8-41.
    Members are assigned after the sequence header was read (lines 96-97), hence also when the rest cannot be decoded.
    [ok]: the connection's answer to send. *)
Definition s_open (x : sch) (b : sdu) (w : option nat) (ok : bool) (rnd t1 t2 : Z) (us : list (list Z * option nat)) : sres :=
  match (do h <- dec_uhdr uhdr0; do s <- dec_sechdr sechdr0; dec_seqhdr) b with
  | DOk q b1 =>
      let x1 := x_took x q in
      match dec_cont dec_openreq (cont_new 446 openreq0) b1 with
      | DOk r _ =>
          let x2 := x_tok (x_life x1 (oq_life (co_msg r))) (rnd mod 2147483647) in
          match open_rsp_pkt x2 t1 t2 with
          | None => None
          | Some pkt => if ok then Some (x_st (x_bump x2) SEst, [KSend pkt w], [], false)
                        else s_tell RServer (x_bump x2) [KSend pkt w] SError us [KClose] SInit
          end
      | DThrow => Some (x1, [], [], true)
      | DAbort | DOob => None
      end
  | DThrow => Some (x, [], [], true)
  | DAbort | DOob => None
  end.
(** Token and sequence number, OpcUaServerSecureChannel.cpp:111-130, 139-158. *)
Definition s_check (x : sch) (b : sdu) : option (option seqhdr) :=
  match (do h <- dec_uhdr uhdr0; dec_tokhdr) b with
  | DOk t b1 =>
      if negb (th_token t =? s_tok x) then Some None
      else match dec_seqhdr b1 with
           | DOk q _ => if sq_num q =? u32 (s_rxn x + 1) then Some (Some q) else Some None
           | _ => None
           end
  | _ => None
  end.
(** onCloseSecureChannelReq, OpcUaServerSecureChannelEstablished.cpp:43-64. *)
Definition s_close (x : sch) (b : sdu) (us : list (list Z * option nat)) : sres :=
  match s_check x b with
  | None => None
  | Some (Some _) => s_tell RServer x [] SClosed us [KClose] SInit
  | Some None => s_tell RServer x [] SError us [KClose] SInit
  end.
(** onSecureChannelReq, OpcUaServerSecureChannelEstablished.cpp:66-85; OpcUaServerSecureChannel.cpp:159-160. *)
Definition s_msg (x : sch) (b : sdu) (us : list (list Z * option nat)) : sres :=
  match s_check x b with
  | None => None
  | Some (Some q) => s_tell RServer (x_took x q) [] SRequest us [] SEst
  | Some None => s_tell RServer x [] SError us [KClose] SInit
  end.

(** ** Client *)
(** sendOpenSecureChannelReq, OpcUaClientSecureChannel.cpp:63-91. *)
Definition open_req_pkt : option (list Z) :=
  tx_packet (enc_uhdr (mkUh opn_type 70 0 0) ;; enc_sechdr sechdr0 ;; enc_seqhdr (mkSq 0 0) ;; enc_cont enc_openreq (cont_new 446 openreq0)) [].
(** receiveOpenSecureChannelRsp, OpcUaClientSecureChannel.cpp:93-115: the body is decoded without the type id in front of it, and
    nothing decoded is used. *)
Definition dec_open_rsp_pkt : rd openrsp := do h <- dec_uhdr uhdr0; do s <- dec_sechdr sechdr0; do q <- dec_seqhdr; dec_openrsp openrsp0.

(** ** Notifications from the connection *)
(** onConnection...Event: OpcUaServerSecureChannel.cpp:21-54, OpcUaClientSecureChannel.cpp:20-38, and the states.  [b]: the
    connection's receive buffer; a read of the type octets behind the packet array is undefined. *)
Definition s_hear (role : prole) (x : sch) (n : pnote) (b : sdu) (w : option nat) (ok : bool) (rnd t1 t2 : Z) (us : list (list Z * option nat)) : sres :=
  let nothing := Some (x, [], [], false) in
  let m := skipn (k_tail b) (k_pkt b) in
  match role, n with
  (* OpcUaServerSecureChannelConnecting.cpp:9-12; otherwise logged, OpcUaServerSecureChannelState.hpp:18-30 *)
  | RServer, NConnected => match s_st x with SDial => Some (x_st x SShake, [], [], false) | _ => nothing end
  (* OpcUaServerSecureChannel.cpp:26-44 *)
  | RServer, NData _ =>
      if (length m <? 3)%nat then None
      else if has_octets m opn_type then match s_st x with SShake | SEst => s_open x b w ok rnd t1 t2 us | _ => nothing end
      else if has_octets m clo_type then match s_st x with SEst => s_close x b us | _ => nothing end
      else if has_octets m msg_type then match s_st x with SEst => s_msg x b us | _ => nothing end
      else nothing
  (* OpcUaServerSecureChannelConnecting.cpp:14-24, OpcUaServerSecureChannelReceiveOpenReq.cpp:45-55, OpcUaServerSecureChannelEstablished.cpp:87-97 *)
  | RServer, NClosed => match s_st x with SInit => nothing | _ => s_tell role x [] SClosed us [] SInit end
  | RServer, NError => match s_st x with SInit => nothing | _ => s_tell role x [] SError us [] SInit end
  (* OpcUaClientSecureChannelConnecting.cpp:9-30 *)
  | RClient, NConnected => match s_st x, open_req_pkt with
                           | SDial, Some pkt => Some (x_st x SShake, [KSend pkt w], [], false)
                           | SDial, None => None
                           | _, _ => nothing
                           end
  (* OpcUaClientSecureChannelReceiveOpenRsp.cpp:9-27, OpcUaClientSecureChannelEstablished.cpp:12-14 *)
  | RClient, NData _ =>
      match s_st x with
      | SShake => if (length m <? 3)%nat then None
                  else if has_octets m opn_type then
                    match dec_open_rsp_pkt b with
                    | DOk _ _ => Some (x_st x SEst, [], [], false)
                    | DThrow => Some (x, [], [], true)
                    | DAbort | DOob => None
                    end
                  else s_tell role x [] SError us [] SInit
      | _ => nothing
      end
  (* OpcUaClientSecureChannelConnecting.cpp:32-42, OpcUaClientSecureChannelReceiveOpenRsp.cpp:29-37 (no transition), OpcUaClientSecureChannelEstablished.cpp:16-26 *)
  | RClient, NClosed => match s_st x with SInit => nothing | SShake => s_tell role x [] SClosed us [] SShake | _ => s_tell role x [] SClosed us [] SInit end
  | RClient, NError => match s_st x with SInit => nothing | SShake => s_tell role x [] SError us [] SShake | _ => s_tell role x [] SError us [] SInit end
  end.

(** ** Events *)
(** [us]: what the user sends from inside the notification the event leads to; [rnd], [t1], [t2]: rand() and the clock;
    [tl]: where the read position stands after an exception (simplification: anywhere). Model only. *)
Inductive sev :=
| SvOpen (lok tok cok : bool) (rnd : Z)      (* open(); for the client [lok], [cok] as in [KConnect]; the server gets a connected link *)
| SvSend (body : list Z) (w : option nat)    (* send() from outside a notification *)
| SvConnected (w : option nat) (us : list (list Z * option nat))
| SvData (r : lrx) (w : option nat) (rnd t1 t2 : Z) (tl : nat) (us : list (list Z * option nat))
| SvError (us : list (list Z * option nat))
| SvTimer (us : list (list Z * option nat)).

(** The event as the connection sees it, with the calls the channel makes from inside the notification. Model only. *)
Definition lower (e : sev) (ks : list pcall) : option pev :=
  match e with
  | SvOpen _ _ _ _ | SvSend _ _ => None
  | SvConnected w _ => Some (PvConnected w ks)
  | SvData r w _ _ _ _ _ => Some (PvData r w ks)
  | SvError _ => Some (PvError ks)
  | SvTimer _ => Some (PvTimer ks)
  end.
(** What the user sends from inside the notification.  open() from there is left out: every notification precedes the transition to
    Init (e.g. OpcUaServerSecureChannelEstablished.cpp:77-91), so it meets a state that only logs it (OpcUaServerSecureChannelState.hpp,
    OpcUaClientSecureChannelState.hpp).  Model only. *)
Definition s_us (e : sev) : list (list Z * option nat) :=
  match e with SvOpen _ _ _ _ | SvSend _ _ => [] | SvConnected _ us | SvData _ _ _ _ _ _ us | SvError us | SvTimer us => us end.
(** What write(2) returns. Model only. *)
Definition s_w (e : sev) : option nat := match e with SvConnected w _ | SvData _ w _ _ _ _ _ => w | _ => None end.
(** What rand() and the clock return. Model only. *)
Definition s_rand (e : sev) : Z * Z * Z := match e with SvData _ _ rnd t1 t2 _ _ => (rnd, t1, t2) | _ => (0, 0, 0) end.
(** Where the read position stands after an exception (see [sev]). Model only. *)
Definition s_tl (e : sev) : nat := match e with SvData _ _ _ _ _ tl _ => tl | _ => 0%nat end.
(** The events that can happen now: those of the connection. Model only. *)
Definition s_enabled (x : sch) (e : sev) : bool :=
  match lower e [] with None => true | Some pe => p_enabled (s_c x) pe end.

(** The notification among the connection's effects. Model only. *)
Fixpoint note_of (os : list pout) : option pnote :=
  match os with [] => None | PNote n :: _ => Some n | _ :: r => note_of r end.
(** The receive buffer when data is announced. Model only. *)
Definition rx_now (c : pconn) (e : sev) : sdu :=
  match e with
  | SvData r _ _ _ _ _ _ => match p_receive r (fun _ => pskip) c with Some (c1, _, _) => p_rx c1 | None => p_rx c end
  | _ => p_rx c
  end.
(** Record of the packet announced (model only, see [snote]). *)
Definition heard (n : pnote) (b : sdu) : list snote :=
  match n with NData _ => [SHeard (skipn (k_tail b) (k_pkt b))] | _ => [] end.

(** Effects of the connection, notifications of the channel (their order relative to each other inside one event is not kept),
    and whether an exception leaves. Model only. *)
Definition s_out := (list pout * list snote)%type.

(** The connection's step with the channel as its user.  The connection notifies at most once per event and before it depends
    on what the user does, so the notification is found by letting it run with a user who does nothing. Model only. *)
Definition s_down (role : prole) (x : sch) (e : sev) : option (sch * s_out * bool) :=
  let run ks := match lower e ks with None => None | Some pe => p_step role pe (s_c x) end in
  match run [] with
  | None => None
  | Some (c0, os0, t0) =>
      match note_of os0 with
      | None => Some (x_c x c0, (os0, []), t0)
      | Some n =>
          let b := rx_now (s_c x) e in
          let '(rnd, t1, t2) := s_rand e in
          let ok := match p_link (s_c x), s_w e with Some true, Some _ => true | _, _ => false end in
          match s_hear role x n b (s_w e) ok rnd t1 t2 (s_us e) with
          | None => None
          | Some (x1, ks, ns, false) =>
              match run ks with
              | None => None
              | Some (c1, os1, t1) => Some (x_c x1 c1, (os1, heard n b ++ ns), t1)
              end
          | Some (x1, _, ns, true) =>
              (* the exception passes through the connection, which does not come to reset its buffer *)
              Some (x_c x1 (y_rx c0 (mkSdu (s_tl e) (k_head b) (k_pkt b))), (os0 ++ [PThrow], heard n b ++ ns), true)
          end
      end
  end.

(** open(): OpcUaServerSecureChannelInit.cpp:8-12 with OpcUaServerSecureChannel.cpp:71-76, OpcUaClientSecureChannelInit.cpp:8-12;
    otherwise logged. *)
Definition s_step (role : prole) (x : sch) (e : sev) : option (sch * s_out * bool) :=
  match e with
  | SvOpen lok tok cok rnd =>
      match s_st x with
      | SInit =>
          let x1 := match role with RServer => x_id x (rnd mod 2147483647) | RClient => x end in
          let k := match role with RServer => KAccept tok | RClient => KConnect lok tok cok end in
          match p_step role (PvCall k) (s_c x) with
          | None => None
          | Some (c, os, true) => Some (x_c x1 c, (os, []), true)
          | Some (c, os, false) => Some (x_st (x_c x1 c) SDial, (os, []), false)
          end
      | _ => Some (x, ([], []), false)
      end
  | SvSend body w =>
      match role with
      | RClient => Some (x, ([], []), false)
      | RServer =>
          match s_send x (body, w) with
          | None => None
          | Some (x1, k) => match p_step role (PvCall k) (s_c x) with None => None | Some (c, os, t) => Some (x_c x1 c, (os, []), t) end
          end
      end
  | _ => s_down role x e
  end.

(** A new channel object; [ini]: indeterminate members, [b0]: indeterminate contents of the receive buffer. OpcUaServerSecureChannel.hpp:54-61, OpcUaServerSecureChannel.cpp:10-15, OpcUaClientSecureChannel.cpp:9-14. *)
Definition sch_new (b0 : list Z) (ini : Z * Z * Z * Z * Z) : sch :=
  let '(a, b, c, d, e) := ini in mkS SInit (conn0 b0) a 1 b c d e.
