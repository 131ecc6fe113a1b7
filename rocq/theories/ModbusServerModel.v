(** Model of modbus/server: ModbusServer, ModbusSessionPool (PoolModel with base
    0) and ModbusSession with its three states. *)
From Verif Require Import Base QueueModel PoolModel ModbusCodecModel ModbusClientModel.
Local Open Scope Z_scope.

(** * decode(AduRequest&), ModbusCodec.cpp:164-245, with the caller's record

    Same function as [decode_req], but a refused frame also yields the record,
    because the fields are assigned before the checks and the session keeps the
    record for its whole life.  [decode_into_erase] (ModbusServerProofs)
    shows the agreement. *)
Inductive dinto :=
| IOk (q : adu_req) (rest : list Z)
| IFail (q : adu_req) (rest : list Z)
| IUB.

(** PduBuffer::read, PduBuffer.hpp:36-39. *)
Definition ird (r : list Z) (k : Z -> list Z -> dinto) : dinto :=
  match r with b :: r' => k b r' | [] => IUB end.
(** PduBuffer::readBe, PduBuffer.hpp:48-53. *)
Definition irdBe (r : list Z) (k : Z -> list Z -> dinto) : dinto :=
  ird r (fun h r => ird r (fun l r => k (h * 256 + l) r)).

(** Assignments to single members of AduRequest (AduRequest.hpp:13-27). *)
Definition w_tid q x := mkReq x (q_func q) (q_addr q) (q_start q) (q_nitems q) (q_nbytes q) (q_data q).
(** AduRequest.hpp:13-27. *)
Definition w_func q x := mkReq (q_tid q) x (q_addr q) (q_start q) (q_nitems q) (q_nbytes q) (q_data q).
(** AduRequest.hpp:13-27. *)
Definition w_addr q x := mkReq (q_tid q) (q_func q) x (q_start q) (q_nitems q) (q_nbytes q) (q_data q).
(** AduRequest.hpp:13-27. *)
Definition w_start q x := mkReq (q_tid q) (q_func q) (q_addr q) x (q_nitems q) (q_nbytes q) (q_data q).
(** AduRequest.hpp:13-27. *)
Definition w_nitems q x := mkReq (q_tid q) (q_func q) (q_addr q) (q_start q) x (q_nbytes q) (q_data q).
(** AduRequest.hpp:13-27. *)
Definition w_nbytes q x := mkReq (q_tid q) (q_func q) (q_addr q) (q_start q) (q_nitems q) x (q_data q).
(** AduRequest.hpp:13-27. *)
Definition w_data q x := mkReq (q_tid q) (q_func q) (q_addr q) (q_start q) (q_nitems q) (q_nbytes q) x.

(** ModbusCodec::decode(AduRequest&) into the session's storedAdu, ModbusCodec.cpp:164 ff.; the line numbers in it are those of ModbusCodec.cpp. *)
Definition decode_into (buf : list Z) (q : adu_req) : dinto :=
  irdBe buf (fun tid r => let q := w_tid q tid in                              (* 166 *)
  irdBe r (fun proto r =>
  if negb (proto =? modbusProtocolId) then IFail q r else                      (* 167-171 *)
  irdBe r (fun pktLen r => ird r (fun addr r => let q := w_addr q addr in      (* 172-173 *)
  if negb (addr <=? maxAddr) then IFail q r else                               (* 174-178 *)
  ird r (fun func r => let q := w_func q func in                               (* 179 *)
  if is_read_bits func || is_read_regs func then
    if negb (pktLen =? 6) then IFail q r else
    irdBe r (fun start r => let q := w_start q start in
    irdBe r (fun n r => let q := w_nitems q n in
    if maxPduLen <? pduLen func n then IFail q r else IOk q r))                (* 182-200 *)
  else if is_single func then
    if negb (pktLen =? 6) then IFail q r else
    irdBe r (fun start r => let q := w_nbytes (w_start q start) 2 in
    ird r (fun d1 r => ird r (fun d0 r =>
    if (1 <? length (q_data q))%nat
    then IOk (w_data q (upd (upd (q_data q) 1 d1) 0 d0)) r else IUB)))         (* 201-214 *)
  else if is_multi func then
    irdBe r (fun start r => irdBe r (fun n r => ird r (fun nb r =>
    let q := w_nbytes (w_nitems (w_start q start) n) nb in
    if negb (nb =? n * 2) then IFail q r else
    if negb (pktLen =? 7 + nb) then IFail q r else
    match rd_pairs (pairs nb) 0 (q_data q) r with
    | Some (data, r) => IOk (w_data q data) r
    | None => IUB
    end)))                                                                     (* 215-236 *)
  else IFail q r))))).                                                         (* 237-242 *)

(** * ModbusSession *)

(** The states, modbus/server/session/ModbusSession*.hpp. The class at line 8 of ModbusSessionInit.hpp, ModbusSessionConnected.hpp, ModbusSessionWaitModbusAduRsp.hpp. *)
Inductive sst := SInit | SConn | SWait.
(** Equality of states (model only). *)
Definition sst_eqb (a b : sst) : bool :=
  match a, b with SInit, SInit | SConn, SConn | SWait, SWait => true | _, _ => false end.

(** A reply of the application, MsgModbusAduRsp.hpp:15-30.  [p_ok]: status is
    success; [p_error]: ModbusError octet; [p_data]: the octets behind the
    message header. *)
Record areply := mkReply {
  p_session : Z; p_tid : Z; p_ok : bool; p_error : Z; p_nbytes : Z; p_data : list Z
}.

(** Observable effects, each with the session they concern. Model only. *)
Inductive sout :=
| TReq (uid tid func addr start nitems nbytes : Z) (data : list Z) (* MsgModbusAduReq to the application *)
| TTx (uid : Z) (bs : list Z)                                      (* link->send accepted [bs] *)
| TArm (uid us : Z)                                                (* timer->start *)
| TDisarm (uid : Z)                                                (* timer->stop *)
| TFree (uid : Z)                                                  (* link, timer and session id released *)
| TThrow.                                                          (* exception leaves the event handler *)

(** Members, ModbusSession.hpp:70-79.  [x_timer]: [None] no timer object, otherwise
    the armed interval, if any.  [x_link]: [None] no link object, otherwise
    whether it holds a descriptor.  serverId is the same for all sessions of a server and
    is left out. *)
Record sess := mkSess {
  x_st : sst; x_timer : option (option Z); x_link : option bool;
  x_buf : list Z; x_pos : nat; x_len : Z; x_adu : adu_req
}.
(** Assignment to the state. ModbusSessionFsm.hpp:40. *)
Definition y_st s x := mkSess x (x_timer s) (x_link s) (x_buf s) (x_pos s) (x_len s) (x_adu s).
(** Assignment to the timer. ModbusSession.hpp:74. *)
Definition y_timer s x := mkSess (x_st s) x (x_link s) (x_buf s) (x_pos s) (x_len s) (x_adu s).
(** Assignment to the link. ModbusSession.hpp:75. *)
Definition y_link s x := mkSess (x_st s) (x_timer s) x (x_buf s) (x_pos s) (x_len s) (x_adu s).
(** Assignment to the buffer with its cursors, PduBuffer.hpp. ModbusSession.hpp:76. *)
Definition y_buf s b p l := mkSess (x_st s) (x_timer s) (x_link s) b p l (x_adu s).
(** Assignment to the request. ModbusSession.hpp:78. *)
Definition y_adu s x := mkSess (x_st s) (x_timer s) (x_link s) (x_buf s) (x_pos s) (x_len s) x.

(** ModbusSession.hpp:61-62. *)
Definition inactiveTimeout : Z := 30000000.
(** ModbusSession.hpp:61-62. *)
Definition aduRspTimeout : Z := 5000000.

(** startTimer, stopTimer, ModbusSession.cpp:69-77; [None]: null timer. *)
Definition s_arm (uid : Z) (s : sess) (us : Z) : option (sess * list sout) :=
  match x_timer s with
  | Some _ => Some (y_timer s (Some (Some us)), [TArm uid us])
  | None => None
  end.
(** stopTimer, ModbusSession.cpp:74-77. *)
Definition s_disarm (uid : Z) (s : sess) : option (sess * list sout) :=
  match x_timer s with
  | Some _ => Some (y_timer s (Some None), [TDisarm uid])
  | None => None
  end.

(** onExit: ModbusSessionConnected.cpp:48-51, ModbusSessionWaitModbusAduRsp.cpp:60-63,
    ModbusSessionState.hpp otherwise. *)
Definition s_exit (uid : Z) (s : sess) : option (sess * list sout) :=
  match x_st s with SInit => Some (s, []) | SConn | SWait => s_disarm uid s end.

(** onEnter: ModbusSessionInit.cpp:9-12 with releaseSession, ModbusSession.cpp:210-215 (the
    return of the id to the pool is done by the server on [TFree]);
    ModbusSessionConnected.cpp:11-15 with receivePreaction, ModbusSession.cpp:79-82;
    ModbusSessionWaitModbusAduRsp.cpp:10-13. *)
Definition s_enter (uid : Z) (s : sess) : option (sess * list sout) :=
  match x_st s with
  | SInit => Some (y_timer (y_link s None) None, [TFree uid])
  | SConn => match s_arm uid s inactiveTimeout with
             | Some (s1, o) => Some (y_buf s1 (x_buf s1) 0 0, o)
             | None => None
             end
  | SWait => s_arm uid s aduRspTimeout
  end.

(** transit, ModbusSessionFsm.hpp:29-42. *)
Definition s_transit (uid : Z) (s : sess) (st : sst) : option (sess * list sout) :=
  if sst_eqb (x_st s) st then Some (s, [])
  else match s_exit uid s with
       | None => None
       | Some (s1, o1) =>
           match s_enter uid (y_st s1 st) with
           | None => None
           | Some (s2, o2) => Some (s2, o1 ++ o2)
           end
       end.

(** Two calls in a row (model only: C++ sequencing). *)
Definition s_then (o : option (sess * list sout)) (k : sess -> option (sess * list sout)) :=
  match o with
  | None => None
  | Some (s, o1) => match k s with None => None | Some (s', o2) => Some (s', o1 ++ o2) end
  end.

(** The request message built at ModbusSession.cpp:139-151. *)
Definition req_msg (uid : Z) (q : adu_req) : sout :=
  TReq uid (u16 (q_tid q)) (q_func q) (q_addr q) (q_start q) (q_nitems q) (q_nbytes q)
       (firstn (Z.to_nat (q_nbytes q)) (q_data q)).

(** ModbusSession::Result, ModbusSession.hpp. ModbusSession.hpp:19-25. *)
Inductive sres := SrNoerror | SrDone | SrError.

(** receive(), ModbusSession.cpp:84-154.  [None]: undefined behaviour (null
    link, read past the buffer, copy past storedAduBuf). *)
Definition s_receive (uid : Z) (s : sess) (r : lrx) : option (sess * list sout * sres) :=
  if maxAduLen <? x_len s then Some (s, [], SrDone)
  else match x_link s with
  | None => None
  | Some fd =>
      match (if fd then r else RxErr) with
      | RxNa => Some (s, [], SrNoerror)
      | RxErr => Some (s, [], SrError)
      | RxBytes bs0 =>
          let bs := firstn (Z.to_nat (bufMaxLen - x_len s)) bs0 in
          let b := buf_write (x_buf s) (Z.to_nat (x_len s)) bs in
          let len := x_len s + Z.of_nat (length bs) in
          let s1 := y_buf s b (x_pos s) len in
          match frame_check b len with
          | FrWait => Some (s1, [], SrNoerror)
          | FrBadLength => Some (s1, [], SrError)
          | FrInvalid => Some (s1, [], SrDone)
          | FrComplete =>
              match decode_into (skipn (x_pos s) b) (x_adu s) with
              | IUB => None
              | IFail q rest => Some (y_adu (y_buf s1 b (512 - length rest)%nat len) q, [], SrDone)
              | IOk q rest =>
                  if negb (q_nbytes q <=? Z.of_nat (length (q_data q))) then None
                  else Some (y_adu (y_buf s1 b (512 - length rest)%nat len) q, [req_msg uid q], SrDone)
              end
          end
      end
  end.

(** send(), ModbusSession.cpp:156-208.  [sok]: the kernel takes the octets.
    AduRespond's data array is indeterminate except for the copied octets, of
    which the encoder reads only the first numBytes. *)
Definition s_send (uid : Z) (s : sess) (p : areply) (sok : bool) : option (sess * list sout * sres) :=
  let q := x_adu s in
  if negb (p_tid p =? q_tid q) then Some (s, [], SrDone)
  else if negb (p_ok p) then Some (s, [], SrDone)
  else if negb (p_nbytes p <=? Z.of_nat (length (p_data p))) then None      (* reads past the message *)
  else if maxAduLen <? p_nbytes p then None                                 (* memcpy past aduRsp.data, 179 *)
  else
    let d := firstn (Z.to_nat (p_nbytes p)) (p_data p) in
    let a := mkRsp (p_tid p) (if negb (p_error p =? 0) then modbusErrorFn else q_func q) (q_addr q)
                   (p_error p) (q_start q) (q_nitems q) (p_nbytes p)
                   (d ++ repeat 0 (Z.to_nat maxAduLen - length d)) in
    match encode_rsp a with
    | EncOverflow | EncBadRead => None
    | EncFail _ => Some (s, [], SrDone)
    | EncOk bs =>
        if negb (isAduValid bs (Z.of_nat (length bs))) then Some (s, [], SrDone)
        else match x_link s with
             | None => None
             | Some fd => if fd && sok then Some (s, [TTx uid bs], SrDone) else Some (s, [], SrError)
             end
    end.

(** onStart: ModbusSessionInit.cpp:14-17, ignored elsewhere (ModbusSessionState.hpp). *)
Definition s_start (uid : Z) (s : sess) : option (sess * list sout) :=
  match x_st s with SInit => s_transit uid s SConn | _ => Some (s, []) end.

(** onDataReceived: ModbusSessionConnected.cpp:17-41, ModbusSessionWaitModbusAduRsp.cpp:15-30. *)
Definition s_data (uid : Z) (s : sess) (r : lrx) : option (sess * list sout) :=
  match x_st s with
  | SInit => Some (s, [])
  | SConn =>
      match s_receive uid s r with
      | None => None
      | Some (s1, o, SrError) => s_then (Some (s1, o)) (fun s => s_transit uid s SInit)
      | Some (s1, o, SrDone) => s_then (Some (s1, o)) (fun s => s_transit uid s SWait)
      | Some (s1, o, SrNoerror) => Some (s1, o)
      end
  | SWait =>
      match s_receive uid s r with
      | None => None
      | Some (s1, o, SrError) => s_then (Some (s1, o)) (fun s => s_transit uid s SInit)
      | Some (s1, o, _) => Some (s1, o)
      end
  end.

(** onModbusAduRspReceive: ModbusSessionWaitModbusAduRsp.cpp:32-52, ignored elsewhere. *)
Definition s_reply (uid : Z) (s : sess) (p : areply) (sok : bool) : option (sess * list sout) :=
  match x_st s with
  | SWait =>
      match s_send uid s p sok with
      | None => None
      | Some (s1, o, SrError) => s_then (Some (s1, o)) (fun s => s_transit uid s SInit)
      | Some (s1, o, SrDone) => s_then (Some (s1, o)) (fun s => s_transit uid s SConn)
      | Some (s1, o, SrNoerror) => Some (s1, o)
      end
  | _ => Some (s, [])
  end.

(** onTimer: ModbusSessionConnected.cpp:43-46, ModbusSessionWaitModbusAduRsp.cpp:54-58.  The timer is
    one-shot (common/reactor/Timer.cpp:71-89). *)
Definition s_timer (uid : Z) (s0 : sess) : option (sess * list sout) :=
  let s := y_timer s0 (match x_timer s0 with Some _ => Some None | None => None end) in
  match x_st s with
  | SInit => Some (s, [])
  | SConn => s_transit uid s SInit
  | SWait => s_transit uid s SConn
  end.

(** onLinkEvent(error), ModbusSession.cpp:55-58: only logged; the link has closed
    its descriptor (common/reactor/Link.cpp:168-173). *)
Definition s_error (s : sess) : sess :=
  y_link s (match x_link s with Some _ => Some false | None => None end).

(** * ModbusServer *)

Definition maxNumSession : nat := 256.   (* ModbusServer.hpp:42 *)

(** Members, ModbusServer.hpp; [v_acc]: the acceptor is open. Lines 46-49. *)
Record server := mkSrv { v_acc : bool; v_pool : pool; v_sess : list sess }.

(** Events.  [VAccept tok lok aok]: the listening socket is readable; the
    reactor has a free timer, a free link, and accepting succeeds. Where they enter: ModbusServer.cpp:38-58, ModbusSession.cpp:48-65. *)
Inductive vev :=
| VAccept (tok lok aok : bool)
| VData (uid : Z) (r : lrx)
| VError (uid : Z)
| VTimer (uid : Z)
| VReply (p : areply) (sok : bool)
| VStop.

(** Constructor and start, ModbusServer.cpp:12-31; [b0] and [q0] are the
    indeterminate members of a session (numBytes is 0, AduRequest.hpp:25);
    [n] is the size given to the session pool, maxNumSession. *)
Definition adu_init (q0 : adu_req) : adu_req := w_nbytes q0 0.
(** ModbusServer.cpp:12-31. *)
Definition srv_new (n : nat) (b0 : list Z) (q0 : adu_req) : option server :=
  option_map (fun p => mkSrv true p
    (repeat (mkSess SInit None None b0 0 0 (adu_init q0)) n)) (pool_new 0 n).

(** onReleaseSession, ModbusServer.cpp:60-65, for the releases among the
    effects of a session. *)
Fixpoint srv_release (p : pool) (os : list sout) : option pool :=
  match os with
  | [] => Some p
  | TFree u :: r => match pool_release p u with Some p' => srv_release p' r | None => None end
  | _ :: r => srv_release p r
  end.

(** Run [k] on session [uid], then hand its releases to the pool.  In the code
    the release happens inside the handler; nothing between it and the end of the handler uses
    the pool. ModbusSessionPool.cpp:39-42, ModbusServer.cpp:60-65. *)
Definition srv_on (v : server) (uid : Z) (k : sess -> option (sess * list sout)) : option (server * list sout) :=
  match pool_get (v_pool v) uid with
  | None => None
  | Some i =>
      match nth_error (v_sess v) i with
      | None => None
      | Some s =>
          match k s with
          | None => None
          | Some (s', os) =>
              match srv_release (v_pool v) os with
              | None => None
              | Some p' => Some (mkSrv (v_acc v) p' (upd (v_sess v) i s'), os)
              end
          end
      end
  end.

(** onAcceptEvent, ModbusServer.cpp:45-58, with prepare, ModbusSession.cpp:26-31.
    Reactor::createTimer/createLink (common/reactor/Reactor.cpp:57-91) throw
    when their pool is exhausted, Acceptor::accept (Acceptor.cpp:114-139) throws on failure;
    nothing undoes the steps before. *)
Definition s_prepare (uid : Z) (s : sess) (tok lok aok : bool) : option (sess * list sout) :=
  if negb tok then Some (s, [TThrow])
  else
    let s1 := y_timer s (Some None) in
    if negb lok then Some (s1, [TThrow])
    else
      let s2 := y_link s1 (Some aok) in
      if negb aok then Some (s2, [TThrow]) else s_start uid s2.

(** The handlers of the server and of its sessions. ModbusServer.cpp:38-65, ModbusSession.cpp:43-65. *)
Definition srv_step (v : server) (e : vev) : option (server * list sout) :=
  match e with
  | VAccept tok lok aok =>
      if negb (v_acc v) then Some (v, [])
      else match pool_alloc (v_pool v) with
           | None => None
           | Some (p, None) => Some (mkSrv (v_acc v) p (v_sess v), [])
           | Some (p, Some uid) =>
               srv_on (mkSrv (v_acc v) p (v_sess v)) uid (fun s => s_prepare uid s tok lok aok)
           end
  | VData uid r => srv_on v uid (fun s => s_data uid s r)
  | VError uid => srv_on v uid (fun s => Some (s_error s, []))
  | VTimer uid => srv_on v uid (fun s => s_timer uid s)
  | VReply p sok => srv_on v (p_session p) (fun s => s_reply (p_session p) s p sok)
  | VStop => Some (mkSrv false (v_pool v) (v_sess v), [])
  end.

(** A run of the server: the events with their effects. Model only. *)
Fixpoint srv_run (v : server) (es : list vev) : option (server * list (vev * list sout)) :=
  match es with
  | [] => Some (v, [])
  | e :: r =>
      match srv_step v e with
      | None => None
      | Some (v1, os) => match srv_run v1 r with
                         | None => None
                         | Some (v2, tr) => Some (v2, (e, os) :: tr)
                         end
      end
  end.

(** What the reactor can deliver: data and errors only to a link that
    holds a descriptor, timer events only to an armed timer. ModbusSessionPool.cpp:39-42. *)
Definition session_of (v : server) (uid : Z) : option sess :=
  match pool_get (v_pool v) uid with Some i => nth_error (v_sess v) i | None => None end.
(** The events that can happen now (Reactor.cpp:133-163, Link.cpp:140-175, Timer.cpp). *)
Definition srv_enabled (v : server) (e : vev) : bool :=
  match e with
  | VData uid _ | VError uid =>
      (0 <=? uid) && (uid <? 256) &&
      match session_of v uid with Some s => match x_link s with Some true => true | _ => false end | None => false end
  | VTimer uid =>
      (0 <=? uid) && (uid <? 256) &&
      match session_of v uid with Some s => match x_timer s with Some (Some _) => true | _ => false end | None => false end
  | _ => true
  end.
