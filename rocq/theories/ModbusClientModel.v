(** Model of modbus/client: ModbusAduStorage, ModbusClient and its six states.
    The client is written against the four storage operations so that it can be
    run both on the concrete storage (ring buffers, octet array) and on a plain list;
    ModbusClientProofs shows the two give the same behaviour. *)
From Verif Require Import Base QueueModel MsgStorageModel ModbusCodecModel.
Local Open Scope Z_scope.

(** A request as handed to ModbusClient::receive(ModbusClientAduReqItem const&),
    ModbusClient.cpp:248-268: the client id and the ADU fields.  [q_data] holds
    the octets of the item's data array. *)
Record item := mkItem { i_client : Z; i_req : adu_req }.

(** * ModbusAduStorage *)

(** The data pointer stored with an ADU: null, an offset into [buffer], or (only
    in slots of refused requests) the caller's pointer. ModbusAduStorage.cpp:33, 42, 46. *)
Inductive dptr := PNull | PBuf (off : Z) | PExt.
(** An element of [adus], ModbusAduStorage.hpp:38. *)
Record slot := mkSlot { sl_client : Z; sl_req : adu_req; sl_ptr : dptr }.

(** Members, ModbusAduStorage.hpp:33-39. *)
Record astore := mkAS { as_free : queue Z; as_busy : queue Z; as_adus : list slot; as_mem : memory }.
(** ModbusAduStorage.hpp:33. *)
Definition as_capacity : nat := 64.
(** An entry never written: the vector value-initialises it, ModbusAduStorage.cpp:13, AduRequest.hpp:13-27. *)
Definition slot0 : slot := mkSlot 0 (mkReq 0 0 0 0 0 0 []) PNull.

(** Constructor, ModbusAduStorage.cpp:10-19; [m0] is the indeterminate buffer.
    The id loop is that of MsgStorageModel.st_fill. *)
Definition as_new (m0 : memory) : option astore :=
  option_map (fun f => mkAS f (q_new as_capacity) (repeat slot0 as_capacity) m0)
             (st_fill (q_new as_capacity) 0 as_capacity).

(** push, ModbusAduStorage.cpp:25-51.  [None]: undefined behaviour. *)
Definition as_push (s : astore) (it : item) : option (astore * bool) :=
  if q_empty (as_free s) then Some (s, false)
  else match q_front (as_free s) with
       | None => None
       | Some id =>
           if (Z.to_nat id <? length (as_adus s))%nat then
             let nb := q_nbytes (i_req it) in
             let adus1 := upd (as_adus s) (Z.to_nat id) (mkSlot (i_client it) (i_req it) PExt) in
             if maxAduLen <? nb then Some (mkAS (as_free s) (as_busy s) adus1 (as_mem s), false)
             else
               (* memcpy reads nb octets from the caller's array *)
               if negb (nb <=? Z.of_nat (length (q_data (i_req it)))) then None else
               let '(p, m) := if nb =? 0 then (PNull, as_mem s)
                              else (PBuf (maxAduLen * id),
                                    write_bytes (as_mem s) (maxAduLen * id) (firstn (Z.to_nat nb) (q_data (i_req it)))) in
               if negb (maxAduLen * id + nb <=? maxAduLen * Z.of_nat as_capacity) then None else
               match q_push (as_busy s) id, q_pop (as_free s) with
               | Some b', Some f' =>
                   Some (mkAS f' b' (upd adus1 (Z.to_nat id) (mkSlot (i_client it) (i_req it) p)) m, true)
               | _, _ => None
               end
           else None
       end.

(** empty, ModbusAduStorage.cpp:73-76. *)
Definition as_empty (s : astore) : bool := q_empty (as_busy s).

(** The ADU a slot refers to: the stored fields with the octets its pointer
    addresses.  The codec only looks at the first numBytes of them. ModbusAduStorage.cpp:59. *)
Definition slot_view (m : memory) (x : slot) : item :=
  let q := sl_req x in
  mkItem (sl_client x)
    (mkReq (q_tid q) (q_func q) (q_addr q) (q_start q) (q_nitems q) (q_nbytes q)
       (match sl_ptr x with PBuf off => read_bytes m off (Z.to_nat (q_nbytes q)) | _ => [] end)).

(** front, ModbusAduStorage.cpp:53-60 ([None] when empty: indeterminate id). *)
Definition as_front (s : astore) : option item :=
  if as_empty s then None
  else match q_front (as_busy s) with
       | Some id => option_map (slot_view (as_mem s)) (nth_error (as_adus s) (Z.to_nat id))
       | None => None
       end.

(** pop, ModbusAduStorage.cpp:62-71. *)
Definition as_pop (s : astore) : option astore :=
  if as_empty s then Some s
  else match q_front (as_busy s) with
       | Some id => match q_push (as_free s) id, q_pop (as_busy s) with
                    | Some f', Some b' => Some (mkAS f' b' (as_adus s) (as_mem s))
                    | _, _ => None
                    end
       | None => None
       end.

(** * ModbusClient *)

(** The states: the class declared at line 8 of ModbusClientInit.hpp, ModbusClientConnect.hpp, ModbusClientConnected.hpp,
    ModbusClientSend.hpp, ModbusClientReceive.hpp and ModbusClientBackoff.hpp. *)
Inductive cst := CInit | CConnect | CConnected | CSend | CReceive | CBackoff.
(** Equality of states (model only). *)
Definition cst_eqb (a b : cst) : bool :=
  match a, b with
  | CInit, CInit | CConnect, CConnect | CConnected, CConnected
  | CSend, CSend | CReceive, CReceive | CBackoff, CBackoff => true
  | _, _ => false
  end.

(** Observable effects. Model only. *)
Inductive cout :=
| ORsp (client tid : Z) (ok : bool) (err : Z) (data : list Z)  (* MsgModbusClientAduRsp *)
| OTx (bs : list Z)        (* octets handed to link->send successfully *)
| OConnect                 (* link->connect started *)
| OClose                   (* link->close *)
| OTimer (us : Z)          (* timer->start *)
| OStop                    (* timer->stop *)
| OThrow.                  (* exception out of the handler (link->connect) *)

(** Result of link->receive, common/reactor/Link.cpp:115-133. *)
Inductive lrx := RxNa | RxErr | RxBytes (bs : list Z).

(** Inputs.  [sok]: would the kernel accept the write; [cok]: would connect
    succeed. Where they enter: ModbusClient.cpp:241-289. *)
Inductive cev :=
| EStart (cok : bool)
| EReq (it : item)
| EConnected
| EData (r : lrx)
| EError                    (* the link closed itself and reports an error *)
| ETimer (sok cok : bool).

(** ModbusClient.hpp:66. *)
Definition connectTimeout : Z := 3000000.
(** ModbusClient.hpp:67. *)
Definition backoffTimeout : Z := 500000.
(** ModbusClient.hpp:68. *)
Definition receiveTimeout : Z := 5000000.
(** ModbusClient.hpp:69. *)
Definition sendDelay : Z := 10000.

(** Status, ModbusClient.hpp:20-26. *)
Inductive cstatus := SNoerror | SDone | SError | SCodec.

Section Client.
Context {S : Type}.
Variables (s_empty : S -> bool) (s_front : S -> option item)
          (s_pop : S -> option S) (s_push : S -> item -> option (S * bool)).

(** Members, ModbusClient.hpp:80-86.  [c_fd]: the link holds a descriptor;
    [c_timer]: armed interval; [c_buf]/[c_pos]/[c_len]: pduBuf. *)
Record client := mkC {
  c_st : cst; c_fd : bool; c_timer : option Z; c_store : S;
  c_buf : list Z; c_pos : nat; c_len : Z
}.

(** Assignment to the state, FsmBase.hpp:33. *)
Definition set_st c x := mkC x (c_fd c) (c_timer c) (c_store c) (c_buf c) (c_pos c) (c_len c).
(** The link gains or loses its descriptor, Link.cpp:40-93. *)
Definition set_fd c x := mkC (c_st c) x (c_timer c) (c_store c) (c_buf c) (c_pos c) (c_len c).
(** The timer is started or stopped, Timer.cpp. Timer.cpp:71-102. *)
Definition set_timer c x := mkC (c_st c) (c_fd c) x (c_store c) (c_buf c) (c_pos c) (c_len c).
(** The storage changes, ModbusAduStorage.cpp:25-71. *)
Definition set_store c x := mkC (c_st c) (c_fd c) (c_timer c) x (c_buf c) (c_pos c) (c_len c).
(** Assignment to the buffer with its cursors, PduBuffer.hpp. PduBuffer.hpp:55-90, 103-105. *)
Definition set_buf c b p l := mkC (c_st c) (c_fd c) (c_timer c) (c_store c) b p l.

(** provideRspError(AduRequest const&), ModbusClient.cpp:198-208. *)
Definition rsp_error (it : item) : cout := ORsp (i_client it) (q_tid (i_req it)) false 0 [].

(** provideRspError(), ModbusClient.cpp:232-239; [fuel] bounds the loop (it
    runs once per stored request). *)
Fixpoint flush (fuel : nat) (s : S) : option (S * list cout) :=
  if s_empty s then Some (s, [])
  else match fuel with
       | O => None
       | Datatypes.S k =>
           match s_front s, s_pop s with
           | Some it, Some s' =>
               match flush k s' with
               | Some (s2, os) => Some (s2, rsp_error it :: os)
               | None => None
               end
           | _, _ => None
           end
       end.

(** onExit of the states: ModbusClientConnect.cpp:38-41, ModbusClientBackoff.cpp:25-28,
    ModbusClientSend.cpp:68-71, ModbusClientReceive.cpp:55-59 with receivePostaction,
    ModbusClient.cpp:188-196. *)
Definition on_exit (c : client) : option (client * list cout) :=
  match c_st c with
  | CInit | CConnected => Some (c, [])
  | CConnect | CBackoff | CSend => Some (set_timer c None, [OStop])
  | CReceive =>
      match s_pop (c_store c) with
      | Some s' => Some (set_store (set_timer c None) s', [OStop])
      | None => None
      end
  end.

(** onEnter of the states: ModbusClientConnect.cpp:11-15 (link->connect throws when the
    link is in use, Link.cpp:42-45), ModbusClientBackoff.cpp:10-13, ModbusClientSend.cpp:12-15,
    ModbusClientReceive.cpp:11-15 with receivePreaction. *)
Definition on_enter (c : client) (cok : bool) : client * list cout :=
  match c_st c with
  | CInit | CConnected => (c, [])
  | CConnect =>
      let c1 := set_timer c (Some connectTimeout) in
      if c_fd c || negb cok then (c1, [OTimer connectTimeout; OThrow])
      else (set_fd c1 true, [OTimer connectTimeout; OConnect])
  | CBackoff => (set_timer c (Some backoffTimeout), [OTimer backoffTimeout])
  | CSend => (set_timer c (Some sendDelay), [OTimer sendDelay])
  | CReceive => (set_buf (set_timer c (Some receiveTimeout)) (c_buf c) 0 0, [OTimer receiveTimeout])
  end.

(** transit, ModbusClientFsm.hpp:29-42. *)
Definition transit (c : client) (st : cst) (cok : bool) : option (client * list cout) :=
  if cst_eqb (c_st c) st then Some (c, [])
  else match on_exit c with
       | None => None
       | Some (c1, o1) => let '(c2, o2) := on_enter (set_st c1 st) cok in Some (c2, o1 ++ o2)
       end.

(** close(), ModbusClient.cpp:34-37 (Link::close is idempotent). *)
Definition close (c : client) : client * list cout := (set_fd c false, [OClose]).

(** The error reaction shared by ModbusClientConnected.cpp:20-26, ModbusClientSend.cpp:24-30, 48-54 and
    ModbusClientReceive.cpp:24-30. *)
Definition fail_all (c : client) : option (client * list cout) :=
  match flush (Datatypes.S as_capacity) (c_store c) with
  | None => None
  | Some (s', o1) =>
      let '(c1, o2) := close (set_store c s') in
      match transit c1 CBackoff false with
      | None => None
      | Some (c2, o3) => Some (c2, o1 ++ o2 ++ o3)
      end
  end.

(** send(), ModbusClient.cpp:49-75. *)
Definition c_send (c : client) (sok : bool) : option (client * list cout * cstatus) :=
  if s_empty (c_store c) then Some (c, [], SNoerror)
  else match s_front (c_store c) with
       | None => None
       | Some it =>
           match encode_req (i_req it) with
           | EncOk bs => if sok && c_fd c then Some (c, [OTx bs], SDone) else Some (c, [], SError)
           | EncFail _ =>
               match s_pop (c_store c) with
               | Some s' => Some (set_store c s', [rsp_error it], SCodec)
               | None => None
               end
           | EncOverflow | EncBadRead => None
           end
       end.

(** The octets of the buffer after a read of [bs] at position [len]. ModbusClient.cpp:90, 108. *)
Definition buf_write (b : list Z) (len : nat) (bs : list Z) : list Z :=
  firstn len b ++ bs ++ skipn (len + length bs) b.

(** A fresh AduRespond, ModbusClient.cpp:139 (numBytes is 0, the rest is
    indeterminate and never read before being written). *)
Definition rsp0 : adu_rsp := mkRsp 0 0 0 0 0 0 0 (repeat 0 260).

(** receive(), ModbusClient.cpp:82-186. *)
Definition c_receive (c : client) (r : lrx) : option (client * list cout * cstatus) :=
  if maxAduLen <? c_len c then Some (c, [], SDone)
  else match (if c_fd c then r else RxErr) with
  | RxNa => Some (c, [], SNoerror)
  | RxErr => Some (c, [], SError)
  | RxBytes bs0 =>
      (* the kernel delivers at most capacity() octets *)
      let bs := firstn (Z.to_nat (bufMaxLen - c_len c)) bs0 in
      let b := buf_write (c_buf c) (Z.to_nat (c_len c)) bs in
      if s_empty (c_store c) then Some (set_buf c b (c_pos c) (c_len c), [], SDone)
      else
        let len := c_len c + Z.of_nat (length bs) in
        let c1 := set_buf c b (c_pos c) len in
        match frame_check b len with
        | FrWait => Some (c1, [], SNoerror)
        | FrBadLength => Some (c1, [], SDone)
        | FrInvalid =>
            match s_front (c_store c) with
            | Some it => Some (c1, [rsp_error it], SDone)
            | None => None
            end
        | FrComplete =>
            match s_front (c_store c) with
            | None => None
            | Some it =>
                match decode_rsp (skipn (c_pos c) b) rsp0 with
                | DUB => None
                | DFail rest =>
                    Some (set_buf c1 b (512 - length rest)%nat len, [rsp_error it], SDone)
                | DOk a rest =>
                    let c2 := set_buf c1 b (512 - length rest)%nat len in
                    let q := i_req it in
                    if negb (q_tid q =? a_tid a) then Some (c2, [rsp_error it], SDone)
                    else if negb (q_addr q =? a_addr a) then Some (c2, [rsp_error it], SDone)
                    else if modbusErrorFn =? a_func a then
                      Some (c2, [ORsp (i_client it) (q_tid q) true (a_error a) []], SDone)
                    else if negb (q_func q =? a_func a) then Some (c2, [rsp_error it], SDone)
                    else Some (c2, [ORsp (i_client it) (a_tid a) true 0
                                         (firstn (Z.to_nat (a_nbytes a)) (a_data a))], SDone)
                end
            end
        end
  end.

(** Sequencing of a handler: run [k] on the new state, keep outputs. Model only. *)
Definition andthen (o : option (client * list cout)) (k : client -> option (client * list cout)) :=
  match o with
  | None => None
  | Some (c, o1) => match k c with None => None | Some (c', o2) => Some (c', o1 ++ o2) end
  end.

(** onDataReceived of the states: ModbusClientConnected.cpp:16-33, ModbusClientSend.cpp:20-37,
    ModbusClientReceive.cpp:20-46; ModbusClientState.hpp:23 otherwise. *)
Definition on_data (c : client) (r : lrx) : option (client * list cout) :=
  match c_st c with
  | CConnected | CSend =>
      match c_receive c r with
      | None => None
      | Some (c1, o1, SError) => andthen (Some (c1, o1)) fail_all
      | Some (c1, o1, _) => Some (c1, o1)
      end
  | CReceive =>
      match c_receive c r with
      | None => None
      | Some (c1, o1, SError) => andthen (Some (c1, o1)) fail_all
      | Some (c1, o1, SDone) => andthen (Some (c1, o1)) (fun c => transit c CSend false)
      | Some (c1, o1, _) => Some (c1, o1)
      end
  | _ => Some (c, [])
  end.

(** onTimer of the states: ModbusClientConnect.cpp:32-36, ModbusClientBackoff.cpp:20-23, ModbusClientSend.cpp:39-66,
    ModbusClientReceive.cpp:48-53 with provideRspTimeout, ModbusClient.cpp:210-218.  The timer is
    one-shot (common/reactor/Timer.cpp:71-89), so it is disarmed when it
    fires. *)
Definition on_timer (c0 : client) (sok cok : bool) : option (client * list cout) :=
  let c := set_timer c0 None in
  match c_st c with
  | CInit | CConnected => Some (c, [])
  | CConnect => let '(c1, o1) := close c in andthen (Some (c1, o1)) (fun c => transit c CBackoff cok)
  | CBackoff => transit c CConnect cok
  | CSend =>
      match c_send c sok with
      | None => None
      | Some (c1, o1, SCodec) => Some (set_timer c1 (Some sendDelay), o1 ++ [OTimer sendDelay])
      | Some (c1, o1, SError) => andthen (Some (c1, o1)) fail_all
      | Some (c1, o1, SNoerror) => andthen (Some (c1, o1)) (fun c => transit c CConnected cok)
      | Some (c1, o1, SDone) => andthen (Some (c1, o1)) (fun c => transit c CReceive cok)
      end
  | CReceive =>
      if s_empty (c_store c) then transit c CSend cok
      else match s_front (c_store c) with
           | None => None
           | Some it => andthen (Some (c, [rsp_error it])) (fun c => transit c CSend cok)
           end
  end.

(** receive(ModbusClientAduReqItem const&), ModbusClient.cpp:248-268, with
    onReceiveTransactionReq of the states (ModbusClientInit.cpp:15-18, ModbusClientConnect.cpp:17-20,
    ModbusClientBackoff.cpp:15-18, ModbusClientConnected.cpp:11-14, ModbusClientSend.cpp:17-18,
    ModbusClientReceive.cpp:17-18). *)
Definition on_req (c : client) (it : item) : option (client * list cout) :=
  match s_push (c_store c) it with
  | None => None
  | Some (s', false) => Some (set_store c s', [rsp_error it])
  | Some (s', true) =>
      let c1 := set_store c s' in
      match c_st c with
      | CInit | CConnect | CBackoff =>
          match flush (Datatypes.S as_capacity) (c_store c1) with
          | Some (s2, os) => Some (set_store c1 s2, os)
          | None => None
          end
      | CConnected => transit c1 CSend false
      | CSend | CReceive => Some (c1, [])
      end
  end.

(** One event: start(), receive(), onLinkEvent, onTimerEvent
    (ModbusClient.cpp:241-289). *)
Definition c_step (c : client) (e : cev) : option (client * list cout) :=
  match e with
  | EStart cok => match c_st c with CInit => transit c CConnect cok | _ => Some (c, []) end
  | EReq it => on_req c it
  | EConnected => match c_st c with CConnect => transit c CConnected false | _ => Some (c, []) end
  | EData r => on_data c r
  | EError =>
      let c1 := set_fd c false in
      match c_st c with CConnect => transit c1 CBackoff false | _ => Some (c1, []) end
  | ETimer sok cok => on_timer c sok cok
  end.

(** Which events the environment can produce: link events need an open link
    (LinkModel), the timer must be armed (timerfd semantics), the item holds
    as many octets as it claims. Model only. *)
Definition enabled (c : client) (e : cev) : bool :=
  match e with
  | EStart _ => true
  | EReq it => q_nbytes (i_req it) <=? Z.of_nat (length (q_data (i_req it)))
  | EConnected | EData _ | EError => c_fd c
  | ETimer _ _ => match c_timer c with Some _ => true | None => false end
  end.

(** Constructor, ModbusClient.cpp:14-22. *)
Definition c_new (s : S) (b0 : list Z) : client := mkC CInit false None s b0 0 0.

(** A history: None if it contains an event that cannot occur or reaches
    undefined behaviour. Model only. *)
Fixpoint c_run (c : client) (es : list cev) : option (client * list (cev * list cout)) :=
  match es with
  | [] => Some (c, [])
  | e :: r =>
      if enabled c e then
        match c_step c e with
        | None => None
        | Some (c1, os) =>
            match c_run c1 r with
            | None => None
            | Some (c2, tr) => Some (c2, (e, os) :: tr)
            end
        end
      else None
  end.

End Client.
Arguments client : clear implicits.

(** * The list storage *)
(** Model only. *)
Definition ls_empty (l : list item) : bool := match l with [] => true | _ => false end.
(** front() of the list storage. Model only. *)
Definition ls_front (l : list item) : option item := match l with [] => None | x :: _ => Some x end.
(** pop() of the list storage. Model only. *)
Definition ls_pop (l : list item) : option (list item) := match l with [] => Some [] | _ :: r => Some r end.
(** The stored copy of a request: exactly numBytes octets of data. ModbusAduStorage.cpp:33-47. *)
Definition stored (it : item) : item :=
  let q := i_req it in
  mkItem (i_client it) (mkReq (q_tid q) (q_func q) (q_addr q) (q_start q) (q_nitems q) (q_nbytes q)
                              (firstn (Z.to_nat (q_nbytes q)) (q_data q))).
(** push() of the list storage: refused exactly when the real one is, ModbusAduStorage.cpp:25-51. *)
Definition ls_push (l : list item) (it : item) : option (list item * bool) :=
  if negb (length l <? as_capacity)%nat then Some (l, false)
  else if maxAduLen <? q_nbytes (i_req it) then Some (l, false)
  else if negb (q_nbytes (i_req it) <=? Z.of_nat (length (q_data (i_req it)))) then None
  else Some (l ++ [stored it], true).

(** Concrete and list-based client. Model only. *)
Definition ac_run := c_run as_empty as_front as_pop as_push.
(** The client over the list storage, several events. Model only. *)
Definition lc_run := c_run ls_empty ls_front ls_pop ls_push.
(** The client over the list storage, one event. Model only. *)
Definition lc_step := c_step ls_empty ls_front ls_pop ls_push.
