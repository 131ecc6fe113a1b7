(** Model of the OPC UA connection library: common/ua/protocols/connection
    (OpcUaConnection.cpp, ClientConnection*.cpp, ServerConnection*.cpp).  Both classes have the same four states and
    differ in the handshake only, so one model with a role covers them. *)
From Verif Require Import Base ModbusCodecModel ModbusClientModel UaCodecModel UaTcpModel.
Local Open Scope Z_scope.

(** Which of the two classes, ClientConnection or ServerConnection. ClientConnection.hpp:19, ServerConnection.hpp:19. *)
Inductive prole := RClient | RServer.

(** ClientConnection.hpp:36-38, ServerConnection.hpp (same values). *)
Definition connectTimeout : Z := 3000000.
(** ClientConnection.hpp:36-38. *)
Definition receiveTimeout : Z := 1000000.
(** ClientConnection.hpp:36-38. *)
Definition establishTimeout : Z := 10000000.

(** Calls of the user.  [KConnect lok tok cok]: does the reactor have a link, a timer, does Link::connect succeed;
    [KAccept tok]: accept() with a connected link (server class only); [KSend pkt w]: send() of a buffer with the octets
    [pkt], [w] as in [u_write]. Model only. *)
Inductive pcall :=
| KConnect (lok tok cok : bool)
| KAccept (tok : bool)
| KClose
| KSend (pkt : list Z) (w : option nat).

(** Notifications, OpcUaConnection.cpp:123-141.  [NData m]: the receive buffer holds [m]. *)
Inductive pnote := NConnected | NData (m : list Z) | NClosed | NError.

(** Observable effects. Model only. *)
Inductive pout :=
| PUser (c : pcall)                    (* the user calls *)
| PNote (n : pnote)                    (* the user is called *)
| PLink                                (* takes a link: reactor.createLink, or the accepted one *)
| PTimer                               (* takes a timer: reactor.createTimer *)
| PDial                                (* Link::connect *)
| PShut                                (* Link::close *)
| PArm (us : Z)                        (* timer->start *)
| PDisarm                              (* timer->stop *)
| PTx (pkt : list Z) (taken : nat)     (* write(2) *)
| PSent (ok : bool)                    (* result of send() for the user *)
| PFreed                               (* link and timer given back *)
| PThrow.                              (* an exception is thrown *)

(** The states Init, Connecting, ReceiveAck or ReceiveHello, Connected. The class at line 8 of ClientConnectionInit.hpp, ClientConnectionConnecting.hpp, ClientConnectionReceiveAck.hpp, ClientConnectionConnected.hpp and of their Server counterparts. *)
Inductive pst := PsInit | PsDial | PsShake | PsConn.
(** Equality of states (model only). *)
Definition pst_eqb (a b : pst) : bool :=
  match a, b with PsInit, PsInit | PsDial, PsDial | PsShake, PsShake | PsConn, PsConn => true | _, _ => false end.

(** Members, OpcUaConnection.hpp; [p_timer], [p_link] as in [tconn]. Lines 104-106. *)
Record pconn := mkP { p_st : pst; p_timer : option (option Z); p_link : option bool; p_rx : sdu }.
(** Assignment to the state. FsmBase.hpp:33. *)
Definition y_st c x := mkP x (p_timer c) (p_link c) (p_rx c).
(** Assignment to the timer. OpcUaConnection.hpp:105. *)
Definition y_timer c x := mkP (p_st c) x (p_link c) (p_rx c).
(** Assignment to the link. OpcUaConnection.hpp:104. *)
Definition y_link c x := mkP (p_st c) (p_timer c) x (p_rx c).
(** Assignment to the receive buffer. OpcUaConnection.hpp:106. *)
Definition y_rx c x := mkP (p_st c) (p_timer c) (p_link c) x.
(** A connection as constructed; [b0]: the indeterminate contents of the buffer. OpcUaConnection.cpp:8-12, ServerConnection.cpp:12-16. *)
Definition conn0 (b0 : list Z) : pconn := mkP PsInit None None (mkSdu 0 0 b0).

(** ** Running statements *)
(** New state, effects, and whether an exception was thrown; [None]: undefined behaviour. Model only. *)
Definition pres := option (pconn * list pout * bool).
(** The type of an operation on a connection. Model only. *)
Definition pm := pconn -> pres.
(** Nothing (model only). *)
Definition pskip : pm := fun c => Some (c, [], false).
(** One effect (model only). *)
Definition pemit (o : pout) : pm := fun c => Some (c, [o], false).
(** An exception (model only). *)
Definition pthrow : pm := fun c => Some (c, [PThrow], true).
(** An assignment (model only). *)
Definition pset (f : pconn -> pconn) : pm := fun c => Some (f c, [], false).
(** One after the other; an exception ends it (model only: C++ sequencing). *)
Definition pseq (a b : pm) : pm := fun c =>
  match a c with
  | None => None
  | Some (c1, o1, true) => Some (c1, o1, true)
  | Some (c1, o1, false) =>
      match b c1 with
      | None => None
      | Some (c2, o2, t) => Some (c2, o1 ++ o2, t)
      end
  end.
(** Notation for [pseq]. *)
Notation "a ;>  b" := (pseq a b) (at level 61, right associativity).

(** ** OpcUaConnection *)
(** OpcUaConnection.cpp:29-32; Reactor::createLink throws when it has none left.  The old link, if any, goes. *)
Definition p_alloc_link (ok : bool) : pm := if ok then pset (fun c => y_link c (Some false)) ;> pemit PLink else pthrow.
(** OpcUaConnection.cpp:23-27. *)
Definition p_set_link : pm := pset (fun c => y_link c (Some true)) ;> pemit PLink.
(** OpcUaConnection.cpp:34-37. *)
Definition p_alloc_timer (ok : bool) : pm := if ok then pset (fun c => y_timer c (Some None)) ;> pemit PTimer else pthrow.
(** OpcUaConnection.cpp:39-43. *)
Definition p_release : pm := pset (fun c => y_timer (y_link c None) None) ;> pemit PFreed.
(** OpcUaConnection.cpp:45-48; Link::connect throws on every failure and leaves the link closed, Link.cpp:40-74. *)
Definition p_dial (ok : bool) : pm := fun c =>
  match p_link c with
  | None => None
  | Some _ => (if ok then pset (fun c => y_link c (Some true)) ;> pemit PDial else pthrow) c
  end.
(** OpcUaConnection.cpp:50-53. *)
Definition p_shut : pm := fun c =>
  match p_link c with
  | None => None
  | Some _ => (pset (fun c => y_link c (Some false)) ;> pemit PShut) c
  end.
(** OpcUaConnection.cpp:66-69. *)
Definition p_preact : pm := pset (fun c => y_rx c (sdu_reset (p_rx c))).
(** OpcUaConnection.cpp:113-121. *)
Definition p_start (us : Z) : pm := fun c =>
  match p_timer c with None => None | Some _ => (pset (fun c => y_timer c (Some (Some us))) ;> pemit (PArm us)) c end.
(** stopTimer, OpcUaConnection.cpp:118-121. *)
Definition p_stop : pm := fun c =>
  match p_timer c with None => None | Some _ => (pset (fun c => y_timer c (Some None)) ;> pemit PDisarm) c end.
(** OpcUaConnection.cpp:55-64 with Link::send, Link.cpp:101-113; [k]: what is done with the result. *)
Definition p_send (pkt : list Z) (w : option nat) (k : bool -> pm) : pm := fun c =>
  match p_link c with
  | None => None
  | Some fd => match (if fd then w else None) with
               | None => k false c
               | Some n => (pemit (PTx pkt (Nat.min n (length pkt))) ;> k true) c
               end
  end.
(** OpcUaConnection.cpp:71-111: the text of UaTcpConnection.cpp:176-216. *)
Definition p_receive (r : lrx) (k : ures -> pm) : pm := fun c =>
  match u_receive (mkT UConn (p_timer c) (p_link c) (p_rx c) None) r with
  | None => None
  | Some (t, res) => k res (y_rx c (t_rx t))
  end.

(** ** States *)
(** [cb]: what the user does when notified. OpcUaConnection.cpp:123-141. *)
Definition p_note (n : pnote) (cb : pm) : pm := pemit (PNote n) ;> cb.

(** onEnter: ClientConnectionInit.cpp:8-11, ClientConnectionConnecting.cpp:9-13, ClientConnectionReceiveAck.cpp:9-13,
    ClientConnectionConnected.cpp:8-13; ServerConnectionInit.cpp:9-12, ServerConnectionConnecting.cpp:9-13,
    ServerConnectionReceiveHello.cpp:9-13, ServerConnectionConnected.cpp:8-13. *)
Definition p_enter (st : pst) (cok : bool) (cb : pm) : pm :=
  match st with
  | PsInit => p_release
  | PsDial => p_dial cok ;> p_start connectTimeout
  | PsShake => p_start receiveTimeout ;> p_preact
  | PsConn => p_note NConnected cb ;> p_preact ;> p_start establishTimeout
  end.
(** onExit: ClientConnectionConnecting.cpp:55-58, ClientConnectionReceiveAck.cpp:43-46, ClientConnectionConnected.cpp:50-53
    and ClientConnectionInit.cpp:21-23; the server class has the same. *)
Definition p_exit (st : pst) : pm := match st with PsInit => pskip | _ => p_stop end.
(** transit, common/utils/FsmBase.hpp:22-35. *)
Definition p_transit (st : pst) (cok : bool) (cb : pm) : pm := fun c =>
  if pst_eqb (p_st c) st then Some (c, [], false)
  else (p_exit (p_st c) ;> pset (fun c => y_st c st) ;> p_enter st cok cb) c.
(** transit to Init, FsmBase.hpp:22-35. *)
Definition p_home : pm := p_transit PsInit true pskip.

(** closeLink, notifyError, transit to Init: ClientConnectionConnecting.cpp:30-36, 47-53 and the like. *)
Definition p_fail (cb : pm) : pm := p_shut ;> p_note NError cb ;> p_home.

(** ClientConnection.cpp:21-29, ServerConnection.cpp:22-35, OpcUaConnection.cpp:55-64.  onConnect and onAccept are
    ClientConnectionInit.cpp:13-19, ServerConnectionInit.cpp:14-27; onClose is ClientConnectionConnected.cpp:37-41,
    ServerConnectionConnected.cpp:37-41; otherwise logged and ignored (ClientConnectionState.hpp, ServerConnectionState.hpp).
    The client class has no accept(). *)
Definition p_call (role : prole) (k : pcall) : pm :=
  pemit (PUser k) ;> fun c =>
  match k, p_st c with
  | KConnect lok tok cok, PsInit => (p_alloc_link lok ;> p_alloc_timer tok ;> p_transit PsDial cok pskip) c
  | KAccept tok, PsInit =>
      match role with
      | RServer => (p_set_link ;> p_alloc_timer tok ;> p_transit PsShake true pskip) c
      | RClient => pskip c
      end
  | KClose, PsConn => (p_shut ;> p_home) c
  | KSend pkt w, _ => p_send pkt w (fun ok => pemit (PSent ok)) c
  | _, _ => pskip c
  end.
(** Several calls of the user in a row. Model only. *)
Fixpoint p_calls (role : prole) (ks : list pcall) : pm :=
  match ks with [] => pskip | k :: r => p_call role k ;> p_calls role r end.

(** ** Handshake *)
(** sendHello, ClientConnection.cpp:88-113; sendReverseHello, ServerConnection.cpp:58-76 (the header's size member is
    overwritten by setPayloadSizeToHdr; null strings are written as length -1). *)
Definition greeting (role : prole) : wr :=
  match role with
  | RClient => enc_mhdr (mkMh [72; 69; 76] 70 0) ;; enc_hello (mkHello 0 uaBufSize uaBufSize uaBufSize uaMaxChunks [])
  | RServer => enc_mhdr (mkMh [82; 72; 69] 70 0) ;; enc_rhello rhello0
  end.
(** sendAcknowledge, ServerConnection.cpp:111-137. *)
Definition ack_octets_p : wr :=
  enc_mhdr (mkMh [65; 67; 75] 70 0) ;; enc_ack (mkAck 0 uaBufSize uaBufSize (u32 (uaMaxChunks * uaBufSize)) uaMaxChunks).
(** Encode and write, the common part of sendHello, sendReverseHello and sendAcknowledge, ClientConnection.cpp:88-113, ServerConnection.cpp:58-76, 111-137. *)
Definition p_send_enc (e : wr) (w : option nat) (k : bool -> pm) : pm := fun c =>
  match tx_packet e [] with None => None | Some pkt => p_send pkt w k c end.

(** isMsgHello, isMsgAck, MessageHeader.hpp:37-45. *)
Definition has_octets (m : list Z) (t : list Z) : bool :=
  match m, t with
  | a :: b :: c :: _, [x; y; z] => (a =? x) && (b =? y) && (c =? z)
  | _, _ => false
  end.

(** [codec >> hdr >> hello], ClientConnection.cpp:77-81. *)
Definition dec_ack_msg : rd ack := do h <- dec_mhdr mhdr0; dec_ack.

(** receiveAck, ClientConnection.cpp:52-86, and ClientConnectionReceiveAck.cpp:15-34; receiveHello, ServerConnection.cpp:78-109,
    and ServerConnectionReceiveHello.cpp:15-53.  The only throwing point is the length of the url, 32 octets behind the read
    cursor. *)
Definition p_shake (role : prole) (w : option nat) (cb : pm) : pm := fun c =>
  let b := p_rx c in
  let m := skipn (k_tail b) (k_pkt b) in
  match role with
  | RClient =>
      if has_octets m [65; 67; 75] then
        match dec_ack_msg b with
        | DOk _ b' => p_transit PsConn true cb (y_rx c b')
        | _ => None
        end
      else p_fail cb c
  | RServer =>
      if has_octets m [72; 69; 76] then
        match dec_hello_msg b with
        | DOk _ b' => p_send_enc ack_octets_p w (fun ok => if ok then p_transit PsConn true cb else p_fail cb) (y_rx c b')
        | DThrow => pthrow (y_rx c (mkSdu (k_tail b + 32) (k_head b) (k_pkt b)))
        | DAbort | DOob => None
        end
      else p_fail cb c
  end.

(** ** Events *)
(** [us]: the calls the user makes from inside the notification this event leads to. *)
Inductive pev :=
| PvCall (k : pcall)                                        (* call of the user from outside any notification *)
| PvConnected (w : option nat) (us : list pcall)            (* LinkEvent::connected *)
| PvData (r : lrx) (w : option nat) (us : list pcall)       (* LinkEvent::data *)
| PvError (us : list pcall)                                 (* LinkEvent::error; the link has closed itself, Link.cpp:168-173 *)
| PvTimer (us : list pcall).                                (* the timer expired *)

(** The reactor reports events of open links and running timers only. Model only. *)
Definition p_enabled (c : pconn) (e : pev) : bool :=
  match e with
  | PvCall _ => true
  | PvConnected _ _ | PvData _ _ _ | PvError _ => match p_link c with Some true => true | _ => false end
  | PvTimer _ => match p_timer c with Some (Some _) => true | _ => false end
  end.

(** The state handlers: ClientConnectionConnecting.cpp:15-53, ClientConnectionReceiveAck.cpp:15-41,
    ClientConnectionConnected.cpp:15-48; ServerConnectionConnecting.cpp:15-52, ServerConnectionReceiveHello.cpp:15-61,
    ServerConnectionConnected.cpp:15-48; otherwise logged and ignored. *)
Definition p_step (role : prole) (e : pev) : pm := fun c =>
  match e with
  | PvCall k => p_call role k c
  | PvConnected w us =>
      match p_st c with
      | PsDial => p_send_enc (greeting role) w
                    (fun ok => if ok then p_transit PsShake true pskip else p_fail (p_calls role us)) c
      | _ => pskip c
      end
  | PvData r w us =>
      match p_st c with
      | PsShake => p_receive r (fun res => match res with
                                           | UrDone => p_shake role w (p_calls role us)
                                           | UrError => p_fail (p_calls role us)
                                           | _ => pskip
                                           end) c
      | PsConn => p_receive r (fun res => match res with
                                          | UrDone => fun c => (p_note (NData (firstn (k_head (p_rx c)) (k_pkt (p_rx c)))) (p_calls role us) ;> p_preact) c
                                          | UrError => p_fail (p_calls role us)
                                          | _ => pskip
                                          end) c
      | _ => pskip c
      end
  | PvError us =>
      match p_st c with
      | PsDial => (p_note NError (p_calls role us) ;> p_home) (y_link c (Some false))
      | _ => pskip (y_link c (Some false))
      end
  | PvTimer us =>
      match p_st c with
      | PsInit => pskip (y_timer c (Some None))
      | PsDial | PsShake => p_fail (p_calls role us) (y_timer c (Some None))
      | PsConn => (p_shut ;> p_note NClosed (p_calls role us) ;> p_home) (y_timer c (Some None))
      end
  end.
