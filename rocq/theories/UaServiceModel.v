(** Model of the OPC UA service layer of the server: ua/service (UaService.cpp, UaServiceComponent.cpp),
    ua/service/session, ua/service/attribute, ua/service/discovery. *)
From Verif Require Import Base QueueModel PoolModel UaCodecModel UaTcpModel UaChanModel.
Local Open Scope Z_scope.

(** Observable effects. Model only. *)
Inductive sout :=
| SSend (m : emsg)    (* MsgUaEncodedMessageSendReq to the secure channel layer *)
| SAssoc (h : ehdr)   (* MsgUaAssociateSecureChannelReq to the secure channel layer *)
| SFree (sid : Z)     (* session id given back *)
| SInitRsp            (* MsgUaServiceInitRsp *)
| SReleaseRsp         (* MsgUaServiceReleaseRsp *)
| SThrow.             (* exception leaves the message handler *)

(** A response: encoded into a new packet, copied into a message with header [h] (UaSession.cpp:45-54, 73-83,
    93-102; UaAttributeService.cpp:32-41; UaGetEndpoints.cpp:25-44). [None]: write outside packet or message. *)
Definition esend (h : ehdr) (e : wr) : option sout :=
  match e (mkSdu 0 0 (repeat 0 (Z.to_nat maxPacketLen))) with
  | None => None
  | Some b => if emsgRoom <? Z.of_nat (k_head b) then None
              else Some (SSend (mkEm h (Z.of_nat (k_head b)) (firstn (k_head b) (k_pkt b))))
  end.

(** The string constants of UaSession.cpp:38-42, UaGetEndpoints.cpp:32-36. *)
Definition endpointUrl : ustr :=   (* "opc.tcp://localhost:4369" *)
  [111; 112; 99; 46; 116; 99; 112; 58; 47; 47; 108; 111; 99; 97; 108; 104; 111; 115; 116; 58; 52; 51; 54; 57].
(** UaSession.cpp:39. *)
Definition applicationUri : ustr := (* "urn:youkozlov-VivoBook-ASUSLaptop-X513EAN-K513EA:uscada" *)
  [117; 114; 110; 58; 121; 111; 117; 107; 111; 122; 108; 111; 118; 45; 86; 105; 118; 111; 66; 111; 111; 107; 45; 65; 83; 85; 83; 76; 97; 112; 116;
   111; 112; 45; 88; 53; 49; 51; 69; 65; 78; 45; 75; 53; 49; 51; 69; 65; 58; 117; 115; 99; 97; 100; 97].
(** UaSession.cpp:40. *)
Definition productUri : ustr := [117; 114; 110; 58; 117; 115; 99; 97; 100; 97]. (* "urn:uscada" *)
(** UaSession.cpp:37-42, UaGetEndpoints.cpp:31-36; the other members keep their initial values. *)
Definition ourEndpoint : epdesc :=
  mkEd endpointUrl (mkAd applicationUri productUri ltext0 0 [] [] []) [] 1 policyNone [] [] 0.
(** Response header with timestamp and request handle set. E.g. UaSession.cpp:32-33. *)
Definition rsphdr_of (now handle : Z) : rsphdr := mkRp now handle 0 diag0 [] extobj0.

(** * UaSession *)
(** UaSessionInit, UaSessionCreated, UaSessionActivated. The class at line 8 of each header. *)
Inductive sstate := SsInit | SsCreated | SsActivated.
(** Members, UaSession.hpp. Line 36, and the state of FsmBase. *)
Record sess := mkSs { ss_st : sstate; ss_chan : option Z }.

(** Assignment to the session id of a header. UaSession.cpp:69, 80. *)
Definition with_sess (h : ehdr) (sid : Z) : ehdr := mkEh (e_conn h) (e_chan h) (e_req h) sid.
(** Encode and send, or undefined behaviour of the encoder (model only: C++ sequencing). *)
Definition andsend (o : option sout) (k : sout -> option (sess * list sout)) : option (sess * list sout) :=
  match o with Some x => k x | None => None end.

(** UaSession.cpp:29-56, UaSessionInit.cpp:13-17; logged and ignored in the other states (UaSessionState.hpp). *)
Definition s_create (sid : Z) (s : sess) (h : ehdr) (r : csreq) (now : Z) : option (sess * list sout) :=
  match ss_st s with
  | SsInit =>
      andsend (esend h (enc_cont enc_csrsp (cont_new 464 (mkCsr (rsphdr_of now (rq_handle (cs_hdr r))) (mkNid 0 (IdNum sid)) (mkNid 0 (IdNum sid))
                                              (cs_tmo r) [] [] [ourEndpoint] [] sigdata0 (cs_max r)))))
              (fun o => Some (mkSs SsCreated (ss_chan s), [o]))
  | _ => Some (s, [])
  end.
(** UaSession.cpp:58-85, UaSessionCreated.cpp:9-13, UaSessionActivated.cpp:8-11. *)
Definition s_activate (sid : Z) (s : sess) (h : ehdr) (r : asreq) (now : Z) : option (sess * list sout) :=
  match ss_st s with
  | SsInit => Some (s, [])
  | _ =>
      andsend (esend (with_sess h sid) (enc_cont enc_asrsp (cont_new 470 (mkAsr (rsphdr_of now (rq_handle (as_hdr r))) [] [] []))))
              (fun o => Some (mkSs SsActivated (Some (e_chan h)), [SAssoc (with_sess h sid); o]))
  end.
(** UaSession.cpp:87-104, UaSessionCreated.cpp:15-19, UaSessionActivated.cpp:13-17; then transit to Init whose
    onEnter releases: UaSessionInit.cpp:8-11, UaSession.cpp:23-27. *)
Definition s_close (sid : Z) (s : sess) (h : ehdr) (r : clsreq) (now : Z) : option (sess * list sout) :=
  match ss_st s with
  | SsInit => Some (s, [])
  | _ =>
      andsend (esend h (enc_cont enc_clsrsp (cont_new 476 (mkClr (rsphdr_of now (rq_handle (cl_hdr r)))))))
              (fun o => Some (mkSs SsInit None, [o; SFree sid]))
  end.
(** UaSession.cpp:106-115, UaSessionActivated.cpp:19-22 with the handler of UaRead.cpp:26-29, which is
    UaAttributeService.cpp:26-42: no results. *)
Definition s_read (s : sess) (h : ehdr) (r : rdreq) (now : Z) : option (sess * list sout) :=
  match ss_st s with
  | SsActivated =>
      if match ss_chan s with Some c => c =? e_chan h | None => false end
      then andsend (esend h (enc_cont enc_rdrsp (cont_new 634 (mkRs (rsphdr_of now (rq_handle (rr_hdr r))) [] []))))
                   (fun o => Some (s, [o]))
      else Some (s, [])
  | _ => Some (s, [])
  end.

(** * UaService *)
(** Members, UaSessionService.hpp:34, with the sessions of the pool. *)
Record svc := mkSv { v_pool : pool; v_ss : list sess }.

(** UaService.cpp:11-17, UaSessionService.cpp:10-14, UaEntityPool.hpp:17-31. *)
Definition svc_new : option svc := option_map (fun p => mkSv p (repeat (mkSs SsInit None) 32)) (pool_new 1 32).

(** UaSessionService.cpp:27-30. *)
Fixpoint svc_release (p : pool) (os : list sout) : option pool :=
  match os with
  | [] => Some p
  | SFree u :: r => match pool_release p u with Some p' => svc_release p' r | None => None end
  | _ :: r => svc_release p r
  end.

(** sessionPool.get, UaEntityPool.hpp:53-56 ([None]: id outside 1..32), then the handler of the session. *)
Definition svc_on (v : svc) (sid : Z) (k : sess -> option (sess * list sout)) : option (svc * list sout) :=
  match pool_get (v_pool v) sid with
  | None => None
  | Some i =>
      match nth_error (v_ss v) i with
      | None => None
      | Some s =>
          match k s with
          | None => None
          | Some (s', os) =>
              match svc_release (v_pool v) os with
              | None => None
              | Some p' => Some (mkSv p' (upd (v_ss v) i s'), os)
              end
          end
      end
  end.

(** Decoding a request: exceptions leave the handler before anything was changed. E.g. UaCreateSession.cpp:19-23. *)
Definition with_req {A} (v : svc) (d : dres A) (k : A -> option (svc * list sout)) : option (svc * list sout) :=
  match d with DOk r _ => k r | DThrow => Some (v, [SThrow]) | DAbort | DOob => None end.

(** The authentication token: UaSessionService.cpp:46-56, 61-71. *)
Definition on_token (v : svc) (t : nodeid) (k : Z -> sess -> option (sess * list sout)) : option (svc * list sout) :=
  match n_val t with IdNum sid => svc_on v sid (k sid) | _ => Some (v, []) end.

(** The registered services: UaDiscoveryService.cpp:16-19, UaSessionService.cpp:20-25, UaAttributeService.cpp:21-24;
    UaGetEndpoints.cpp:19-45, UaCreateSession.cpp:17-24, UaSessionService.cpp:32-42, UaActivateSession.cpp:17-24,
    UaSessionService.cpp:44-57, UaCloseSession.cpp:17-24, UaSessionService.cpp:59-72, UaRead.cpp:20-30,
    UaSessionService.cpp:74-83.  Unknown ids: UaService.cpp:52-57 (the null entry that operator[] adds to the map is
    not modelled here: it makes no difference to later look-ups, C152_dispatch about UaTableModel). *)
Definition svc_dispatch (v : svc) (h : ehdr) (id : Z) (b : sdu) (now : Z) : option (svc * list sout) :=
  if id =? 428 then
    with_req v (dec_epreq epreq0 b) (fun r =>
      match esend h (enc_cont enc_eprsp (cont_new 431 (mkEr (rsphdr_of now (rq_handle (eq_hdr r))) [ourEndpoint]))) with
      | Some o => Some (v, [o])
      | None => None
      end)
  else if id =? 461 then
    with_req v (dec_csreq csreq0 b) (fun r =>
      match pool_alloc (v_pool v) with
      | None => None
      | Some (p, None) => Some (mkSv p (v_ss v), [])
      | Some (p, Some sid) => svc_on (mkSv p (v_ss v)) sid (fun s => s_create sid s h r now)
      end)
  else if id =? 467 then
    with_req v (dec_asreq asreq0 b) (fun r => on_token v (rq_token (as_hdr r)) (fun sid s => s_activate sid s h r now))
  else if id =? 473 then
    with_req v (dec_clsreq clsreq0 b) (fun r => on_token v (rq_token (cl_hdr r)) (fun sid s => s_close sid s h r now))
  else if id =? 631 then
    with_req v (dec_rdreq rdreq0 b) (fun r =>
      if e_sess h =? invalidSuid then Some (v, []) else svc_on v (e_sess h) (fun s => s_read s h r now))
  else Some (v, []).

(** UaService.cpp:32-60: the namespace of the type id is not looked at; the cast to DataTypeId, an enumeration with
    underlying type uint16_t (DataType.hpp:15), keeps the lower 16 bits of the number. *)
Definition svc_ind (v : svc) (m : emsg) (j : list Z) (now : Z) : option (svc * list sout) :=
  match rx_load (em_len m) (em_data m) j with
  | None => None
  | Some b =>
      match dec_xnodeid xnodeid0 b with
      | DOk x b1 =>
          match n_val (xn_id x) with
          | IdNum id => svc_dispatch v (em_hdr m) (u16 id) b1 now
          | _ => Some (v, [])
          end
      | DThrow => Some (v, [SThrow])
      | DAbort | DOob => None
      end
  end.

(** * UaServiceComponent *)
(** Messages.  [j]: indeterminate contents of the receive buffer; [now]: the clock. UaServiceComponent.cpp:56-62. *)
Inductive sev :=
| SvInit                                    (* MsgUaServiceInitReq *)
| SvConfig                                  (* MsgUaServiceConfigReq *)
| SvInd (m : emsg) (j : list Z) (now : Z)   (* MsgUaEncodedMessageReceiveInd *)
| SvRelease.                                (* MsgUaServiceReleaseReq *)

(** UaServiceComponent.cpp:28-62; [None] as the state: no UaService object. *)
Definition svc_step (c : option svc) (e : sev) : option (option svc * list sout) :=
  match e with
  | SvInit => match svc_new with Some v => Some (Some v, [SInitRsp]) | None => None end
  | SvConfig => Some (c, [])
  | SvInd m j now =>
      match c with
      | None => Some (None, [])
      | Some v => match svc_ind v m j now with Some (v', os) => Some (Some v', os) | None => None end
      end
  | SvRelease => Some (None, [SReleaseRsp])
  end.
