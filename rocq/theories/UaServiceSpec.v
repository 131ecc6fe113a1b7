(** Specification vocabulary for the service layer: what an outside observer of its messages can write down. *)
From Verif Require Import Base ModbusCodecSpec UaCodecModel UaCodecSpec UaTcpModel UaTcpSpec UaChanModel UaChanSpec UaServiceModel.
Local Open Scope Z_scope.

Definition strace := list (sev * list sout).

Definition sev_ok (e : sev) : Prop :=
  match e with SvInd m j now => emsg_ok m /\ umem_ok j /\ is_i64 now | _ => True end.

(** Histories of the service component from program start. *)
Inductive sreach : option svc -> strace -> Prop :=
| sr_new : sreach None []
| sr_step c tr e c' os : sreach c tr -> sev_ok e -> svc_step c e = Some (c', os) -> sreach c' (tr ++ [(e, os)]).

(** ** Requests *)
Inductive request := QEnd (r : epreq) | QCre (r : csreq) | QAct (r : asreq) | QClo (r : clsreq) | QRead (r : rdreq).
Definition q_hdr (q : request) : reqhdr :=
  match q with QEnd r => eq_hdr r | QCre r => cs_hdr r | QAct r => as_hdr r | QClo r => cl_hdr r | QRead r => rr_hdr r end.
(** Type ids of the OPC UA specification (Part 6, binary encoding ids). *)
Definition q_type (q : request) : Z := match q with QEnd _ => 428 | QCre _ => 461 | QAct _ => 467 | QClo _ => 473 | QRead _ => 631 end.
Definition q_handle (q : request) : Z := rq_handle (q_hdr q).
(** The octets that represent a request: type id and message. *)
Definition q_octets (q : request) : list Z :=
  [1; 0] ++ le_bytes 2 (q_type q) ++
  match q with QEnd r => s_epreq r | QCre r => s_csreq r | QAct r => s_asreq r | QClo r => s_clsreq r | QRead r => s_rdreq r end.
Definition q_wf (q : request) : Prop :=
  match q with QEnd r => wf_epreq r | QCre r => wf_csreq r | QAct r => wf_asreq r | QClo r => wf_clsreq r | QRead r => wf_rdreq r end.

(** What a message carries according to the codec (which C35-C40 are about): a request; something else, not numbered or
    numbered differently (the number is taken modulo 65536: see C151); octets on which decoding throws; octets on which decoding aborts or leaves the buffer. *)
Inductive parsed := PReq (q : request) | POther | PThrow | PBad.
Definition eoctets (m : emsg) (j : list Z) : list Z := firstn (Z.to_nat (em_len m)) (em_data m) ++ skipn (Z.to_nat (em_len m)) j.
Definition got {A} (c : A -> request) (d : dres A) : parsed :=
  match d with DOk r _ => PReq (c r) | DThrow => PThrow | DAbort | DOob => PBad end.
Definition parse (m : emsg) (j : list Z) : parsed :=
  match dec_xnodeid xnodeid0 (mkSdu 0 (Z.to_nat (em_len m)) (eoctets m j)) with
  | DOk x b =>
      match n_val (xn_id x) with
      | IdNum id =>
          if id mod 65536 =? 428 then got QEnd (dec_epreq epreq0 b)
          else if id mod 65536 =? 461 then got QCre (dec_csreq csreq0 b)
          else if id mod 65536 =? 467 then got QAct (dec_asreq asreq0 b)
          else if id mod 65536 =? 473 then got QClo (dec_clsreq clsreq0 b)
          else if id mod 65536 =? 631 then got QRead (dec_rdreq rdreq0 b)
          else POther
      | _ => POther
      end
  | DThrow => PThrow
  | DAbort | DOob => PBad
  end.

(** ** Responses *)
Definition rtype (r : emsg) : Z := le_val (firstn 2 (skipn 2 (em_data r))).
Definition rhandle (r : emsg) : Z := le_at 12 (em_data r).
(** The session id in a response to a create request. *)
Definition rsession (r : emsg) : Z := nth 29 (em_data r) 0.
Definition reply (h : ehdr) (l : list Z) : emsg := mkEm h (Z.of_nat (length l)) l.
Definition to_session (h : ehdr) (sid : Z) : ehdr := mkEh (e_conn h) (e_chan h) (e_req h) sid.
Definition url : list Z := [111; 112; 99; 46; 116; 99; 112; 58; 47; 47; 108; 111; 99; 97; 108; 104; 111; 115; 116; 58; 52; 51; 54; 57].
Definition appuri : list Z := [117; 114; 110; 58; 121; 111; 117; 107; 111; 122; 108; 111; 118; 45; 86; 105; 118; 111; 66; 111; 111; 107; 45; 65; 83; 85; 83; 76; 97; 112; 116;
   111; 112; 45; 88; 53; 49; 51; 69; 65; 78; 45; 75; 53; 49; 51; 69; 65; 58; 117; 115; 99; 97; 100; 97].
Definition produri : list Z := [117; 114; 110; 58; 117; 115; 99; 97; 100; 97].
(** The one endpoint: no security, nothing optional. *)
Definition endpoint : list Z :=
  (le_bytes 4 24 ++ url) ++ ((le_bytes 4 55 ++ appuri) ++ (le_bytes 4 10 ++ produri) ++ [0] ++ le_bytes 4 0 ++ le_bytes 4 (-1) ++ le_bytes 4 (-1) ++ le_bytes 4 0) ++
  le_bytes 4 (-1) ++ le_bytes 4 1 ++ (le_bytes 4 47 ++ policy) ++ le_bytes 4 0 ++ le_bytes 4 (-1) ++ [0].
Definition endpoints_rsp (now handle : Z) : list Z := [1; 0; 175; 1] ++ rsp_head now handle ++ (le_bytes 4 1 ++ endpoint).
Definition create_rsp (sid now handle tmo max : Z) : list Z :=
  [1; 0; 208; 1] ++ rsp_head now handle ++ [0; sid] ++ [0; sid] ++ le_bytes 8 tmo ++ le_bytes 4 (-1) ++ le_bytes 4 (-1) ++
  (le_bytes 4 1 ++ endpoint) ++ le_bytes 4 0 ++ (le_bytes 4 (-1) ++ le_bytes 4 (-1)) ++ le_bytes 4 max.
Definition activate_rsp (now handle : Z) : list Z := [1; 0; 214; 1] ++ rsp_head now handle ++ le_bytes 4 (-1) ++ le_bytes 4 0 ++ le_bytes 4 0.
Definition close_session_rsp (now handle : Z) : list Z := [1; 0; 220; 1] ++ rsp_head now handle.
Definition read_rsp (now handle : Z) : list Z := [1; 0; 122; 2] ++ rsp_head now handle ++ le_bytes 4 0 ++ le_bytes 4 0.

(** ** Per-session bookkeeping *)
(** Times created and closed since the component was started, and the channel of the last activation. *)
Record sview := mkSw { w_new : nat; w_end : nat; w_chan : option Z }.
Definition sview0 : sview := mkSw 0 0 None.
Definition sview_next (sid : Z) (w : sview) (x : sev * list sout) : sview :=
  match x with
  | (SvInd m j _, os) =>
      match parse m j, os with
      | PReq (QCre _), [SSend r] => if rsession r =? sid then mkSw (S (w_new w)) (w_end w) None else w
      | PReq (QAct _), [SAssoc _; SSend r] => if e_sess (em_hdr r) =? sid then mkSw (w_new w) (w_end w) (Some (e_chan (em_hdr r))) else w
      | PReq (QClo c), SSend r :: _ =>
          match n_val (rq_token (cl_hdr c)) with
          | IdNum t => if t =? sid then mkSw (w_new w) (S (w_end w)) None else w
          | _ => w
          end
      | _, _ => w
      end
  | (SvConfig, _) => w
  | (SvInit, _) | (SvRelease, _) => sview0
  end.
Definition sview_of (sid : Z) (tr : strace) : sview := fold_left (sview_next sid) tr sview0.
Definition liveb (sid : Z) (tr : strace) : bool := (w_new (sview_of sid tr) =? S (w_end (sview_of sid tr)))%nat.
Definition live (sid : Z) (tr : strace) : Prop := liveb sid tr = true.
(** The channel a session is bound to by its last activation. *)
Definition bound (sid : Z) (tr : strace) : option Z := w_chan (sview_of sid tr).
Definition sids : list Z := map (fun i => Z.of_nat i + 1) (seq 0 32).
Definition nlive (tr : strace) : nat := length (filter (fun s => liveb s tr) sids).
(** The component runs: initialised and not released since. *)
Definition runs_next (b : bool) (x : sev * list sout) : bool := match fst x with SvInit => true | SvRelease => false | _ => b end.
Definition running (tr : strace) : bool := fold_left runs_next tr false.

(** ** What a request leads to *)
Definition named (q : request) : option Z := match n_val (rq_token (q_hdr q)) with IdNum s => Some s | _ => None end.
Inductive served (tr : strace) (h : ehdr) (now : Z) : request -> list sout -> Prop :=
| sv_endpoints r : served tr h now (QEnd r) [SSend (reply h (endpoints_rsp now (rq_handle (eq_hdr r))))]
| sv_full r : nlive tr = 32%nat -> served tr h now (QCre r) []
| sv_create r sid : (nlive tr < 32)%nat -> 1 <= sid <= 32 -> ~ live sid tr ->
    served tr h now (QCre r) [SSend (reply h (create_rsp sid now (rq_handle (cs_hdr r)) (cs_tmo r) (cs_max r)))]
| sv_activate r sid : named (QAct r) = Some sid -> live sid tr ->
    served tr h now (QAct r) [SAssoc (to_session h sid); SSend (reply (to_session h sid) (activate_rsp now (rq_handle (as_hdr r))))]
| sv_noactivate r : (forall sid, named (QAct r) = Some sid -> 1 <= sid <= 32 /\ ~ live sid tr) -> served tr h now (QAct r) []
| sv_close r sid : named (QClo r) = Some sid -> live sid tr ->
    served tr h now (QClo r) [SSend (reply h (close_session_rsp now (rq_handle (cl_hdr r)))); SFree sid]
| sv_noclose r : (forall sid, named (QClo r) = Some sid -> 1 <= sid <= 32 /\ ~ live sid tr) -> served tr h now (QClo r) []
| sv_read r : live (e_sess h) tr -> bound (e_sess h) tr = Some (e_chan h) ->
    served tr h now (QRead r) [SSend (reply h (read_rsp now (rq_handle (rr_hdr r))))]
| sv_noread r : e_sess h = invalidSuid \/ 1 <= e_sess h <= 32 -> ~ (live (e_sess h) tr /\ bound (e_sess h) tr = Some (e_chan h)) ->
    served tr h now (QRead r) [].
(** Requests that make the service look for a session outside its table. *)
Definition stray (h : ehdr) (q : request) : Prop :=
  match q with
  | QAct _ | QClo _ => exists sid, named q = Some sid /\ ~ 1 <= sid <= 32
  | QRead _ => e_sess h <> invalidSuid /\ ~ 1 <= e_sess h <= 32
  | _ => False
  end.
