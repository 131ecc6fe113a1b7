(** Specification vocabulary for the assembled OPC UA server: its histories and what clients see of them. *)
From Verif Require Import Base ModbusCodecSpec ModbusClientModel UaCodecModel UaCodecSpec UaTcpModel UaTcpSpec UaChanModel UaChanSpec UaServiceModel UaServiceSpec UaSystemModel.
Local Open Scope Z_scope.

Definition ytrace := list yrec.
Definition oracle_ok (o : oracle) : Prop := umem_ok (o_j o) /\ 0 <= o_rnd o < 2147483648 /\ is_i64 (o_t1 o) /\ is_i64 (o_t2 o).
Definition yev_ok (e : yev) : Prop := match e with YNet e _ => tev_ok e | YMsg o _ => oracle_ok o end.

(** Histories of a started server. *)
Inductive yreach (b0 : list Z) (ini : list (Z * Z)) : usys -> ytrace -> Prop :=
| yr_new y : umem_ok b0 -> cini_ok ini -> y_new b0 ini = Some y -> yreach b0 ini y []
| yr_step y tr e y' r : yreach b0 ini y tr -> yev_ok e -> y_enabled y e = true -> y_step y e = Some (y', r) -> yreach b0 ini y' (tr ++ [r]).

(** What may follow a state. *)
Inductive ypath (y : usys) : ytrace -> usys -> Prop :=
| yp_nil : ypath y [] y
| yp_step tr e y1 y2 r : ypath y tr y1 -> yev_ok e -> y_enabled y1 e = true -> y_step y1 e = Some (y2, r) -> ypath y (tr ++ [r]) y2.

(** The part of a history that each layer sees; the service layer was initialised first. *)
Definition tproj (tr : ytrace) : utrace := flat_map (fun r => match r with RT e os => [(e, os)] | _ => [] end) tr.
Definition cproj (tr : ytrace) : ctrace := flat_map (fun r => match r with RC e os => [(e, os)] | _ => [] end) tr.
Definition sproj (tr : ytrace) : strace := (SvInit, [SInitRsp]) :: flat_map (fun r => match r with RS e os => [(e, os)] | _ => [] end) tr.

(** [sub l k]: [l] is [k] with elements left out. *)
Inductive sub {A} : list A -> list A -> Prop :=
| sub_nil : sub [] []
| sub_skip x l k : sub l k -> sub l (x :: k)
| sub_take x l k : sub l k -> sub (x :: l) (x :: k).

(** Requests the channels accepted, in the order they did: connection, channel, request id. *)
Definition request_of (r : yrec) : list (Z * Z * Z) :=
  match r with RC (CvMsg m j) [CInd _] => [(um_conn m, um_chan m, le_at 8 (octets m j))] | _ => [] end.
Definition requests (tr : ytrace) : list (Z * Z * Z) := flat_map request_of tr.
(** Packets of type MSG that connections forwarded: connection and channel. *)
Definition forward_of (r : yrec) : list (Z * Z) :=
  match r with RT _ os => flat_map (fun o => match o with UFwd KMsg uid ch _ _ _ => [(uid, ch)] | _ => [] end) os | _ => [] end.
Definition forwards (tr : ytrace) : list (Z * Z) := flat_map forward_of tr.
(** The messages (packets of type MSG) written to connections: connection, channel and request id in the packet. *)
Definition answer_of (r : yrec) : list (Z * Z * Z) :=
  match r with
  | RT _ os => flat_map (fun o => match o with UTx uid (77 :: 83 :: 71 :: r) _ => [(uid, le_at 5 r, le_at 17 r)] | _ => [] end) os
  | _ => []
  end.
Definition answers (tr : ytrace) : list (Z * Z * Z) := flat_map answer_of tr.

(** ** Who looks after a channel *)
(** A message in the queue that tells a connection of channel [ch], or the channel of the end of its connection. *)
Definition tells (ch : Z) (m : imsg) : Prop :=
  match m with ITx KOpn x => um_chan x = ch | IRelInd _ c => c = ch | _ => False end.
(** A request on channel [ch]. *)
Definition uses (ch : Z) (m : imsg) : Prop := match m with IFwd KOpn _ => False | IFwd _ x => um_chan x = ch | _ => False end.
(** Some connection has the channel, or such a message is on its way. *)
Definition owned (ch : Z) (y : usys) (tr : ytrace) : Prop :=
  (exists uid, uchan uid (tproj tr) = Some ch) \/ Exists (tells ch) (y_q y).
(** An open channel that nobody has and that nothing on its way concerns. *)
Definition orphan (ch : Z) (y : usys) (tr : ytrace) : Prop :=
  copen ch (cproj tr) /\ ~ owned ch y tr /\ ~ Exists (uses ch) (y_q y).
(** Messages lost in the step. *)
Definition lossless (e : yev) : Prop := match e with YNet _ k | YMsg _ k => k = [] end.

(** The steps after which a channel may be left behind: a message is lost, a connection is told of the channel when its client is
    gone or is told of another, or the channel layer releases a connection that has the channel. *)
Definition disowns (ch : Z) (y : usys) (tr : ytrace) (e : yev) : Prop :=
  ~ lossless e \/
  match e, y_q y with
  | YMsg _ _, ITx KOpn m :: _ =>
      (um_chan m = ch /\ ~ uacked (um_conn m) (tproj tr)) \/ (um_chan m <> ch /\ uchan (um_conn m) (tproj tr) = Some ch)
  | YMsg _ _, IRelReq c :: _ => uchan c (tproj tr) = Some ch
  | _, _ => False
  end.
(** Histories without such steps. *)
Inductive ycareful (b0 : list Z) (ini : list (Z * Z)) : usys -> ytrace -> Prop :=
| yc_new y : umem_ok b0 -> cini_ok ini -> y_new b0 ini = Some y -> ycareful b0 ini y []
| yc_step y tr e y' r : ycareful b0 ini y tr -> yev_ok e -> y_enabled y e = true -> (forall ch, ~ disowns ch y tr e) -> y_step y e = Some (y', r) ->
    ycareful b0 ini y' (tr ++ [r]).

(** The server left alone: the queue is worked off, each handler finding what an oracle of the list says; [None] if a handler's
    behaviour is undefined or the list is too short. *)
Fixpoint ydrain (y : usys) (l : list oracle) : option (usys * ytrace) :=
  match y_q y with
  | [] => Some (y, [])
  | _ => match l with
         | [] => None
         | o :: l => match y_step y (YMsg o []) with
                     | Some (y1, r) => match ydrain y1 l with Some (y2, tr) => Some (y2, r :: tr) | None => None end
                     | None => None
                     end
         end
  end.

(** The present client of connection [uid] has sent a packet of type MSG. *)
Definition uspoke_next (uid : Z) (b : bool) (o : uout) : bool :=
  match o with
  | UFwd KMsg u _ _ _ _ => if u =? uid then true else b
  | UFree u => if u =? uid then false else b
  | _ => b
  end.
Definition uspoke (uid : Z) (tr : utrace) : bool := fold_left (fun b x => fold_left (uspoke_next uid) (snd x) b) tr false.

(** A message in the queue that a client of connection [uid] asked for or may be given. *)
Definition concerns (uid : Z) (m : imsg) : bool :=
  match m with
  | IFwd KMsg x | ITx KMsg x => um_conn x =? uid
  | IInd x | ISend x => e_conn (em_hdr x) =? uid
  | _ => false
  end.

(** ** Dialogues *)
(** The socket of connection [uid] is open: data may come. *)
Definition linked (uid : Z) (y : usys) : Prop := y_enabled y (YNet (EvData uid RxNa None) []) = true.
(** Nothing is in progress, and connection [uid] has the open channel [ch] and is about to receive a new packet. *)
Record yready (uid ch : Z) (y : usys) (tr : ytrace) : Prop := {
  rd_idle : y_q y = [];
  rd_acked : uacked uid (tproj tr);
  rd_boundary : uboundary uid (tproj tr);
  rd_link : linked uid y;
  rd_chan : uchan uid (tproj tr) = Some ch;
  rd_open : copen ch (cproj tr);
  rd_conn : cconn ch (cproj tr) = uid
}.
(** A service message of a client: packet header, token, sequence number, request id, body. *)
Definition msg_packet (ch token seqn req : Z) (body : list Z) : list Z :=
  [77; 83; 71; 70] ++ le_bytes 4 (24 + Z.of_nat (length body)) ++ le_bytes 4 ch ++
  le_bytes 4 token ++ le_bytes 4 seqn ++ le_bytes 4 req ++ body.
(** Write accepts everything. *)
Definition takes_all (o : oracle) : Prop := exists n, o_w o = Some n /\ 4096 <= Z.of_nat n.
(** What was written to connection [uid]: packets and how much of each the socket took. *)
Definition written (uid : Z) (tr : ytrace) : list (list Z * nat) :=
  flat_map (fun r => match r with
                     | RT _ os => flat_map (fun o => match o with UTx u p n => if u =? uid then [(p, n)] else [] | _ => [] end) os
                     | _ => []
                     end) tr.
(** The request names no session outside the table of 32 sessions. *)
Definition in_table (q : request) : Prop :=
  match q with QAct _ | QClo _ => forall sid, named q = Some sid -> 1 <= sid <= 32 | _ => True end.
(** A client's hello and open request: size and header, then what the codec's specification says. *)
Definition hello_packet (v : hello) : list Z := [72; 69; 76; 70] ++ le_bytes 4 (8 + Z.of_nat (length (s_hello v))) ++ s_hello v.
Definition open_body (s : sechdr) (seqn req : Z) (r : openreq) : list Z :=
  s_sechdr s ++ s_seqhdr (mkSq seqn req) ++ [1; 0; 190; 1] ++ s_openreq r.
Definition open_packet (s : sechdr) (seqn req : Z) (r : openreq) : list Z :=
  [79; 80; 78; 70] ++ le_bytes 4 (12 + Z.of_nat (length (open_body s seqn req r))) ++ le_bytes 4 0 ++ open_body s seqn req r.

(** The answer among the effects of the services. *)
Definition answer_in (os : list sout) : option (list Z) :=
  match filter (fun o => match o with SSend _ => true | _ => false end) os with SSend r :: _ => Some (em_data r) | _ => None end.
(** The client of connection [uid] sends request [q] on channel [ch], with the channel's token and the next sequence number,
    in one piece; the server then works off its queue. *)
Definition yask (uid ch : Z) (q : request) (req : Z) (w : option nat) (l : list oracle) (y : usys) (tr : ytrace) : option (usys * ytrace) :=
  match y_step y (YNet (EvData uid (RxBytes (msg_packet ch (ctoken ch (cproj tr)) ((clast ch (cproj tr) + 1) mod 4294967296) req (q_octets q))) w) []) with
  | Some (y1, r1) => match ydrain y1 l with Some (y2, tr2) => Some (y2, r1 :: tr2) | None => None end
  | None => None
  end.
(** Connection [uid] was written exactly one packet, completely: [body] as answer to request [req]; no other connection was written anything. *)
Definition answered (uid ch : Z) (tr tr2 : ytrace) (req : Z) (body : list Z) : Prop :=
  let p := msg_packet ch (ctoken ch (cproj tr)) ((cstart ch (cproj tr) + Z.of_nat (csent ch (cproj tr))) mod 4294967296) req body in
  forall u, written u tr2 = if u =? uid then [(p, length p)] else [].
Definition silent (tr2 : ytrace) : Prop := forall u, written u tr2 = [].
(** A request of a size that the server can take. *)
Definition q_fits (q : request) : Prop := q_wf q /\ bytes_ok (q_octets q) /\ Z.of_nat (length (q_octets q)) <= 4040.
(** Five handler calls suffice; each finds sane values, and the socket takes what is written. *)
Definition calm (l : list oracle) : Prop := (5 <= length l)%nat /\ Forall (fun o => oracle_ok o /\ takes_all o) l.
(** Session [sid] is active on channel [ch]. *)
Definition active (sid ch : Z) (tr : ytrace) : Prop := live sid (sproj tr) /\ bound sid (sproj tr) = Some ch /\ csession ch (cproj tr) = Some sid.
(** Request ids as many as one likes: a sequence of reads. *)
Fixpoint yreads (uid ch : Z) (rs : list (rdreq * Z)) (w : option nat) (l : list oracle) (y : usys) (tr : ytrace) : option (usys * list ytrace) :=
  match rs with
  | [] => Some (y, [])
  | (r, req) :: rs => match yask uid ch (QRead r) req w l y tr with
                      | Some (y1, tr1) => match yreads uid ch rs w l y1 (tr ++ tr1) with Some (y2, trs) => Some (y2, tr1 :: trs) | None => None end
                      | None => None
                      end
  end.
(** Each read was answered in its turn. *)
Inductive read_answers (uid ch : Z) (l : list oracle) : ytrace -> list (rdreq * Z) -> list ytrace -> Prop :=
| ra_nil tr : read_answers uid ch l tr [] []
| ra_cons tr r req rs tr1 trs o : In o l -> answered uid ch tr tr1 req (read_rsp (o_t1 o) (rq_handle (rr_hdr r))) ->
    read_answers uid ch l (tr ++ tr1) rs trs -> read_answers uid ch l tr ((r, req) :: rs) (tr1 :: trs).
(** The session attached to a channel after an exchange. *)
Definition attached (s : option Z) (os : list sout) : option Z := match os with SAssoc h :: _ => Some (e_sess h) | _ => s end.

(** Connection ids taken, by clients or by accepts that found no timer; channels taken, by open channels or by requests that could not be decoded. *)
Definition conns_used (tr : ytrace) : nat := (utotal ustarts (tproj tr) - utotal ufrees (tproj tr) + utotal unotimer (tproj tr))%nat.
Definition chans_used (tr : ytrace) : nat := (copened (cproj tr) + ctotal cbad (cproj tr))%nat.
