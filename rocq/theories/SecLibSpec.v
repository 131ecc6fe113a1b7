(** Specification vocabulary for the secure channel library: what its user and its peer can observe. *)
From Verif Require Import Base ModbusCodecSpec ModbusClientModel UaCodecModel UaTcpModel UaTcpSpec UaChanSpec ProtoConnModel ProtoConnSpec SecLibModel.
Local Open Scope Z_scope.

Definition strace := list (sev * s_out).
Definition souts (tr : strace) : list pout := concat (map (fun x => fst (snd x)) tr).
Definition snotes (tr : strace) : list snote := concat (map (fun x => snd (snd x)) tr).

(** Octets are octets, rand() is not negative, and a body fits into a packet behind its 24 octets of headers. *)
Definition body_ok (u : list Z * option nat) : Prop := bytes_ok (fst u) /\ Z.of_nat (length (fst u)) <= 4072.
Definition sev_ok (e : sev) : Prop :=
  match e with
  | SvOpen _ _ _ rnd => 0 <= rnd
  | SvSend body w => body_ok (body, w)
  | SvConnected _ us | SvError us | SvTimer us => Forall body_ok us
  | SvData r _ rnd _ _ _ us => match r with RxBytes bs => bytes_ok bs | _ => True end /\ 0 <= rnd /\ Forall body_ok us
  end.

(** Histories of a channel object. *)
Definition ini_ok (ini : Z * Z * Z * Z * Z) : Prop :=
  let '(a, b, c, d, e) := ini in is_u32 a /\ is_u32 b /\ is_u32 c /\ is_u32 d /\ is_u32 e.
Inductive sreach (role : prole) (b0 : list Z) (ini : Z * Z * Z * Z * Z) : sch -> strace -> Prop :=
| sr_new : umem_ok b0 -> ini_ok ini -> sreach role b0 ini (sch_new b0 ini) []
| sr_step x tr e x' o t :
    sreach role b0 ini x tr -> sev_ok e -> s_enabled x e = true -> s_step role x e = Some (x', o, t) ->
    sreach role b0 ini x' (tr ++ [(e, o)]).

(** ** What is seen in one event *)
Definition is_end (n : snote) : bool := match n with SClosed | SError => true | _ => false end.
Definition is_request (n : snote) : bool := match n with SRequest => true | _ => false end.
Definition ended (ns : list snote) : bool := existsb is_end ns.
Definition requested (ns : list snote) : bool := existsb is_request ns.
Fixpoint heard_of (ns : list snote) : option (list Z) :=
  match ns with [] => None | SHeard m :: _ => Some m | _ :: r => heard_of r end.
Definition threw (os : list pout) : bool := existsb is_pthrow os.
(** The packets handed to the connection, in order. *)
Definition handed (os : list pout) : list (list Z) :=
  flat_map (fun o => match o with PUser (KSend pkt _) => [pkt] | _ => [] end) os.
Definition is_opn (m : list Z) : bool := has_octets m [79; 80; 78].
Definition is_msg (m : list Z) : bool := has_octets m [77; 83; 71].
Definition is_clo (m : list Z) : bool := has_octets m [67; 76; 79].

(** ** The open channel *)
(** Open or not; channel id and token of the latest open response; sequence number and request id of the latest message
    accepted ([None] after an open request that could not be decoded). *)
Record sview := mkSv { v_open : bool; v_id : Z; v_tok : Z; v_last : option Z; v_req : option Z }.
Definition view_next (v : sview) (x : sev * s_out) : sview :=
  let '(_, (os, ns)) := x in
  if ended ns then mkSv false (v_id v) (v_tok v) (v_last v) (v_req v)
  else match heard_of ns with
  | None => v
  | Some m =>
      if is_opn m then
        match handed os with
        | pkt :: _ => mkSv true (le_at 8 pkt) (le_at 115 pkt) (Some (open_seq (skipn 12 m))) (Some (open_req (skipn 12 m)))
        | [] => if threw os then mkSv (v_open v) (v_id v) (v_tok v) None None else v
        end
      else if requested ns then mkSv (v_open v) (v_id v) (v_tok v) (Some (le_at 16 m)) (Some (le_at 20 m))
      else v
  end.
Definition view (tr : strace) : sview := fold_left view_next tr (mkSv false 0 0 None None).

(** ** Packets of the server *)
Definition sent (tr : strace) : list (list Z) := handed (souts tr).
Definition pkt_seq (p : list Z) : Z := if is_opn p then le_at 71 p else le_at 16 p.
(** A message: header with size and channel id, token, sequence number, request id, body. *)
Definition msg_pkt (id tok seq req : Z) (body : list Z) : list Z :=
  [77; 83; 71; 70] ++ le_bytes 4 (24 + Z.of_nat (length body)) ++ le_bytes 4 id ++ le_bytes 4 tok ++ le_bytes 4 seq ++ le_bytes 4 req ++ body.
(** An open response. *)
Definition opn_pkt (id seq req tok t1 t2 life : Z) : list Z :=
  [79; 80; 78; 70] ++ le_bytes 4 135 ++ le_bytes 4 id ++ open_rsp id seq req 0 tok t1 t2 life.
(** The open request of the library's client: everything empty or zero. *)
Definition opn_req : list Z :=
  [79; 80; 78; 70] ++ le_bytes 4 85 ++ le_bytes 4 0 ++ (le_bytes 4 (-1) ++ le_bytes 4 (-1) ++ le_bytes 4 (-1)) ++ le_bytes 4 0 ++ le_bytes 4 0 ++
  [1; 0; 190; 1] ++ repeat 0 18 ++ le_bytes 4 (-1) ++ repeat 0 19 ++ le_bytes 4 (-1) ++ repeat 0 4.

(** ** The life of a channel *)
(** [b]: an accepted open() has not ended yet.  open() takes a timer when it is accepted and has no effect while an
    earlier one has not ended; every other event ends it with exactly one notification, giving back link and timer, or
    does neither; nothing is notified when nothing is open. *)
Definition sees (f : pout -> bool) (os : list pout) : bool := existsb f os.
Definition life_next (b : bool) (x : sev * s_out) : option bool :=
  let '(e, (os, ns)) := x in
  match e, b with
  | SvOpen _ _ _ _, true => match os, ns with [], [] => Some true | _, _ => None end
  | SvOpen _ tok _ _, false =>
      match ns with
      | [] => if tok then if sees is_ptimer os && negb (threw os) then Some true else None
              else if threw os && negb (sees is_ptimer os) then Some false else None
      | _ => None
      end
  | _, false => match ns with [] => if sees is_pfreed os || sees is_ptimer os then None else Some false | _ => None end
  | _, true =>
      if sees is_ptimer os then None
      else match filter is_end ns with
           | [] => if sees is_pfreed os then None else Some true
           | [_] => if sees is_pfreed os then Some false else None
           | _ => None
           end
  end.
Fixpoint life (b : bool) (tr : strace) : option bool :=
  match tr with [] => Some b | x :: r => match life_next b x with Some b' => life b' r | None => None end end.

(** ** Running a channel *)
Fixpoint srun (role : prole) (x : sch) (es : list sev) : option (sch * list s_out) :=
  match es with
  | [] => Some (x, [])
  | e :: r => if s_enabled x e then
      match s_step role x e with
      | None => None
      | Some (x1, o, _) => match srun role x1 r with None => None | Some (x2, os) => Some (x2, o :: os) end
      end
    else None
  end.

(** ** What the wire delivered *)
(** An exception left the decoding of an open request or response. *)
Definition caught (tr : strace) : bool := existsb (fun x => threw (fst (snd x)) && match heard_of (snd (snd x)) with Some _ => true | None => false end) tr.
Definition is_pnote (o : pout) : bool := match o with PNote _ => true | _ => false end.
Definition is_parm (o : pout) : bool := match o with PArm _ => true | _ => false end.
(** The octets received since the handshake began, the connection was established or the last message was announced. *)
Definition srx_next (w : list Z) (x : sev * s_out) : list Z :=
  match fst x with
  | SvData (RxBytes bs) _ _ _ _ _ _ => if sees is_pnote (fst (snd x)) then [] else w ++ bs
  | _ => if sees is_parm (fst (snd x)) then [] else w
  end.
Definition sunread (tr : strace) : list Z := fold_left srx_next tr [].
