(** Specification vocabulary for the Modbus client.  Everything is defined on
    the history visible at the API: requests handed in, link and timer events,
    responses, transmissions. *)
From Verif Require Import Base MsgStorageModel ModbusCodecModel ModbusCodecSpec ModbusClientModel.
Local Open Scope Z_scope.

Definition trace := list (cev * list cout).

(** How the user recognises a request or response. *)
Definition ids (it : item) : Z * Z := (i_client it, q_tid (i_req it)).
Definition rsps (os : list cout) : list (Z * Z) :=
  flat_map (fun o => match o with ORsp c t _ _ _ => [(c, t)] | _ => [] end) os.
Definition txs (os : list cout) : list (list Z) :=
  flat_map (fun o => match o with OTx bs => [bs] | _ => [] end) os.
(** The error response for a request. *)
Definition error_for (it : item) : cout := ORsp (i_client it) (q_tid (i_req it)) false 0 [].

(** Inputs as the outside world can produce them: octets are octets, request
    fields fit their C++ types. *)
Definition ev_ok (e : cev) : Prop :=
  match e with
  | EReq it => req_ok (i_req it)
  | EData (RxBytes bs) => bytes_ok bs
  | _ => True
  end.

(** A request must be refused when 64 are unanswered or its data exceed a frame. *)
Definition refused (out : list (Z * Z)) (it : item) : bool :=
  (64 <=? length out)%nat || (260 <? q_nbytes (i_req it)).

(** One step of "every request is answered exactly once, in order": [out] are
    the unanswered requests, oldest first. *)
Definition answers (out : list (Z * Z)) (e : cev) (os : list cout) (out' : list (Z * Z)) : Prop :=
  match e with
  | EReq it => if refused out it then os = [error_for it] /\ out' = out
               else out ++ [ids it] = rsps os ++ out'
  | _ => out = rsps os ++ out'
  end.
Fixpoint exactly_once (out : list (Z * Z)) (tr : trace) : Prop :=
  match tr with
  | [] => (length out <= 64)%nat
  | (e, os) :: r => (length out <= 64)%nat /\ exists out', answers out e os out' /\ exactly_once out' r
  end.

(** The unanswered requests after a step, computed. *)
Definition out_next (out : list (Z * Z)) (e : cev) (os : list cout) : list (Z * Z) :=
  match e with
  | EReq it => if refused out it then out else skipn (length (rsps os)) (out ++ [ids it])
  | _ => skipn (length (rsps os)) out
  end.

(** The state of the wire: [None] nothing is awaited, [Some rx] a request was transmitted
    and [rx] are the octets received since.  A length field of 254 or more
    cannot belong to a Modbus frame of at most 259 octets. *)
Definition length_field (rx : list Z) : Z := nth 4 rx 0 * 256 + nth 5 rx 0.
Definition bad_length (rx : list Z) : bool := (6 <=? length rx)%nat && (254 <=? length_field rx).
Definition has {A} (l : list A) : bool := match l with [] => false | _ => true end.
Definition wire_next (w : option (list Z)) (e : cev) (os : list cout) : option (list Z) :=
  match e with
  | EReq _ => w
  | EData (RxBytes bs) =>
      if has (rsps os) then None
      else match w with
           | None => None
           | Some rx => let rx' := firstn 512 (rx ++ bs) in if bad_length rx' then None else Some rx'
           end
  | _ => if has (txs os) then Some [] else if has (rsps os) then None else w
  end.

(** The peer behaves: while requests are unanswered it sends only after a
    transmission, and with a possible length field. *)
Definition peer_step (out : list (Z * Z)) (w : option (list Z)) (e : cev) : Prop :=
  match e with
  | EData (RxBytes bs) =>
      out = [] \/ exists rx, w = Some rx /\ bad_length (firstn 512 (rx ++ bs)) = false
  | _ => True
  end.
Fixpoint peer_ok (out : list (Z * Z)) (w : option (list Z)) (tr : trace) : Prop :=
  match tr with
  | [] => True
  | (e, os) :: r => peer_step out w e /\ peer_ok (out_next out e os) (wire_next w e os) r
  end.

(** At most one transmission is unanswered. *)
Fixpoint one_on_wire (w : option (list Z)) (tr : trace) : Prop :=
  match tr with
  | [] => True
  | (e, os) :: r => (txs os <> [] -> w = None /\ length (txs os) = 1%nat) /\ one_on_wire (wire_next w e os) r
  end.

(** The requests of a history, in order of submission. *)
Definition submitted (tr : trace) : list item :=
  flat_map (fun x => match fst x with EReq it => [it] | _ => [] end) tr.
Definition transmitted (tr : trace) : list (list Z) := flat_map (fun x => txs (snd x)) tr.
(** Order-preserving selection. *)
Inductive sublist {A} : list A -> list A -> Prop :=
| sub_nil l : sublist [] l
| sub_take x l m : sublist l m -> sublist (x :: l) (x :: m)
| sub_skip x l m : sublist l m -> sublist l (x :: m).

(** [bs] is the wire form of request [it]: a receiver decodes it to the
    request. *)
Definition on_wire (it : item) (bs : list Z) : Prop :=
  wf_frame bs /\ forall junk q0, (260 <= length (q_data q0))%nat ->
    exists q', decode_req (bs ++ junk) q0 = DOk q' junk /\ req_received (i_req it) q'.

(** What a success response for request [it] must be backed by: the octets
    [rx] received since its transmission are a frame with its transaction id, and
    either a Modbus error report (its unit and code are checked only if the frame
    is long enough to have them, see C21), or a reply with the unit and function of the
    request whose payload is [data] (registers have their two octets swapped; write
    acknowledgements echo the value). *)
Fixpoint swap16 (l : list Z) : list Z :=
  match l with hi :: lo :: r => lo :: hi :: swap16 r | _ => [] end.
Definition backed (it : item) (rx : list Z) (err : Z) (data : list Z) : Prop :=
  exists t1 t0 l1 l0 body,
    rx = t1 :: t0 :: 0 :: 0 :: l1 :: l0 :: body /\
    t1 * 256 + t0 = q_tid (i_req it) /\ l1 * 256 + l0 = Z.of_nat (length body) /\
    ((data = [] /\ ((3 <= length body)%nat -> exists r, body = q_addr (i_req it) :: 143 :: err :: r)) \/
     (err = 0 /\ exists pdu, body = q_addr (i_req it) :: q_func (i_req it) :: pdu /\
    ((In (q_func (i_req it)) [3; 4] /\ exists n regs, pdu = n :: regs /\ n = Z.of_nat (length regs) /\ data = swap16 regs) \/
       (In (q_func (i_req it)) [5; 6] /\ exists s1 s0 d1 d0, pdu = [s1; s0; d1; d0] /\ data = [d0; d1]) \/
       (q_func (i_req it) = 16 /\ length pdu = 4%nat /\ data = [])))).

(** Every success response is backed by the octets received since the last
    transmission. *)
Fixpoint successes_backed (out : list item) (w : option (list Z)) (tr : trace) : Prop :=
  match tr with
  | [] => True
  | (e, os) :: r =>
      (forall c t err data, In (ORsp c t true err data) os ->
         exists it bs rx, In it out /\ ids it = (c, t) /\ e = EData (RxBytes bs) /\ w = Some rx /\
    backed it (firstn 512 (rx ++ bs)) err data) /\
    successes_backed (out ++ match e with EReq it => [it] | _ => [] end) (wire_next w e os) r
  end.

(** Every response names a request submitted before. *)
Fixpoint names_submitted (sub : list item) (tr : trace) : Prop :=
  match tr with
  | [] => True
  | (e, os) :: r =>
      let sub' := sub ++ match e with EReq it => [it] | _ => [] end in
      incl (rsps os) (map ids sub') /\ names_submitted sub' r
  end.

(** The number of requests answered from the pending ones, and of timer
    expiries. *)
Fixpoint served (out : list (Z * Z)) (tr : trace) : nat :=
  match tr with
  | [] => 0
  | (e, os) :: r =>
      (match e with EReq it => if refused out it then 0 else length (rsps os) | _ => length (rsps os) end) +
      served (out_next out e os) r
  end%nat.
Fixpoint unanswered (out : list (Z * Z)) (tr : trace) : list (Z * Z) :=
  match tr with [] => out | (e, os) :: r => unanswered (out_next out e os) r end.
Fixpoint wire_after (w : option (list Z)) (tr : trace) : option (list Z) :=
  match tr with [] => w | (e, os) :: r => wire_after (wire_next w e os) r end.
Definition expiries (tr : trace) : nat :=
  length (filter (fun x => match fst x with ETimer _ _ => true | _ => false end) tr).

(** The requests held by the client's storage, oldest first: what repeatedly taking the
    front and popping delivers. *)
Fixpoint contents (k : nat) (s : astore) : option (list item) :=
  if as_empty s then Some []
  else match k with
       | O => None
       | S k' => match as_front s, as_pop s with
                 | Some it, Some s' => option_map (cons it) (contents k' s')
                 | _, _ => None
                 end
       end.
Definition held (s : astore) : option (list item) := contents 64 s.

(** A history from construction, for arbitrary initial memory. *)
Definition boot (m0 : memory) (b0 : list Z) (es : list cev) : option (client astore * trace) :=
  match as_new m0 with Some s => ac_run (c_new s b0) es | None => None end.

(** Nothing but error responses for the requests [l], in order. *)
Definition errors (l : list (Z * Z)) : list cout := map (fun x => ORsp (fst x) (snd x) false 0 []) l.

(** Effects that move a pending request or the connection forward: a transmission, a
    response, a connection attempt (possibly failing at once), a scheduled
    reconnect. *)
Definition progresses (os : list cout) : bool :=
  existsb (fun o => match o with
                    | OTx _ | ORsp _ _ _ _ _ | OConnect | OThrow => true
                    | OTimer t => t =? 500000
                    | _ => false
                    end) os.

(** The reply [a] answers request [q]. *)
Definition replies_to (q : adu_req) (a : adu_rsp) : Prop :=
  rsp_ok a /\ a_tid a = q_tid q /\ a_addr a = q_addr q /\ a_func a = q_func q.
