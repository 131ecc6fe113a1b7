(** Specification vocabulary for a Modbus client and server joined by a connection. *)
From Verif Require Import Base MsgStorageModel ModbusCodecModel ModbusCodecSpec ModbusClientModel ModbusClientSpec
  ModbusServerModel ModbusServerSpec ModbusNetModel.
Local Open Scope Z_scope.

(** A history since the connection was made: events with the effects at the client and at the server. *)
Definition nhist := list (nev * list cout * list sout).
Definition ev_of (x : nev * list cout * list sout) : nev := fst (fst x).
Definition cli_of (x : nev * list cout * list sout) : list cout := snd (fst x).
Definition srv_of (x : nev * list cout * list sout) : list sout := snd x.

(** Inputs as the outside world can produce them. *)
Definition nev_ok (e : nev) : Prop :=
  match e with
  | NCli e => ev_ok e
  | NSrv e => vev_ok e
  | _ => True
  end.

(** The client's own history. *)
Definition cli_hist (h : nhist) : trace :=
  flat_map (fun x => match ev_of x with
                     | NCli e => [(e, cli_of x)]
                     | NToCli bs => [(EData (RxBytes bs), cli_of x)]
                     | _ => []
                     end) h.

(** ** What the users see *)
(** Requests handed to the client, oldest first. *)
Definition submitted_in (h : nhist) : list item := submitted (cli_hist h).
(** Requests the server hands to its application for this connection. *)
Definition forwarded_in (uid : Z) (h : nhist) : list sout := filter (is_req uid) (flat_map srv_of h).
(** Replies of the application for this connection, and those of them that the server sends out. *)
Definition is_tx (uid : Z) (o : sout) : bool := match o with TTx u _ => u =? uid | _ => false end.
Definition replied_in (uid : Z) (h : nhist) : list areply :=
  flat_map (fun x => match ev_of x with NSrv (VReply p _) => if p_session p =? uid then [p] else [] | _ => [] end) h.
Definition sent_in (uid : Z) (h : nhist) : list areply :=
  flat_map (fun x => match ev_of x with NSrv (VReply p _) => if existsb (is_tx uid) (srv_of x) then [p] else [] | _ => [] end) h.
(** Responses of the client caused by data from the server. *)
Definition is_rsp (o : cout) : bool := match o with ORsp _ _ _ _ _ => true | _ => false end.
Definition delivered_in (h : nhist) : list cout :=
  flat_map (fun x => match ev_of x with NToCli _ => filter is_rsp (cli_of x) | _ => [] end) h.

(** What the requester must be told when the application's reply to request [it] is [p]. *)
Definition payload (f : Z) (p : areply) : list Z :=
  if (f =? 3) || (f =? 4) then firstn (Z.to_nat (p_nbytes p)) (p_data p)
  else if (f =? 5) || (f =? 6) then firstn 2 (p_data p) else [].
Definition told (it : item) (p : areply) (o : cout) : Prop :=
  if 65536 <=? q_tid (i_req it) then o = error_for it
  else if p_error p =? 0 then o = ORsp (i_client it) (q_tid (i_req it)) true 0 (payload (q_func (i_req it)) p)
  else exists c, o = ORsp (i_client it) (q_tid (i_req it)) true c [] /\
         (In (p_error p) [1; 2; 3; 4; 5; 6; 7; 8; 10; 11; 255] -> c = p_error p).

(** The i-th request on the wire is the i-th forwarded, the i-th reply is what its requester is told; at most one exchange is open. *)
Definition in_step (uid : Z) (its : list item) (fwd : list sout) (sent : list areply) (told_ : list cout) : Prop :=
  (length told_ <= length sent <= length fwd)%nat /\ (length fwd <= length its <= S (length told_))%nat /\
  (forall i it m, nth_error its i = Some it -> nth_error fwd i = Some m -> forwards uid (i_req it) m) /\
  (forall i it p o, nth_error its i = Some it -> nth_error sent i = Some p -> nth_error told_ i = Some o -> told it p o).

(** ** Calm histories *)
(** The timer of the client runs for the send delay of 10 ms, not for a reply. *)
Definition timer_next (a : option Z) (x : cev * list cout) : option Z :=
  fold_left (fun a o => match o with OTimer us => Some us | OStop => None | _ => a end) (snd x)
    (match fst x with ETimer _ _ => None | _ => a end).
Definition armed_for (tr : trace) : option Z := fold_left timer_next tr None.

(** No failure of the connection, no timeout at either end while an exchange is open (nor the idle timeout of the session), the application answers each request at most once, the
    last six octets of a reply are not torn apart (C22). *)
Definition calm (s : net) (h : nhist) (e : nev) : Prop :=
  match e with
  | NCli (EReq _) => True
  | NCli (ETimer sok _) => sok = true /\ armed_for (cli_hist h) = Some 10000
  | NCli _ => False
  | NSrv (VData u _) | NSrv (VError u) | NSrv (VTimer u) => u <> n_uid s
  | NSrv (VReply p sok) => p_session p = n_uid s ->
      sok = true /\ (length (replied_in (n_uid s) h) < length (forwarded_in (n_uid s) h))%nat
  | NSrv (VAccept _ _ _) | NSrv VStop => True
  | NToSrv _ => True
  | NToCli bs => forall rx, wire_after None (cli_hist h) = Some rx ->
      bs = n_s2c s \/ (length rx + length bs < 6)%nat \/ (length bs + 6 < length (n_s2c s))%nat
  end.
Definition any (s : net) (h : nhist) (e : nev) : Prop := True.

(** Histories: the client has just been told that its connection is established, the server has accepted it and both may have any
    past.  [P] restricts the events. *)
Inductive nreach (P : net -> nhist -> nev -> Prop) : net -> nhist -> Prop :=
| nr_start m0 b0 es c tr b1 q1 v trs uid :
    length b0 = 512%nat -> bytes_ok b0 -> Forall ev_ok es ->
    boot m0 b0 (es ++ [EConnected]) = Some (c, tr ++ [(EConnected, [OStop])]) ->
    reach b1 q1 v (trs ++ [(VAccept true true true, [TArm uid 30000000])]) ->
    nreach P (mkNet c v uid [] [] true) []
| nr_step s h e s' oc os :
    nreach P s h -> nev_ok e -> P s h e -> n_step s e = Some (s', oc, os) -> nreach P s' (h ++ [(e, oc, os)]).

(** The pair is idle: no exchange is open and no request waits. *)
Definition idle (h : nhist) : Prop := armed_for (cli_hist h) = None.

(** A request the protocol can carry, and a reply of the application to it that the protocol can carry back. *)
Definition job_ok (uid : Z) (j : item * areply) : Prop :=
  let it := fst j in let p := snd j in
  ev_ok (EReq it) /\ q_nbytes (i_req it) <= 260 /\ (exists fr, encode_req (i_req it) = EncOk fr) /\
  reply_ok p /\ p_session p = uid /\ p_tid p = q_tid (i_req it) mod 65536 /\ p_ok p = true /\ p_nbytes p <= 260 /\
  expressible (q_func (i_req it)) p = true.
