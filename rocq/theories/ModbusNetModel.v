(** A Modbus client and a Modbus server joined by a TCP connection: ModbusClient (modbus/client) and ModbusServer (modbus/server)
    of this program, as the deployed application connects them to each other over 127.0.0.1
    (controller/modbus/ModbusTestController.cpp:177-209 configures a client and a server with the same address). *)
From Verif Require Import Base QueueModel PoolModel MsgStorageModel ModbusCodecModel ModbusClientModel ModbusServerModel ModbusCompModel.
Local Open Scope Z_scope.

(** One established connection.  [n_uid]: the server's session for it; [n_c2s], [n_s2c]: octets written by one side and not yet
    read by the other (the kernel's buffers: a reliable, ordered octet stream in each direction); [n_up]: neither side has closed it.
    After a close the client makes a new connection, which is a new instance of this model. Model only. *)
Record net := mkNet { n_cli : client astore; n_srv : server; n_uid : Z; n_c2s : list Z; n_s2c : list Z; n_up : bool }.

(** Events.  [NToSrv bs], [NToCli bs]: a read of the server's (client's) link yields the octets [bs], some or all of the next ones
    in flight (common/reactor/Link.cpp:115-133). *)
Inductive nev :=
| NCli (e : cev)       (* a request or a timer of the client, or a link event without data *)
| NSrv (e : vev)       (* a reply of the application, an accept, a timer, or an event of another session *)
| NToSrv (bs : list Z)
| NToCli (bs : list Z).

(** What the sides write into the connection, and whether they close it. Model only. *)
Definition cli_octets (os : list cout) : list Z := flat_map (fun o => match o with OTx bs => bs | _ => [] end) os.
(** The client closes the connection, ModbusClient.cpp:34-37. *)
Definition cli_closes (os : list cout) : bool := existsb (fun o => match o with OClose => true | _ => false end) os.
(** The octets the session writes, ModbusSession.cpp:200, Link.cpp:101-113. *)
Definition srv_octets (uid : Z) (os : list sout) : list Z :=
  flat_map (fun o => match o with TTx u bs => if u =? uid then bs else [] | _ => [] end) os.
(** The session is released and its link with it, ModbusSession.cpp:210-215, ModbusServer.cpp:60-65. *)
Definition srv_closes (uid : Z) (os : list sout) : bool := existsb (fun o => match o with TFree u => u =? uid | _ => false end) os.

(** An event of the client (ModbusClient.cpp:241-289) and of the server (ModbusServer.cpp:33-65, ModbusSession.cpp). *)
Definition cli_event (s : net) (e : cev) : option (net * list cout) :=
  if enabled (n_cli s) e then
    match ac_step (n_cli s) e with
    | None => None
    | Some (c, os) => Some (mkNet c (n_srv s) (n_uid s) (n_c2s s ++ cli_octets os) (n_s2c s) (n_up s && negb (cli_closes os)), os)
    end
  else None.
(** An event of the server. ModbusServer.cpp:38-65, ModbusSession.cpp:43-65. *)
Definition srv_event (s : net) (e : vev) : option (net * list sout) :=
  if srv_enabled (n_srv s) e then
    match srv_step (n_srv s) e with
    | None => None
    | Some (v, os) => Some (mkNet (n_cli s) v (n_uid s) (n_c2s s) (n_s2c s ++ srv_octets (n_uid s) os) (n_up s && negb (srv_closes (n_uid s) os)), os)
    end
  else None.

(** The room in the receiver's buffer bounds what one read returns (modbus/client/ModbusClient.cpp:90, modbus/server/session/ModbusSession.cpp:92). *)
Definition cli_room (s : net) : Z := bufMaxLen - c_len (n_cli s).
(** Room in the session's buffer, ModbusSession.cpp:86-92. *)
Definition srv_room (s : net) : Z := match session_of (n_srv s) (n_uid s) with Some x => bufMaxLen - x_len x | None => 0 end.
(** The octets read are the first of those on the way (TCP). Model only. *)
Fixpoint is_prefix (a b : list Z) : bool :=
  match a, b with
  | [], _ => true
  | x :: a', y :: b' => (x =? y) && is_prefix a' b'
  | _, [] => false
  end.
(** What one read may return (TCP): some of the first octets, as many as there is room for. Model only. *)
Definition readable (bs stream : list Z) (room : Z) : bool :=
  negb (match bs with [] => true | _ => false end) && is_prefix bs stream && (Z.of_nat (length bs) <=? room).

(** Octets reach a side only through [NToSrv] and [NToCli]. Model only. *)
Definition plain_cli (e : cev) : bool := match e with EData (RxBytes _) => false | _ => true end.
(** An event of the server that brings no octets of this connection. Model only. *)
Definition plain_srv (uid : Z) (e : vev) : bool := match e with VData u (RxBytes _) => negb (u =? uid) | _ => true end.

(** One event of the pair with its effects on both sides; [None]: the event cannot occur, or undefined behaviour. Model only. *)
Definition n_step (s : net) (e : nev) : option (net * list cout * list sout) :=
  match e with
  | NCli e => if plain_cli e then match cli_event s e with Some (s', os) => Some (s', os, []) | None => None end else None
  | NSrv e => if plain_srv (n_uid s) e then match srv_event s e with Some (s', os) => Some (s', [], os) | None => None end else None
  | NToSrv bs =>
      if n_up s && readable bs (n_c2s s) (srv_room s) then
        match srv_event (mkNet (n_cli s) (n_srv s) (n_uid s) (skipn (length bs) (n_c2s s)) (n_s2c s) (n_up s)) (VData (n_uid s) (RxBytes bs)) with
        | Some (s', os) => Some (s', [], os)
        | None => None
        end
      else None
  | NToCli bs =>
      if n_up s && readable bs (n_s2c s) (cli_room s) then
        match cli_event (mkNet (n_cli s) (n_srv s) (n_uid s) (n_c2s s) (skipn (length bs) (n_s2c s)) (n_up s)) (EData (RxBytes bs)) with
        | Some (s', os) => Some (s', os, [])
        | None => None
        end
      else None
  end.
