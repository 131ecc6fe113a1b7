(** The deployed application with the TCP connection between its own Modbus client and its own Modbus server: the self-test that
    the controller runs for ever (controller/modbus/ModbusTestController.cpp:177-407, client and server configured with the same address, lines 177-209).

    AppModel.v has the reactors, the queues and the components; here the octets that the Modbus client and the server's session write
    into their connection are kept, so that what one of them reads is what the other one has written. *)
From Verif Require Import Base QueueModel MsgStorageModel ModbusCodecModel ModbusClientModel ModbusServerModel ModbusCompModel ModbusNetModel ControllerModel AppModel.
Local Open Scope Z_scope.

(** The application and the kernel's part of the connection.  [w_c2s], [w_s2c]: octets written by the client (the session) and not
    read by the other side yet; [w_sess]: the session that accepted the connection; [w_refused]: an attempt to connect was refused
    (the client is configured, and connects, before the server listens: ModbusTestController.cpp:177-209, Modbus.cpp:24-51). Model only. *)
Record world := mkW { w_app : app; w_c2s : list Z; w_s2c : list Z; w_sess : option Z; w_refused : bool }.

(** The client and the server of the self-test, number 0 each: ModbusTestController.cpp:185-206, Modbus.hpp:35-36. *)
Definition the_client (s : app) : option (client astore) := match p_modbus s with Some b => nth_slot (b_clients b) 0 | None => None end.
(** The server. ModbusTestController.cpp:185-206, Modbus.hpp:35-36. *)
Definition the_server (s : app) : option server := match p_modbus s with Some b => nth_slot (b_servers b) 0 | None => None end.

(** The effects of a handler of the Modbus component. ModbusComponent.cpp:38-80, Modbus.cpp:20-96. *)
Definition effects (s : app) (e : aev) : list mout :=
  match e with
  | ATakeM x | ANet x => match mb_step (p_modbus s) x with Some (_, os) => os | None => [] end
  | _ => []
  end.
(** Octets written by clients (ModbusClient.cpp:49-75, Link.cpp:101-113). *)
Definition from_client (os : list mout) : list Z := flat_map (fun o => match o with MCli _ _ os => cli_octets os | _ => [] end) os.
(** Octets written by session [u] (ModbusSession.cpp:153-208, Link.cpp:101-113). *)
Definition from_session (u : option Z) (os : list mout) : list Z :=
  match u with Some u => flat_map (fun o => match o with MSrv _ _ os => srv_octets u os | _ => [] end) os | None => [] end.
(** The session a connection is given to, told from the timer it starts (ModbusServer.cpp:45-58, ModbusSession.cpp:20-33). *)
Definition accepted (os : list mout) : option Z :=
  match os with [MSrv _ (VAccept _ _ _) [TArm u _]] => Some u | _ => None end.
(** Octets taken out of the kernel's buffers, Link.cpp:115-133. *)
Definition read_by_client (e : aev) : nat := match e with ANet (MvCli _ (EData (RxBytes bs))) => length bs | _ => 0 end.
(** The same for the session. Link.cpp:115-133. *)
Definition read_by_session (e : aev) : nat := match e with ANet (MvSrv _ (VData _ (RxBytes bs))) => length bs | _ => 0 end.

(** The kernel's part after a step. Model only. *)
Definition settle (w : world) (e : aev) (s : app) : world :=
  let os := effects (w_app w) e in
  mkW s (skipn (read_by_session e) (w_c2s w) ++ from_client os) (skipn (read_by_client e) (w_s2c w) ++ from_session (w_sess w) os)
      (match w_sess w with Some u => Some u | None => accepted os end)
      (w_refused w || match e with ANet (MvCli _ EError) => true | _ => false end).
(** One step. Reactor.cpp:133-163 as in [astep]. *)
Definition wstep (g : list Z) (w : world) (e : aev) : option world :=
  match astep g (w_app w) e with ANext s => Some (settle w e s) | _ => None end.
(** The process after main has sent the start request (main.cpp:14-23). *)
Definition world0 : world := mkW (mkApp ctrl0 None PNone false false (mkBox [] [] [GStart]) (mkBox [] [] [])) [] [] None false.

(** What the handler that just ran has to send, Reactor.cpp:109-118. *)
Definition sent_by (e : aev) (s : app) : list amsg :=
  match e with
  | ATakeC _ | ATick => at_r (p_out s) RCtrl
  | ATakeM _ | ANet _ => at_r (p_out s) RModbus
  | ATakeU _ _ => at_r (p_out s) RUa
  | _ => []
  end.
