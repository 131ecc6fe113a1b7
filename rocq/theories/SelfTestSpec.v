(** Specification vocabulary for the self-test of the deployed application: a healthy environment, its histories. *)
From Verif Require Import Base QueueModel MsgStorageModel ModbusCodecModel ModbusCodecSpec ModbusClientModel ModbusClientSpec ModbusServerModel ModbusServerSpec
  ModbusCompModel ModbusCompSpec ModbusNetModel ControllerModel AppModel SelfTestModel.
Local Open Scope Z_scope.

(** Nothing is on its way between the controller, the Modbus component and the two ends of the connection. *)
Definition still (w : world) : Prop :=
  w_c2s w = [] /\ w_s2c w = [] /\
  x_m (p_q (w_app w)) = [] /\ x_m (p_out (w_app w)) = [] /\ x_c (p_q (w_app w)) = [] /\ x_c (p_out (w_app w)) = [].

(** Events of the client: an attempt to connect succeeds, or is refused once, before the server has accepted it; it does not take the three
    seconds of its timeout.  Once up, the connection stays.  The five seconds for a response pass only when nothing is on its way.  A
    read yields some of the first octets sent, and does not end within the last six octets of a frame (C22). *)
Definition fine_cli (w : world) (c : client astore) (e : cev) : Prop :=
  enabled c e = true /\
  match e with
  | EConnected => c_st c = CConnect
  | EError => c_st c = CConnect /\ w_sess w = None /\ w_refused w = false
  | ETimer sok cok => sok = true /\ cok = true /\
      match c_st c with CBackoff | CSend => True | CReceive => still w | _ => False end
  | EData (RxBytes bs) => readable bs (w_s2c w) (bufMaxLen - c_len c) = true /\
      (bs = w_s2c w \/ c_len c + Z.of_nat (length bs) < 6 \/ (length bs + 6 < length (w_s2c w))%nat)
  | _ => False
  end.
(** Events of the server: it accepts the client's connection, and nobody else's, with a free link and timer; it reads what the client has sent. The session's
    timers (five seconds for the application's reply, thirty without traffic) do not expire. *)
Definition fine_srv (w : world) (v : server) (e : vev) : Prop :=
  srv_enabled v e = true /\
  match e with
  | VAccept tok lok aok => tok = true /\ lok = true /\ aok = true /\ w_sess w = None /\
      exists c, the_client (w_app w) = Some c /\ c_fd c = true
  | VData u (RxBytes bs) => w_sess w = Some u /\
      readable bs (w_c2s w) (match session_of v u with Some x => bufMaxLen - x_len x | None => 0 end) = true
  | _ => False
  end.
(** Messages the Modbus component handles: its pools have room, the server can listen, connect() does not fail outright; a batch of requests is read as it was written (C54), and not before the
    connection is up (the controller sleeps two seconds after the configuration, ModbusTestController.cpp:336-340); replies can be written. *)
Definition fine_take (w : world) (e : mev) : Prop :=
  match e with
  | MvConfig l => Forall (fun x => cfg_ok x /\ g_pools x = true /\ g_net x = true) l
  | MvAdu m => (exists c, the_client (w_app w) = Some c /\ (c_st c = CConnected \/ c_st c = CSend)) /\ w_sess w <> None /\
      match x_m (p_q (w_app w)) with GBatch its :: _ => read_batch m = Some its | _ => True end
  | MvRsp _ _ sok => sok = true
  | _ => True
  end.
(** A healthy environment: also, no queue is full, timers and acceptors are free, the OPC UA port can be bound, no further command. *)
Definition fine (w : world) (e : aev) : Prop :=
  match e with
  | ACmd _ _ => False
  | APut _ kept => kept = true
  | ATakeC tok => tok = true
  | ATakeU acc lis => acc = true /\ lis = true
  | ATakeM x => fine_take w x
  | ATick => True
  | ANet (MvCli id x) => id = 0 /\ exists c, the_client (w_app w) = Some c /\ fine_cli w c x
  | ANet (MvSrv id x) => id = 0 /\ exists v, the_server (w_app w) = Some v /\ fine_srv w v x
  | ANet _ => False
  end.

(** Histories in it, with what each handler sends. *)
Inductive healthy (g : list Z) : world -> list (aev * list amsg) -> Prop :=
| he_start : healthy g world0 []
| he_step w h e w' : healthy g w h -> fine w e -> wstep g w e = Some w' -> healthy g w' (h ++ [(e, sent_by e (w_app w'))]).

(** Batches of requests sent by the controller: every round of the self-test begins with one. *)
Definition is_batch (m : amsg) : bool := match m with GBatch _ => true | _ => false end.
Definition rounds (h : list (aev * list amsg)) : nat := length (filter is_batch (flat_map snd h)).
(** The octets rand() yields (ModbusTestController.cpp:27-36): 2048 of them. *)
Definition octets (g : list Z) : Prop := length g = 2048%nat /\ bytes_ok g.
(** The responses among messages. *)
Definition answers_in (l : list amsg) : list crsp := flat_map (fun m => match m with GFromModbus (TvRsp r) => [r] | _ => [] end) l.
(** The responses of a round, in the order in which the client hands them over: the transaction, the status and the exception code that the table of the controller expects
    (ModbusTestController.cpp:44-110), and the octets of the registers read. *)
Definition round_of (g : list Z) : list crsp :=
  [ mkCrsp 99 12 0 false 0 [];
    mkCrsp 0 0 0 true 0 [];
    mkCrsp 0 1 0 false 0 [];
    mkCrsp 0 2 4 true 0 [];
    mkCrsp 0 3 0 true 240 (firstn 240 (skipn 1780 g));
    mkCrsp 0 4 0 true 2 (firstn 2 g);
    mkCrsp 0 5 0 false 0 [];
    mkCrsp 0 6 0 false 0 [];
    mkCrsp 0 7 0 true 0 [];
    mkCrsp 0 8 0 true 0 [];
    mkCrsp 0 9 0 false 0 [];
    mkCrsp 0 10 0 true 250 (firstn 250 (skipn 20 g));
    mkCrsp 0 11 0 true 0 [];
    mkCrsp 0 13 0 false 0 [];
    mkCrsp 0 14 0 false 0 [];
    mkCrsp 0 15 0 false 0 [] ].
