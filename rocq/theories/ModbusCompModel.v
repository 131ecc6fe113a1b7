(** Model of the Modbus component: layout of batch requests, Modbus and ModbusComponent. *)
From Verif Require Import Base QueueModel PoolModel MsgStorageModel ModbusCodecModel ModbusClientModel ModbusServerModel.
Local Open Scope Z_scope.

(** * common/msg/MsgModbusClientAduReq.hpp

    The message lies in a buffer of octets (reactor::MsgStore, MsgStore.hpp:26-27, 4096 octets, or a slot of the reactor's message storage).
    Offsets are those of the x86-64 ABI: virtual table pointer 0-7, numItems 8-9, items from 12; in an item clientId 0-3,
    transactId 4-7, func 8, addr 10-11, startItem 12-13, numItems 14-15, numBytes 16-17, data from 18; sizeof item is
    20, sizeof message 16.  Octets are little endian.  [None]: access outside the buffer. *)
Definition load (n : nat) (m : list Z) (off : nat) : option Z :=
  if (off + n <=? length m)%nat then Some (le_val (firstn n (skipn off m))) else None.
(** [n] octets of a message at offset [off]; [None]: outside. The member data of an item, see [load]. *)
Definition slice (n : nat) (m : list Z) (off : nat) : option (list Z) :=
  if (off + n <=? length m)%nat then Some (firstn n (skipn off m)) else None.
(** Writing octets into a message at offset [off]; [None]: outside. See [load]. *)
Definition put (m : list Z) (off : nat) (bs : list Z) : option (list Z) :=
  if (off + length bs <=? length m)%nat then Some (firstn off m ++ bs ++ skipn (off + length bs) m) else None.

(** memAlign, common/utils/MemUtils.hpp:6-10, for size_t (the complement is written with infinitely many bits, the other
    operand has 64). *)
Definition memAlign (v : Z) : Z := Z.land (u64 (v + 15)) (Z.lnot 15).
(** sizeof of an item, MsgModbusClientAduReq.hpp, for the usual layout. Lines 14-24. *)
Definition itemSize : Z := 20.
(** sizeof of the message, MsgModbusClientAduReq.hpp, for the usual layout. Lines 26-29. *)
Definition msgSize : Z := 16.
(** offsetof items, MsgModbusClientAduReq.hpp, for the usual layout. Line 29. *)
Definition itemsOff : nat := 12.
(** From one item to the next, MsgModbusClientAduReq.hpp:46-68. *)
Definition stride (nb : Z) : Z := memAlign (u64 (itemSize + nb)).

(** item(), MsgModbusClientAduReq.hpp:46-68. *)
Fixpoint walk (m : list Z) (off : nat) (k : nat) : option nat :=
  match k with
  | O => Some off
  | S k' => match load 2 m (off + 16) with
            | Some nb => walk m (off + Z.to_nat (stride nb)) k'
            | None => None
            end
  end.
(** item(), MsgModbusClientAduReq.hpp:46-68. *)
Definition item_off (m : list Z) (i : nat) : option nat := walk m itemsOff i.

(** size(), MsgModbusClientAduReq.hpp:31-44. *)
Fixpoint size_loop (m : list Z) (off : nat) (acc : Z) (k : nat) : option Z :=
  match k with
  | O => Some acc
  | S k' => match load 2 m (off + 16) with
            | Some nb => size_loop m (off + Z.to_nat (stride nb)) (u64 (acc + stride nb)) k'
            | None => None
            end
  end.
(** The member numItems, MsgModbusClientAduReq.hpp. Line 28. *)
Definition num_items (m : list Z) : option Z := load 2 m 8.
(** size(), MsgModbusClientAduReq.hpp:31-44. *)
Definition msg_size (m : list Z) : option Z :=
  match num_items m with Some n => size_loop m itemsOff msgSize (Z.to_nat n) | None => None end.

(** Access to the members of one item. Model only. *)
Definition obind {A B} (o : option A) (k : A -> option B) : option B := match o with Some a => k a | None => None end.
(** Reading the members of one item, MsgModbusClientAduReq.hpp:14-23, Modbus.cpp:69-84. *)
Definition rd_item (m : list Z) (off : nat) : option item :=
  obind (load 4 m off) (fun c => obind (load 4 m (off + 4)) (fun t => obind (load 1 m (off + 8)) (fun f =>
  obind (load 2 m (off + 10)) (fun a => obind (load 2 m (off + 12)) (fun s => obind (load 2 m (off + 14)) (fun n =>
  obind (load 2 m (off + 16)) (fun nb => obind (slice (Z.to_nat nb) m (off + 18)) (fun d =>
  Some (mkItem c (mkReq t f a s n nb d)))))))))).

(** How a batch is written, controller/modbus/ModbusTestController.cpp:216-237: numItems, then for each item the address of
    item(i), the members, and the data if there are any. *)
Definition put_item (m : list Z) (off : nat) (it : item) : option (list Z) :=
  let q := i_req it in
  obind (put m off (le_bytes 4 (i_client it))) (fun m => obind (put m (off + 4) (le_bytes 4 (q_tid q))) (fun m =>
  obind (put m (off + 10) (le_bytes 2 (q_addr q))) (fun m => obind (put m (off + 8) (le_bytes 1 (q_func q))) (fun m =>
  obind (put m (off + 12) (le_bytes 2 (q_start q))) (fun m => obind (put m (off + 14) (le_bytes 2 (q_nitems q))) (fun m =>
  obind (put m (off + 16) (le_bytes 2 (Z.of_nat (length (q_data q))))) (fun m =>
  match q_data q with [] => Some m | d => put m (off + 18) d end))))))).
(** The loop, ModbusTestController.cpp:216-237. *)
Fixpoint put_items (m : list Z) (i : nat) (its : list item) : option (list Z) :=
  match its with
  | [] => Some m
  | it :: r => obind (item_off m i) (fun off => obind (put_item m off it) (fun m' => put_items m' (S i) r))
  end.
(** numItems, then the loop, ModbusTestController.cpp:216-237. *)
Definition write_batch (m : list Z) (its : list item) : option (list Z) :=
  obind (put m 8 (le_bytes 2 (Z.of_nat (length its)))) (fun m' => put_items m' 0 its).

(** The items as the receiver goes through them, modbus/Modbus.cpp:67-69. *)
Fixpoint rd_items (m : list Z) (i k : nat) : option (list item) :=
  match k with
  | O => Some []
  | S k' => obind (item_off m i) (fun off => obind (rd_item m off) (fun it => obind (rd_items m (S i) k') (fun r => Some (it :: r))))
  end.
(** Modbus.cpp:65-86. *)
Definition read_batch (m : list Z) : option (list item) := obind (num_items m) (fun n => rd_items m 0 (Z.to_nat n)).

(** * modbus/Modbus.cpp, modbus/ModbusComponent.cpp *)

(** One event of a client with its concrete storage. ModbusClient.cpp:241-289. *)
Definition ac_step := c_step as_empty as_front as_pop as_push.

(** Members, Modbus.hpp:35-36.  [b_bad]: the servers that own an acceptor which failed to listen; its descriptor is -1
    (Acceptor.cpp:42-79). *)
Record modbus := mkMb { b_servers : list (option server); b_clients : list (option (client astore)); b_bad : list Z }.

(** A configuration item, MsgModbusConfigReq.hpp:12-22; [g_mode] 0 server, 1 client, anything else no
    case.  The other members are the answers of the environment while this item is handled: the new object's uninitialised
    memory ([g_store]: a client's request storage; [g_mem]: receive buffers; [g_adu]: the record of a session); is a link, timer, acceptor free in the reactor's pools; does connect (listen) succeed. *)
Record cfg := mkCfg { g_id : Z; g_mode : Z; g_store : memory; g_mem : list Z; g_adu : adu_req; g_pools : bool; g_net : bool }.

(** Effects.  A handler of a client or server called inside the component is shown with its event and effects. Model only. *)
Inductive mout :=
| MInitRsp | MReleaseRsp
| MConfigRsp (items : list (Z * bool))         (* ids and statuses; true: success *)
| MNoClient (client tid : Z)                   (* MsgModbusClientAduRsp with status error, no data *)
| MNewClient (id : Z) | MNewServer (id : Z)    (* a fresh object takes the place of what was there *)
| MCli (id : Z) (e : cev) (os : list cout)
| MSrv (id : Z) (e : vev) (os : list sout)
| MThrow
| MTerminate.                                  (* std::terminate: the process ends *)

(** What reaches the component: its messages, ModbusComponent.cpp, and the events of its clients and servers. ModbusComponent.cpp:38-80. *)
Inductive mev :=
| MvInit (ns nc : Z)
| MvRelease
| MvConfig (l : list cfg)
| MvAdu (m : list Z)                          (* MsgModbusClientAduReq, as octets *)
| MvRsp (srv : Z) (p : areply) (sok : bool)   (* MsgModbusAduRsp *)
| MvCli (id : Z) (e : cev)                    (* link or timer event of a client *)
| MvSrv (id : Z) (e : vev).                   (* accept, link or timer event of a server *)

(** The object at an index of a vector of pointers, Modbus.cpp. Modbus.cpp:71, 84, 90, 95. *)
Definition nth_slot {A} (l : list (option A)) (id : Z) : option A :=
  match nth_error l (Z.to_nat id) with Some (Some x) => Some x | _ => None end.
(** The object changes (model only). *)
Definition set_client (b : modbus) (id : Z) (c : client astore) : modbus := mkMb (b_servers b) (upd (b_clients b) (Z.to_nat id) (Some c)) (b_bad b).
(** The object changes (model only). *)
Definition set_server (b : modbus) (id : Z) (v : server) : modbus := mkMb (upd (b_servers b) (Z.to_nat id) (Some v)) (b_clients b) (b_bad b).
(** A server whose acceptor exists but does not listen (see [config_item] below). Modbus.cpp:35-36, Acceptor.cpp:42-79. *)
Definition add_bad (b : modbus) (id : Z) : modbus := mkMb (b_servers b) (b_clients b) (id :: b_bad b).
(** Is it one of those?. Model only. *)
Definition is_bad (b : modbus) (id : Z) : bool := existsb (Z.eqb id) (b_bad b).
(** An exception left the handler. Model only. *)
Definition threw (os : list cout) : bool := existsb (fun o => match o with OThrow => true | _ => false end) os.
(** The state ModbusServer::stop reaches, ModbusServer.cpp:33-36. *)
Definition shut (v : server) : server := mkSrv false (v_pool v) (v_sess v).

(** One configuration item, Modbus.cpp:24-51.  The boolean: an exception left the loop.  A server without a listening
    acceptor (createAcceptor or listen threw) is in the state reached by stop(), and shown so.  Destroying a server whose
    acceptor exists but does not listen ends the process: the deleter (Reactor.cpp:101-105) calls Acceptor::release, whose
    close throws "invalid sfd" (Acceptor.cpp:36-40, 81-86) out of the destructor of a unique_ptr. *)
Definition config_item (b : modbus) (g : cfg) : option (modbus * list mout * bool) :=
  if g_mode g =? 0 then
    if (Z.of_nat (length (b_servers b)) <=? g_id g) then Some (b, [], false)
    else if is_bad b (g_id g) then Some (b, [MTerminate], true)
    else match srv_new maxNumSession (g_mem g) (g_adu g) with
         | None => None
         | Some v => if g_pools g && g_net g then Some (set_server b (g_id g) v, [MNewServer (g_id g)], false)
                     else Some ((if g_pools g then add_bad (set_server b (g_id g) (shut v)) (g_id g) else set_server b (g_id g) (shut v)),
                                [MNewServer (g_id g); MSrv (g_id g) VStop []; MThrow], true)
         end
  else if g_mode g =? 1 then
    if (Z.of_nat (length (b_clients b)) <=? g_id g) then Some (b, [], false)
    else if negb (g_pools g) then Some (b, [MThrow], true)
    else match match as_new (g_store g) with Some st => ac_step (c_new st (g_mem g)) (EStart (g_net g)) | None => None end with
         | None => None
         | Some (c, os) => Some (set_client b (g_id g) c, [MNewClient (g_id g); MCli (g_id g) (EStart (g_net g)) os] ++ (if threw os then [MThrow] else []), threw os)
         end
  else Some (b, [], false).
(** Modbus.cpp:20-63. *)
Fixpoint config_loop (b : modbus) (l : list cfg) : option (modbus * list mout * bool) :=
  match l with
  | [] => Some (b, [], false)
  | g :: r => match config_item b g with
              | None => None
              | Some (b1, o1, true) => Some (b1, o1, true)
              | Some (b1, o1, false) => match config_loop b1 r with
                                        | None => None
                                        | Some (b2, o2, x) => Some (b2, o1 ++ o2, x)
                                        end
              end
  end.
(** receive(MsgModbusConfigReq), Modbus.cpp:20-63. *)
Definition config (b : modbus) (l : list cfg) : option (modbus * list mout) :=
  match config_loop b l with
  | None => None
  | Some (b', os, true) => Some (b', os)
  | Some (b', os, false) => Some (b', os ++ [MConfigRsp (map (fun g => (g_id g, true)) l)])
  end.

(** Modbus.cpp:65-86. *)
Fixpoint adu_loop (b : modbus) (l : list item) : option (modbus * list mout) :=
  match l with
  | [] => Some (b, [])
  | it :: r =>
      match nth_slot (b_clients b) (i_client it) with
      | None => match adu_loop b r with
                | None => None
                | Some (b', os) => Some (b', MNoClient (i_client it) (q_tid (i_req it)) :: os)
                end
      | Some c =>
          match ac_step c (EReq it) with
          | None => None
          | Some (c', o) => match adu_loop (set_client b (i_client it) c') r with
                            | None => None
                            | Some (b', os) => Some (b', MCli (i_client it) (EReq it) o :: os)
                            end
          end
      end
  end.

(** Events of a client or server object; there are none when there is no object. ModbusClient.cpp:241-289. *)
Definition cli_event (b : modbus) (id : Z) (e : cev) : option (modbus * list mout) :=
  match nth_slot (b_clients b) id with
  | None => Some (b, [])
  | Some c => match ac_step c e with None => None | Some (c', o) => Some (set_client b id c', [MCli id e o]) end
  end.
(** An event of a server's session or acceptor. ModbusServer.cpp:45-65, ModbusSession.cpp:48-65. *)
Definition srv_event (b : modbus) (id : Z) (e : vev) : option (modbus * list mout) :=
  match nth_slot (b_servers b) id with
  | None => Some (b, [])
  | Some v => match srv_step v e with None => None | Some (v', o) => Some (set_server b id v', [MSrv id e o]) end
  end.

(** Is there a server whose destruction ends the process?. ModbusComponent.cpp:53. *)
Definition doomed (c : option modbus) : bool := match c with Some b => negb (match b_bad b with [] => true | _ => false end) | None => false end.
(** ModbusComponent.cpp:38-80; Modbus.cpp:9-14, 88-96.  Initialising and releasing destroy the object that was there. *)
Definition mb_step (c : option modbus) (e : mev) : option (option modbus * list mout) :=
  match e with
  | MvInit ns nc => if doomed c then Some (c, [MTerminate])
                    else Some (Some (mkMb (repeat None (Z.to_nat ns)) (repeat None (Z.to_nat nc)) []), [MInitRsp])
  | MvRelease => if doomed c then Some (c, [MTerminate]) else Some (None, [MReleaseRsp])
  | _ =>
      match c with
      | None => Some (None, [])
      | Some b =>
          match (match e with
                 | MvConfig l => config b l
                 | MvAdu m => match read_batch m with Some its => adu_loop b its | None => None end
                 | MvRsp s p sok => srv_event b s (VReply p sok)
                 | MvCli id x => cli_event b id x
                 | MvSrv id x => srv_event b id x
                 | _ => None
                 end) with
          | Some (b', os) => Some (Some b', os)
          | None => None
          end
      end
  end.
