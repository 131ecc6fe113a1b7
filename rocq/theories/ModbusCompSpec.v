(** Specification vocabulary for the Modbus component: the layout of batches as arithmetic, and histories visible at
    the component's interface. *)
From Verif Require Import Base MsgStorageModel ModbusCodecModel ModbusCodecSpec ModbusClientModel ModbusClientSpec
  ModbusServerModel ModbusServerSpec ModbusCompModel.
Local Open Scope Z_scope.

(** * Batches *)
(** A request item as a sender can describe it: fields fit their C++ types, the length field tells the length. *)
Definition item_ok (it : item) : Prop :=
  is_u32 (i_client it) /\ req_ok (i_req it) /\ q_nbytes (i_req it) = Z.of_nat (length (q_data (i_req it))).
(** The room taken by an item with [n] octets of data, and by a message. *)
Definition room (it : item) : nat := 16 * ((20 + length (q_data (i_req it)) + 15) / 16).
Definition rooms (its : list item) : nat := list_sum (map room its).
Definition total (its : list item) : nat := 16 + rooms its.

(** * Histories of the component *)
Definition mtrace := list (mev * list mout).
Definition outs_of_run (tr : mtrace) : list mout := flat_map snd tr.

(** Inputs as the outside world can produce them. *)
Definition cfg_ok (g : cfg) : Prop := is_u32 (g_id g) /\ mem_ok (g_mem g) (g_adu g).
Definition link_or_timer (e : cev) : bool := match e with EStart _ | EReq _ => false | _ => true end.
Definition net_or_timer (e : vev) : bool := match e with VReply _ _ | VStop => false | _ => true end.
Definition mev_ok (e : mev) : Prop :=
  match e with
  | MvInit ns nc => is_u32 ns /\ is_u32 nc
  | MvRelease => True
  | MvConfig l => Forall cfg_ok l
  | MvAdu m => bytes_ok m
  | MvRsp s p _ => is_u32 s /\ reply_ok p
  | MvCli id e => is_u32 id /\ link_or_timer e = true /\ ev_ok e
  | MvSrv id e => is_u32 id /\ net_or_timer e = true /\ vev_ok e
  end.
(** Link and timer events need an object whose link is open or timer armed. *)
Definition mb_enabled (c : option modbus) (e : mev) : bool :=
  match e, c with
  | MvCli id x, Some b => match nth_slot (b_clients b) id with Some k => enabled k x | None => false end
  | MvSrv id x, Some b => match nth_slot (b_servers b) id with Some v => srv_enabled v x | None => false end
  | MvCli _ _, None | MvSrv _ _, None => false
  | _, _ => true
  end.
(** Does the process live on? *)
Definition alive (os : list mout) : bool := forallb (fun o => match o with MTerminate => false | _ => true end) os.
(** Histories of a process that has not ended. *)
Inductive mreach : option modbus -> mtrace -> Prop :=
| mr_new : mreach None []
| mr_step c tr e c' os : mreach c tr -> mev_ok e -> mb_enabled c e = true -> mb_step c e = Some (c', os) -> alive os = true ->
    mreach c' (tr ++ [(e, os)]).

(** Is the component initialised, and with how many servers and clients? *)
Fixpoint sizes_from (z : option (Z * Z)) (tr : mtrace) : option (Z * Z) :=
  match tr with
  | [] => z
  | (MvInit ns nc, _) :: r => sizes_from (Some (ns, nc)) r
  | (MvRelease, _) :: r => sizes_from None r
  | _ :: r => sizes_from z r
  end.
Definition sizes (tr : mtrace) : option (Z * Z) := sizes_from None tr.

(** The servers whose last configuration got an acceptor that could not listen (since the component was initialised). *)
Fixpoint unbound_items (z : Z * Z) (bad : list Z) (l : list cfg) : list Z :=
  match l with
  | [] => bad
  | g :: r =>
      if (g_mode g =? 0) && (g_id g <? fst z) then
        if g_pools g && g_net g then unbound_items z bad r else if g_pools g then g_id g :: bad else bad
      else if (g_mode g =? 1) && (g_id g <? snd z) then if g_pools g && g_net g then unbound_items z bad r else bad
      else unbound_items z bad r
  end.
Fixpoint unbound_from (z : option (Z * Z)) (bad : list Z) (tr : mtrace) : list Z :=
  match tr with
  | [] => bad
  | (MvInit ns nc, _) :: r => unbound_from (Some (ns, nc)) [] r
  | (MvRelease, _) :: r => unbound_from None [] r
  | (MvConfig l, _) :: r => unbound_from z (match z with Some z0 => unbound_items z0 bad l | None => bad end) r
  | _ :: r => unbound_from z bad r
  end.
Definition unbound (tr : mtrace) : list Z := unbound_from None [] tr.
(** A configuration item that would replace such a server. *)
Definition replaces (z : Z * Z) (bad : list Z) (g : cfg) : bool :=
  (g_mode g =? 0) && (g_id g <? fst z) && existsb (Z.eqb (g_id g)) bad.

(** What the client with index [id] has done since it was last (re)configured: its events with their effects; [None] when
    there is no such client. *)
Definition client_hist (id : Z) (h : option trace) (o : mout) : option trace :=
  match o with
  | MInitRsp | MReleaseRsp => None
  | MNewClient j => if j =? id then Some [] else h
  | MCli j e os => if j =? id then option_map (fun l => l ++ [(e, os)]) h else h
  | _ => h
  end.
Definition client_history (id : Z) (tr : mtrace) : option trace := fold_left (client_hist id) (outs_of_run tr) None.
(** The same for servers. *)
Definition server_hist (id : Z) (h : option strace) (o : mout) : option strace :=
  match o with
  | MInitRsp | MReleaseRsp => None
  | MNewServer j => if j =? id then Some [] else h
  | MSrv j e os => if j =? id then option_map (fun l => l ++ [(e, os)]) h else h
  | _ => h
  end.
Definition server_history (id : Z) (tr : mtrace) : option strace := fold_left (server_hist id) (outs_of_run tr) None.

(** The responses the user of the component sees. *)
Definition mrsps (o : mout) : list (Z * Z) :=
  match o with MNoClient c t => [(c, t)] | MCli _ _ os => rsps os | _ => [] end.
Definition responses (tr : mtrace) : list (Z * Z) := flat_map mrsps (outs_of_run tr).

(** Effects for one item of a batch. *)
Definition item_done (known : bool) (it : item) (o : mout) : Prop :=
  if known then exists os, o = MCli (i_client it) (EReq it) os
  else o = MNoClient (i_client it) (q_tid (i_req it)).
Definition known (id : Z) (tr : mtrace) : bool := match client_history id tr with Some _ => true | None => false end.

(** The items of a configuration that name an existing place, and what handling them yields. *)
Definition in_range (z : Z * Z) (g : cfg) : bool :=
  ((g_mode g =? 0) && (g_id g <? fst z)) || ((g_mode g =? 1) && (g_id g <? snd z)).
Definition works (z : Z * Z) (g : cfg) : bool := negb (in_range z g) || (g_pools g && g_net g).
Definition config_effect (z : Z * Z) (g : cfg) : list mout :=
  if negb (in_range z g) then []
  else if g_mode g =? 0 then [MNewServer (g_id g)]
  else [MNewClient (g_id g); MCli (g_id g) (EStart true) [OTimer 3000000; OConnect]].
