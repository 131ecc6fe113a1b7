(** Specification vocabulary for the UA TCP transport: what an outside observer of its
    events and effects can write down. *)
From Verif Require Import Base ModbusCodecSpec ModbusClientModel UaCodecModel UaTcpModel.
Local Open Scope Z_scope.

Definition utrace := list (tev * list uout).

(** Inputs as the outside world can produce them: messages of the secure channel layer fit a message
    buffer (4096 octets with the 24-octet header). *)
Definition umsg_ok (m : umsg) : Prop :=
  is_u32 (um_conn m) /\ is_u32 (um_chan m) /\ is_byte (um_chunk m) /\ 0 <= um_len m <= 4072 /\
  bytes_ok (um_data m) /\ um_len m <= Z.of_nat (length (um_data m)).
Definition tev_ok (e : tev) : Prop :=
  match e with
  | EvData _ (RxBytes bs) _ => bytes_ok bs
  | EvMsg _ m _ => umsg_ok m
  | EvRelease uid => is_u32 uid
  | _ => True
  end.

(** Histories of a started transport; [b0] is any contents of the receive buffers. *)
Definition umem_ok (b0 : list Z) : Prop := Z.of_nat (length b0) = 4096 /\ bytes_ok b0.
Inductive ureach (b0 : list Z) : tserver -> utrace -> Prop :=
| ur_new v : umem_ok b0 -> tsrv_new maxConn b0 = Some v -> ureach b0 v []
| ur_step v tr e v' os :
    ureach b0 v tr -> tev_ok e -> tsrv_enabled v e = true -> tsrv_step v e = Some (v', os) ->
    ureach b0 v' (tr ++ [(e, os)]).

(** ** Per-connection bookkeeping *)
(** The armed timeout, number of starts and releases, whether an acknowledge was sent to the present
    client, the channel id of the last open-channel response it was given, and the octets received
    since the last complete message. *)
Record uview := mkUv {
  g_armed : option Z; g_starts : nat; g_frees : nat; g_acked : bool; g_chan : option Z; g_rx : list Z
}.
Definition uview0 : uview := mkUv None 0 0 false None [].

Definition is_uarm (uid : Z) (o : uout) : bool := match o with UArm u _ => u =? uid | _ => false end.
Definition is_ufree (uid : Z) (o : uout) : bool := match o with UFree u => u =? uid | _ => false end.
(** A packet of type ACK. *)
Definition is_uack (uid : Z) (o : uout) : bool :=
  match o with UTx u (65 :: 67 :: 75 :: _) _ => u =? uid | _ => false end.
Definition ucount (f : uout -> bool) (os : list uout) : nat := length (filter f os).
Definition uarm_next (uid : Z) (a : option Z) (o : uout) : option Z :=
  match o with
  | UArm u us => if u =? uid then Some us else a
  | UDisarm u | UFree u => if u =? uid then None else a
  | _ => a
  end.

Definition uview_next (uid : Z) (w : uview) (x : tev * list uout) : uview :=
  let (e, os) := x in
  let freed := existsb (is_ufree uid) os in
  mkUv
    (fold_left (uarm_next uid) os
       (match e with EvTimer u => if u =? uid then None else g_armed w | _ => g_armed w end))
    (g_starts w + match e with EvAccept _ _ _ => ucount (is_uarm uid) os | _ => 0 end)
    (g_frees w + ucount (is_ufree uid) os)
    (if freed then false else g_acked w || existsb (is_uack uid) os)
    (if freed then None
     else match e with
          | EvMsg KOpn m _ => if (um_conn m =? uid) && g_acked w then Some (um_chan m) else g_chan w
          | _ => g_chan w
          end)
    (if existsb (is_uarm uid) os then []
     else match e with
          | EvData u (RxBytes bs) _ => if u =? uid then g_rx w ++ bs else g_rx w
          | _ => g_rx w
          end).
Definition uview_of (uid : Z) (tr : utrace) : uview := fold_left (uview_next uid) tr uview0.

(** Connection [uid] currently serves a client. *)
Definition ulive (uid : Z) (tr : utrace) : Prop := g_starts (uview_of uid tr) = S (g_frees (uview_of uid tr)).
(** It completed the handshake. *)
Definition uacked (uid : Z) (tr : utrace) : Prop := g_acked (uview_of uid tr) = true.
(** The secure channel associated with it. *)
Definition uchan (uid : Z) (tr : utrace) : option Z := g_chan (uview_of uid tr).
(** It has received nothing since its start or since the last complete message. *)
Definition uboundary (uid : Z) (tr : utrace) : Prop := g_rx (uview_of uid tr) = [].

(** The present client of connection [uid] has asked for a channel. *)
Definition uasked_next (uid : Z) (b : bool) (o : uout) : bool :=
  match o with
  | UFwd KOpn u _ _ _ _ => if u =? uid then true else b
  | UFree u => if u =? uid then false else b
  | _ => b
  end.
Definition uasked (uid : Z) (tr : utrace) : bool := fold_left (fun b x => fold_left (uasked_next uid) (snd x) b) tr false.

(** How often handling data of the present client of connection [uid] has raised an exception. *)
Definition is_uthrow (o : uout) : bool := match o with UThrow => true | _ => false end.
Definition throws_next (uid : Z) (n : nat) (x : tev * list uout) : nat :=
  match fst x with
  | EvAccept _ _ _ => if existsb (is_uarm uid) (snd x) then 0%nat else n
  | EvData u _ _ => if (u =? uid) && existsb is_uthrow (snd x) then S n else n
  | _ => n
  end.
Definition uthrows (uid : Z) (tr : utrace) : nat := fold_left (throws_next uid) tr 0%nat.

(** ** Totals *)
Definition ustarts (x : tev * list uout) : nat :=
  match fst x with
  | EvAccept _ _ _ => ucount (fun o => match o with UArm _ _ => true | _ => false end) (snd x)
  | _ => 0
  end.
Definition ufrees (x : tev * list uout) : nat :=
  ucount (fun o => match o with UFree _ => true | _ => false end) (snd x).
(** Clients accepted while the reactor had no timer left. *)
Definition unotimer (x : tev * list uout) : nat :=
  match fst x with
  | EvAccept true true _ => ucount (fun o => match o with UThrow => true | _ => false end) (snd x)
  | _ => 0
  end.
Definition utotal (f : tev * list uout -> nat) (tr : utrace) : nat := list_sum (map f tr).

(** ** Packets *)
(** Little-endian value of the four octets at [i]. *)
Definition le_at (i : nat) (m : list Z) : Z := le_val (firstn 4 (skipn i m)).
(** A packet whose size field is its own length. *)
Definition sized (m : list Z) : Prop := bytes_ok m /\ (8 <= length m)%nat /\ le_at 4 m = Z.of_nat (length m).
Definition has_type (m : list Z) (k : kind) : Prop := firstn 3 m = kind_octets k.
(** The packet for a message of the secure channel layer. *)
Definition packet_of (k : kind) (m : umsg) : list Z :=
  kind_octets k ++ [match um_chunk m with 1 => 67 | 2 => 70 | 3 => 65 | _ => 0 end] ++
  le_bytes 4 (12 + um_len m) ++ le_bytes 4 (um_chan m) ++ firstn (Z.to_nat (um_len m)) (um_data m).
(** The acknowledge packet. *)
Definition ack_packet : list Z :=
  [65; 67; 75; 70] ++ le_bytes 4 28 ++ le_bytes 4 0 ++ le_bytes 4 65536 ++ le_bytes 4 65536 ++
  le_bytes 4 327680000 ++ le_bytes 4 5000.

(** What the connection does with a complete message [m], when [ch] is the associated channel and [tail] is
    what the last 12 octets handed on happen to be. *)
Definition chunk_code (o : Z) : Z := match o with 67 => 1 | 70 => 2 | 65 => 3 | _ => 0 end.
Definition closing (uid : Z) (ch : option Z) : list uout :=
  match ch with Some a => [URelInd uid a] | None => [] end ++ [UDisarm uid; UFree uid].
Definition delivery (uid : Z) (ch : option Z) (m tail : list Z) (os : list uout) : Prop :=
  let fwd k := os = [UFwd k uid (le_at 8 m) (chunk_code (nth 3 m 0)) (Z.of_nat (length m)) (skipn 12 m ++ tail);
                     UArm uid 30000000] in
  (has_type m KOpn -> fwd KOpn) /\
  (forall k, k <> KOpn -> has_type m k -> ch = Some (le_at 8 m) -> fwd k) /\
  (forall k, k <> KOpn -> has_type m k -> ch <> Some (le_at 8 m) -> os = closing uid ch) /\
  ((forall k, ~ has_type m k) -> os = closing uid ch).

(** A read of [bs] on connection [uid]. *)
Definition reads_of (uid : Z) (w : option nat) (segs : list (list Z)) : list tev :=
  map (fun bs => EvData uid (RxBytes bs) w) segs.
