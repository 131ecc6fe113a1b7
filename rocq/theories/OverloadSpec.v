(** Specification vocabulary for a reactor under load: what clients, the kernel and the observer of the transport's events see. *)
From Verif Require Import Base ModbusCodecSpec ModbusClientModel ModbusServerModel ModbusServerSpec UaTcpModel UaTcpSpec OverloadModel.
Local Open Scope Z_scope.

Definition htrace := list (hev * hout).
Definition hent_ok (e : hent) : Prop := match e with NMsg ms => Forall tev_ok ms | _ => True end.
Definition hev_ok (e : hev) : Prop :=
  match e with
  | HArrive _ bs => bytes_ok bs
  | HWait es => Forall hent_ok es
  | HNext _ _ early _ _ => bytes_ok early
  | _ => True
  end.
(** Histories of a host whose transport listens. *)
Inductive hreach (b0 : list Z) : host -> htrace -> Prop :=
| hr_new v : umem_ok b0 -> tsrv_new maxConn b0 = Some v -> hreach b0 (h_new v) []
| hr_step h tr e h' o : hreach b0 h tr -> hev_ok e -> h_step h e = Some (h', o) -> hreach b0 h' (tr ++ [(e, o)]).
(** Runs. *)
Inductive hrun : host -> htrace -> host -> Prop :=
| hn_nil h : hrun h [] h
| hn_cons h e o h1 tr h2 : hev_ok e -> h_step h e = Some (h1, o) -> hrun h1 tr h2 -> hrun h ((e, o) :: tr) h2.

(** The transport's own history. *)
Definition served (tr : htrace) : utrace := flat_map (fun x => o_seen (snd x)) tr.

(** ** What a client knows about its connection, from its acceptance on *)
(** Octets sent; octets read by the transport; whether a read returned as many octets as were asked for; whether an event about
    data was dropped; whether an error was reported. *)
Record cview := mkCv { c_sent : list Z; c_read : list Z; c_full : bool; c_lost : bool; c_broken : bool }.
Definition cview0 : cview := mkCv [] [] false false false.
Definition begins (u : Z) (x : tev * list uout) : bool :=
  match fst x with EvAccept _ _ _ => existsb (is_uarm u) (snd x) | _ => false end.
Definition breaks (u : Z) (x : tev * list uout) : bool := match fst x with EvError t => t =? u | _ => false end.
Definition about_data (u : Z) (e : hent) : bool := match e with NData t => t =? u | _ => false end.
Definition about_timer (u : Z) (e : hent) : bool := match e with NTimer t => t =? u | _ => false end.
Definition cview_next (u : Z) (w : cview) (x : hev * hout) : cview :=
  let (e, o) := x in
  if existsb (begins u) (o_seen o) then mkCv (match e with HNext _ _ early _ _ => early | _ => [] end) [] false false false
  else
    mkCv (c_sent w ++ match e with HArrive t bs => if t =? u then bs else [] | _ => [] end)
         (c_read w ++ match o_read o with Some (t, _, RxBytes bs) => if t =? u then bs else [] | _ => [] end)
         (c_full w || match o_read o with Some (t, n, RxBytes bs) => (t =? u) && Nat.eqb (length bs) n | _ => false end)
         (c_lost w || existsb (about_data u) (o_lost o))
         (c_broken w || existsb (breaks u) (o_seen o)).
Definition cview_of (u : Z) (tr : htrace) : cview := fold_left (cview_next u) tr cview0.

(** The loop has dispatched everything, and epoll_wait would not report connection [u]'s link. *)
Definition at_rest (h : host) (u : Z) : Prop := h_batch h = [] /\ ready h (NData u) = false.

(** Events on connection [u] from outside. *)
Definition from_peer (u : Z) (e : hev) : bool := match e with HArrive t _ | HFinish t => t =? u | _ => false end.
Definition serves (u : Z) (x : tev * list uout) : bool := match fst x with EvData t _ _ => t =? u | _ => false end.
Definition times_out (u : Z) (x : tev * list uout) : bool := match fst x with EvTimer t => t =? u | _ => false end.
Definition frees (u : Z) (x : tev * list uout) : bool := existsb (is_ufree u) (snd x).
Definition restarts (u : Z) (x : tev * list uout) : bool := existsb (is_uarm u) (snd x).

(** An expiry of connection [u]'s timer was dropped since the timer was last started. *)
Definition tlost_next (u : Z) (b : bool) (x : hev * hout) : bool :=
  if existsb (restarts u) (o_seen (snd x)) then existsb (about_timer u) (o_lost (snd x)) else b || existsb (about_timer u) (o_lost (snd x)).
Definition tlost (u : Z) (tr : htrace) : bool := fold_left (tlost_next u) tr false.

(** Messages to connection [u]; events that concern it; nothing happens to it from outside. *)
Definition to_conn (u : Z) (e : tev) : bool := match e with EvMsg _ m _ => um_conn m =? u | EvRelease t => t =? u | _ => false end.
Definition concerns (u : Z) (e : hent) : bool :=
  match e with NData t | NError t | NTimer t => t =? u | NMsg ms => existsb (to_conn u) ms | NAccept => false end.
Definition disturbs (u : Z) (e : hev) : bool :=
  match e with
  | HArrive t _ | HFinish t => t =? u
  | HWait es => existsb (fun x => match x with NError t => t =? u | NMsg ms => existsb (to_conn u) ms | _ => false end) es
  | _ => false
  end.
(** Runs in which nothing like that happens. *)
Definition no_event (p : hev -> bool) (tr : htrace) : Prop := forall x, In x tr -> p (fst x) = false.
Definition no_effect (p : tev * list uout -> bool) (tr : htrace) : Prop := forall x, In x (served tr) -> p x = false.
