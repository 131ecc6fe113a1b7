(** Specification vocabulary for the controller: what the other components and the reactor observe. *)
From Verif Require Import Base ModbusCodecSpec ModbusClientModel ControllerModel.
Local Open Scope Z_scope.

Definition ktrace := list (kev * list kout).
Definition kouts (tr : ktrace) : list kout := concat (map snd tr).
Definition kevs (tr : ktrace) : list kev := map fst tr.

(** Messages as their senders can build them: fields fit their C++ types, and the octets told by the length are there. *)
Definition crsp_ok (r : crsp) : Prop := 0 <= r_tid r < 4294967296 /\ is_u16 (r_nbytes r) /\ r_nbytes r <= Z.of_nat (length (r_data r)).
Definition mreq_ok (q : mreq) : Prop :=
  is_u16 (a_tid q) /\ is_u16 (a_start q) /\ is_u16 (a_num q) /\ is_u16 (a_nbytes q) /\ a_nbytes q <= Z.of_nat (length (a_data q)).
Definition msg_ok (e : kev) : Prop :=
  kev_ok e /\ match e with KModbus (TvRsp r) => crsp_ok r | KModbus (TvReq q) => mreq_ok q | _ => True end.

Definition octets2048 (g : list Z) : Prop := Z.of_nat (length g) = 2048.
Inductive kreach (g : list Z) : ctrl -> ktrace -> Prop :=
| kr_new : kreach g ctrl0 []
| kr_step c tr e c' os : kreach g c tr -> msg_ok e -> k_enabled c e = true -> k_step g c e = Some (c', os) ->
    kreach g c' (tr ++ [(e, os)]).

(** Where the controller is, told from what it has sent last. *)
Inductive stage := GNone | GInit | GConfig | GPoll | GPause.
Definition stage_next (p : stage) (o : kout) : stage :=
  match o with
  | KoModbusInit _ _ | KoModbusRelease => GInit
  | KoModbusConfig _ => GConfig
  | KoBatch _ => GPoll
  | KoArm _ => GPause
  | KoTimerFree => GNone
  | _ => p
  end.
Definition stage_of (tr : ktrace) : stage := fold_left stage_next (kouts tr) GNone.
Definition started (tr : ktrace) : bool := match stage_of tr with GNone => false | _ => true end.

Definition tally {A} (f : A -> bool) (l : list A) : Z := Z.of_nat (length (filter f l)).
Definition is_rsp (e : kev) : bool := match e with KModbus (TvRsp _) => true | _ => false end.
Definition is_tick (e : kev) : bool := match e with KModbus TvTimer => true | _ => false end.
Definition is_configured (e : kev) : bool := match e with KModbus TvConfigRsp => true | _ => false end.
Definition is_inited (e : kev) : bool := match e with KModbus TvInitRsp => true | _ => false end.
Definition is_batch (o : kout) : bool := match o with KoBatch _ => true | _ => false end.
Definition is_config (o : kout) : bool := match o with KoModbusConfig _ => true | _ => false end.
Definition is_arm (o : kout) : bool := match o with KoArm _ => true | _ => false end.
Definition is_new (o : kout) : bool := match o with KoTimerNew => true | _ => false end.
Definition is_free (o : kout) : bool := match o with KoTimerFree => true | _ => false end.

(** ** Registers *)
Definition is_read (f : Z) : Prop := f = 3 \/ f = 4.
Definition is_write (f : Z) : Prop := f = 6 \/ f = 16.
Definition is_writeb (f : Z) : bool := (f =? 6) || (f =? 16).
(** A request that stays inside the 2048 octets and the 16 test cases, and whose response fits its message. *)
Definition fits (q : mreq) : Prop :=
  a_tid q < 16 /\
  (is_read (a_func q) -> a_start q * 2 < 2048 /\ a_start q * 2 + (a_num q * 2) mod 65536 <= 2048) /\
  (is_write (a_func q) -> a_start q * 2 < 2048 /\ a_start q * 2 + a_nbytes q <= 2048).
(** Octet [k] of the registers seen through transaction [i]: what the last write through [i] put there since the start. *)
Definition cell_next (g : list Z) (i k : Z) (v : Z) (x : kev * list kout) : Z :=
  match x with
  | (KStart true, _) => nth (Z.to_nat k) g 0
  | (KModbus (TvReq q), _ :: _) =>
      if is_writeb (a_func q) && (a_tid q =? i) && (a_start q * 2 <=? k) && (k <? a_start q * 2 + a_nbytes q)
      then nth (Z.to_nat (k - a_start q * 2)) (a_data q) 0 else v
  | _ => v
  end.
Definition cell (g : list Z) (tr : ktrace) (i k : Z) : Z := fold_left (cell_next g i k) tr 0.
Definition cells (g : list Z) (tr : ktrace) (i off n : Z) : list Z :=
  map (fun j => cell g tr i (off + Z.of_nat j)) (seq 0 (Z.to_nat n)).

(** ** Rounds of requests *)
(** What a request of the round is expected to yield, as a table: status, exception code, octets in the response. *)
Definition expected (i : Z) : Z * bool * Z * Z :=
  nth (Z.to_nat i)
    [ (0, true, 0, 0); (0, false, 0, 0); (0, true, 4, 0); (0, true, 0, 240); (0, true, 0, 2); (0, false, 0, 0); (0, false, 0, 0); (0, true, 0, 0);
      (0, true, 0, 0); (0, false, 0, 0); (0, true, 0, 250); (0, true, 0, 0); (99, false, 0, 0); (0, false, 0, 0); (0, false, 0, 0); (0, false, 0, 0) ]
    (0, false, 0, 0).
(** Where a read of the round starts, in octets. *)
Definition read_at (i : Z) : option Z := if i =? 3 then Some 1780 else if i =? 10 then Some 20 else if i =? 11 then Some 0 else None.
(** Where a write of the round puts how many of the octets of [g]. *)
Definition write_at (i : Z) : option (Z * Z) :=
  if (i =? 0) || (i =? 7) then Some (1780, 240) else if i =? 4 then Some (380, 2) else if i =? 8 then Some (512, 2) else None.
(** A response that the round is satisfied with: right client, status, code and length; octets read are those of the
    registers; octets written are in the registers. *)
Definition good (g : list Z) (tr : ktrace) (r : crsp) : Prop :=
  let i := r_tid r in
  exists n, expected i = (r_client r, r_ok r, r_err r, n) /\
    (r_ok r = true -> r_err r = 0 ->
      r_nbytes r = n /\
      (forall off, read_at i = Some off -> firstn (Z.to_nat n) (r_data r) = cells g tr i off n) /\
      (forall off k, write_at i = Some (off, k) -> cells g tr i off k = firstn (Z.to_nat k) g)).

(** Feeding messages one after the other. *)
Fixpoint kfeed (g : list Z) (c : ctrl) (tr : ktrace) (es : list kev) : option (ctrl * ktrace) :=
  match es with
  | [] => Some (c, tr)
  | e :: r => match k_step g c e with Some (c', os) => kfeed g c' (tr ++ [(e, os)]) r | None => None end
  end.

(** The requests of a round that reach the server: function, first register, registers, octets to write. *)
Definition asked (i : Z) : option (Z * Z * Z * Z) :=
  nth (Z.to_nat i)
    [ Some (16, 890, 120, 240); None; Some (4, 10, 10, 0); Some (4, 890, 120, 0); Some (6, 190, 0, 2); None; None; Some (16, 890, 120, 240);
      Some (16, 256, 1, 2); None; Some (4, 10, 125, 0); Some (4, 0, 0, 0); None; None; None; Some (6, 190, 0, 2) ] None.
(** Request [q] is the one of its round. *)
Definition own (g : list Z) (q : mreq) : Prop :=
  exists f s n b, asked (a_tid q) = Some (f, s, n, b) /\ a_func q = f /\ a_start q = s /\
    (is_read f -> a_num q = n) /\ (is_write f -> a_nbytes q = b /\ firstn (Z.to_nat b) (a_data q) = firstn (Z.to_nat b) g).
Definition own_only (g : list Z) (tr : ktrace) : Prop := forall q os, In (KModbus (TvReq q), os) tr -> own g q.
Definition no_start (tr : ktrace) : Prop := forall tok os, ~ In (KStart tok, os) tr.
