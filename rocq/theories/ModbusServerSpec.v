(** Specification vocabulary for the Modbus server: what an outside observer
    of its events and effects can write down. *)
From Verif Require Import Base ModbusCodecModel ModbusCodecSpec ModbusClientModel ModbusClientSpec ModbusServerModel.
Local Open Scope Z_scope.

Definition strace := list (vev * list sout).

(** Inputs as the outside world can produce them. *)
Definition reply_ok (p : areply) : Prop :=
  is_u32 (p_session p) /\ is_u16 (p_tid p) /\ is_byte (p_error p) /\ is_u16 (p_nbytes p) /\
  bytes_ok (p_data p) /\ p_nbytes p <= Z.of_nat (length (p_data p)).
Definition vev_ok (e : vev) : Prop :=
  match e with
  | VData _ (RxBytes bs) => bytes_ok bs
  | VReply p _ => reply_ok p
  | _ => True
  end.

(** Any memory contents a session may start with. *)
Definition mem_ok (b0 : list Z) (q0 : adu_req) : Prop :=
  length b0 = 512%nat /\ bytes_ok b0 /\ req_ok q0 /\ length (q_data q0) = 260%nat.

(** Histories of a started server. *)
Inductive reach (b0 : list Z) (q0 : adu_req) : server -> strace -> Prop :=
| re_new v : mem_ok b0 q0 -> srv_new maxNumSession b0 q0 = Some v -> reach b0 q0 v []
| re_step v tr e v' os :
    reach b0 q0 v tr -> vev_ok e -> srv_enabled v e = true -> srv_step v e = Some (v', os) ->
    reach b0 q0 v' (tr ++ [(e, os)]).

(** ** Per-session bookkeeping *)

(** What is known about session [uid]: the armed timeout, how often it was started
    and released, the octets received since it last became ready for a request,
    and the effects of the last arrival of data. *)
Record view := mkView {
  w_armed : option Z; w_starts : nat; w_frees : nat; w_rx : list Z; w_last : option (list sout)
}.
Definition view0 : view := mkView None 0 0 [] None.

Definition is_arm (uid : Z) (o : sout) : bool := match o with TArm u _ => u =? uid | _ => false end.
Definition is_free (uid : Z) (o : sout) : bool := match o with TFree u => u =? uid | _ => false end.
Definition is_ready (uid : Z) (o : sout) : bool := match o with TArm u us => (u =? uid) && (us =? 30000000) | _ => false end.
Definition count (f : sout -> bool) (os : list sout) : nat := length (filter f os).

Definition arm_next (uid : Z) (a : option Z) (o : sout) : option Z :=
  match o with
  | TArm u us => if u =? uid then Some us else a
  | TDisarm u | TFree u => if u =? uid then None else a
  | _ => a
  end.
Definition view_next (uid : Z) (w : view) (x : vev * list sout) : view :=
  let (e, os) := x in
  mkView
    (fold_left (arm_next uid) os
       (match e with VTimer u => if u =? uid then None else w_armed w | _ => w_armed w end))
    (w_starts w + match e with VAccept _ _ _ => count (is_arm uid) os | _ => 0 end)
    (w_frees w + count (is_free uid) os)
    (if existsb (is_ready uid) os then []
     else match e with
          | VData u (RxBytes bs) => if u =? uid then w_rx w ++ bs else w_rx w
          | _ => w_rx w
          end)
    (match e with VData u _ => if u =? uid then Some os else w_last w | _ => w_last w end).
Definition view_of (uid : Z) (tr : strace) : view := fold_left (view_next uid) tr view0.

(** Session [uid] currently serves a connection. *)
Definition live (uid : Z) (tr : strace) : Prop := w_starts (view_of uid tr) = S (w_frees (view_of uid tr)).
(** ... and waits for the application. *)
Definition waiting (uid : Z) (tr : strace) : Prop := w_armed (view_of uid tr) = Some 5000000.

(** ** Totals *)
Definition starts_of (x : vev * list sout) : nat :=
  match fst x with
  | VAccept _ _ _ => count (fun o => match o with TArm _ _ => true | _ => false end) (snd x)
  | _ => 0
  end.
Definition frees_of (x : vev * list sout) : nat :=
  count (fun o => match o with TFree _ => true | _ => false end) (snd x).
Definition throws_of (x : vev * list sout) : nat :=
  count (fun o => match o with TThrow => true | _ => false end) (snd x).
Definition total (f : vev * list sout -> nat) (tr : strace) : nat := list_sum (map f tr).

(** Header of a transmitted frame. *)
Definition frame_tid (bs : list Z) : Z := nth 0 bs 0 * 256 + nth 1 bs 0.
Definition frame_unit (bs : list Z) : Z := nth 6 bs 0.
Definition frame_func (bs : list Z) : Z := nth 7 bs 0.

(** A forwarded request has the contents of the frame [fr] (for reads the
    payload fields, for single writes the item count are not part of the frame). *)
Definition carried (fr : list Z) (o : sout) : Prop :=
  match o with
  | TReq _ tid func addr start nitems nbytes data =>
      wf_frame fr /\ frame_tid fr = tid /\ frame_unit fr = addr /\ frame_func fr = func /\
      nth 8 fr 0 * 256 + nth 9 fr 0 = start /\ In func [1; 2; 3; 4; 5; 6; 16] /\
      (In func [1; 2; 3; 4; 16] -> nth 10 fr 0 * 256 + nth 11 fr 0 = nitems) /\
      (In func [5; 6] -> nbytes = 2 /\ data = [nth 11 fr 0; nth 10 fr 0]) /\
      (func = 16 -> nbytes = Z.of_nat (length data) /\ data = swap16 (skipn 13 fr))
  | _ => False
  end.

(** A forwarded request has the contents of the request [q] of the client. *)
Definition forwards (uid : Z) (q : adu_req) (o : sout) : Prop :=
  match o with
  | TReq u tid func addr start nitems nbytes data =>
      u = uid /\ tid = q_tid q mod 65536 /\ func = q_func q /\ addr = q_addr q /\ start = q_start q /\
      (In func [1; 2; 3; 4; 16] -> nitems = q_nitems q) /\
      (In func [5; 6; 16] -> nbytes = q_nbytes q /\ data = firstn (Z.to_nat (q_nbytes q)) (q_data q))
  | _ => False
  end.
Definition is_req (uid : Z) (o : sout) : bool := match o with TReq u _ _ _ _ _ _ _ => u =? uid | _ => false end.

(** The frame [bs] answers the request (transaction [t], function [f], unit [a],
    start address [st], item count [n]) with the application's reply [p]. *)
Definition answers (t f a st n : Z) (p : areply) (bs : list Z) : Prop :=
  let head len := [t / 256; t mod 256; 0; 0; len / 256; len mod 256; a] in
  if p_error p =? 0 then
    match f with
    | 3 | 4 => p_nbytes p mod 2 = 0 /\
               bs = head (3 + p_nbytes p) ++ [f; p_nbytes p] ++ swap16 (firstn (Z.to_nat (p_nbytes p)) (p_data p))
    | 5 | 6 => p_nbytes p = 2 /\ exists d0 d1 r, p_data p = d0 :: d1 :: r /\
               bs = head 6 ++ [f; st / 256; st mod 256; d1; d0]
    | 16 => bs = head 6 ++ [f; st / 256; st mod 256; n / 256; n mod 256]
    | _ => False
    end
  else exists c, bs = head 3 ++ [143; c] /\ (In (p_error p) [1; 2; 3; 4; 5; 6; 7; 8; 10; 11; 255] -> c = p_error p).

(** Replies the protocol can express for a request with function [f]. *)
Definition expressible (f : Z) (p : areply) : bool :=
  negb (p_error p =? 0) ||
  (((f =? 3) || (f =? 4)) && (p_nbytes p mod 2 =? 0) && (p_nbytes p <=? 250)) ||
  ((f =? 5) && (p_nbytes p =? 2) && (nth 1 (p_data p) 0 =? 0) && ((nth 0 (p_data p) 0 =? 0) || (nth 0 (p_data p) 0 =? 255))) ||
  ((f =? 6) && (p_nbytes p =? 2)) || (f =? 16).

Definition waitingb (uid : Z) (tr : strace) : bool :=
  match w_armed (view_of uid tr) with Some t => t =? 5000000 | None => false end.

(** The requests forwarded for session [uid], in order. *)
Definition forwarded (uid : Z) (tr : strace) : list sout := filter (is_req uid) (concat (map snd tr)).
