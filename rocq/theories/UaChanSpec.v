(** Specification vocabulary for the secure channel layer: what an outside observer of its messages can write down. *)
From Verif Require Import Base ModbusCodecSpec UaCodecModel UaCodecSpec UaTcpModel UaTcpSpec UaChanModel.
Local Open Scope Z_scope.

Definition ctrace := list (cev * list cout).

(** Messages as the other layers can produce them. *)
Definition ehdr_ok (h : ehdr) : Prop := is_u32 (e_conn h) /\ is_u32 (e_chan h) /\ is_u32 (e_req h) /\ is_u32 (e_sess h).
Definition emsg_ok (m : emsg) : Prop :=
  ehdr_ok (em_hdr m) /\ 0 <= em_len m <= 4064 /\ bytes_ok (em_data m) /\ em_len m <= Z.of_nat (length (em_data m)).
Definition cev_ok (e : cev) : Prop :=
  match e with
  | CvOpen m j rnd t1 t2 => umsg_ok m /\ umem_ok j /\ 0 <= rnd < 2147483648 /\ is_i64 t1 /\ is_i64 t2
  | CvClose m j now => umsg_ok m /\ umem_ok j /\ is_i64 now
  | CvMsg m j => umsg_ok m /\ umem_ok j
  | CvAssoc h => ehdr_ok h
  | CvSend m => emsg_ok m
  | CvRelInd conn ch => is_u32 conn /\ is_u32 ch
  end.

(** Histories of a started channel layer; [ini] is any contents of uninitialised members. *)
Definition cini_ok (ini : list (Z * Z)) : Prop := length ini = 32%nat /\ Forall (fun x => is_u32 (fst x) /\ is_u32 (snd x)) ini.
Inductive creach (ini : list (Z * Z)) : csrv -> ctrace -> Prop :=
| cr_new v : cini_ok ini -> csrv_new ini = Some v -> creach ini v []
| cr_step v tr e v' os : creach ini v tr -> cev_ok e -> csrv_step v e = Some (v', os) -> creach ini v' (tr ++ [(e, os)]).

(** ** Octets *)
(** What the channel sees of a message: its octets, then whatever was in the buffer. *)
Definition octets (m : umsg) (j : list Z) : list Z := firstn (Z.to_nat (um_len m)) (um_data m) ++ skipn (Z.to_nat (um_len m)) j.
(** Skip [n] strings (length and octets; negative lengths have no octets). *)
Fixpoint skip_strs (n : nat) (l : list Z) : list Z :=
  match n with
  | O => l
  | S k => let len := le_val (firstn 4 l) in
           skip_strs k (skipn (if len <? 2147483648 then 4 + Z.to_nat len else 4) l)
  end.
(** The sequence number and request id of an open request: behind the three strings of the security header. *)
Definition open_seq (l : list Z) : Z := le_at 0 (skip_strs 3 l).
Definition open_req (l : list Z) : Z := le_at 4 (skip_strs 3 l).
(** The security policy "None" of the response. *)
Definition policy : list Z := [104; 116; 116; 112; 58; 47; 47; 111; 112; 99; 102; 111; 117; 110; 100; 97; 116; 105; 111; 110; 46; 111; 114; 103; 47;
  85; 65; 47; 83; 101; 99; 117; 114; 105; 116; 121; 80; 111; 108; 105; 99; 121; 35; 78; 111; 110; 101].
(** Response header with result "good" and nothing optional. *)
Definition rsp_head (time handle : Z) : list Z := le_bytes 8 time ++ le_bytes 4 handle ++ le_bytes 4 0 ++ [0] ++ le_bytes 4 0 ++ [0; 0; 0].
(** The open response: security header, sequence number, request id, type 449, header, version,
    channel, token, creation time, lifetime, no nonce. *)
Definition open_rsp (uid seq req handle token t1 t2 life : Z) : list Z :=
  (le_bytes 4 47 ++ policy ++ le_bytes 4 (-1) ++ le_bytes 4 (-1)) ++ (le_bytes 4 seq ++ le_bytes 4 req) ++ [1; 0; 193; 1] ++
  rsp_head t1 handle ++ le_bytes 4 0 ++ (le_bytes 4 uid ++ le_bytes 4 token ++ le_bytes 8 t2 ++ le_bytes 4 life) ++ le_bytes 4 (-1).
(** The close response: token, sequence number, request id, type 455, header. *)
Definition close_rsp (token seq req handle now : Z) : list Z :=
  le_bytes 4 token ++ (le_bytes 4 seq ++ le_bytes 4 req) ++ [1; 0; 199; 1] ++ rsp_head now handle.
(** Any other response. *)
Definition msg_rsp (token seq req : Z) (body : list Z) : list Z := le_bytes 4 token ++ (le_bytes 4 seq ++ le_bytes 4 req) ++ body.
(** Sequence number in a message from the channel to the client; token in an open response. *)
Definition out_seq (k : kind) (m : umsg) : Z := le_at (match k with KOpn => 59 | _ => 4 end) (um_data m).
Definition out_tok (m : umsg) : Z := le_at 103 (um_data m).

(** ** Per-channel bookkeeping *)
(** Times opened and closed; of the present opening: connection, token given to the client, last sequence number
    accepted from it, messages sent to it, session associated. *)
Record cview := mkCv { w_opens : nat; w_frees : nat; w_conn : Z; w_tok : Z; w_in : Z; w_sent : nat; w_sess : option Z }.
Definition cview0 : cview := mkCv 0 0 0 0 0 0 None.
Definition is_opn (uid : Z) (o : cout) : bool := match o with CTx KOpn m => um_chan m =? uid | _ => false end.
Definition is_tx (uid : Z) (o : cout) : bool := match o with CTx _ m => um_chan m =? uid | _ => false end.
Definition is_cfree (uid : Z) (o : cout) : bool := match o with CFree u => u =? uid | _ => false end.
Definition ccount (f : cout -> bool) (os : list cout) : nat := length (filter f os).
(** A request with a sequence number that the channel took: passed on to the services, or a close request it
    failed to decode. *)
Definition taken (uid : Z) (x : cev * list cout) : option Z :=
  match x with
  | (CvMsg m j, [CInd _]) | (CvClose m j _, [CThrow]) => if um_chan m =? uid then Some (le_at 4 (octets m j)) else None
  | _ => None
  end.
Definition cview_next (uid : Z) (w : cview) (x : cev * list cout) : cview :=
  let (e, os) := x in
  let w1 :=
    match e, os with
    | CvOpen m j _ _ _, [CTx KOpn r] =>
        if um_chan r =? uid then mkCv (S (w_opens w)) (w_frees w) (um_conn m) (out_tok r) (open_seq (octets m j)) 1 None else w
    | CvAssoc h, _ =>
        if (e_chan h =? uid) && (w_opens w =? S (w_frees w))%nat && (e_conn h =? w_conn w)
        then mkCv (w_opens w) (w_frees w) (w_conn w) (w_tok w) (w_in w) (w_sent w) (Some (e_sess h)) else w
    | _, _ =>
        mkCv (w_opens w) (w_frees w) (w_conn w) (w_tok w) (match taken uid x with Some s => s | None => w_in w end)
             (w_sent w + ccount (is_tx uid) os) (w_sess w)
    end in
  mkCv (w_opens w1) (w_frees w1 + ccount (is_cfree uid) os) (w_conn w1) (w_tok w1) (w_in w1) (w_sent w1) (w_sess w1).
Definition cview_of (uid : Z) (tr : ctrace) : cview := fold_left (cview_next uid) tr cview0.

Definition copen (uid : Z) (tr : ctrace) : Prop := w_opens (cview_of uid tr) = S (w_frees (cview_of uid tr)).
Definition cconn (uid : Z) (tr : ctrace) : Z := w_conn (cview_of uid tr).
Definition ctoken (uid : Z) (tr : ctrace) : Z := w_tok (cview_of uid tr).
Definition clast (uid : Z) (tr : ctrace) : Z := w_in (cview_of uid tr).
Definition csent (uid : Z) (tr : ctrace) : nat := w_sent (cview_of uid tr).
Definition csession (uid : Z) (tr : ctrace) : option Z := w_sess (cview_of uid tr).
Definition cfreed (uid : Z) (tr : ctrace) : nat := w_frees (cview_of uid tr).
(** The number the server's sequence numbers start at. *)
Definition cstart (uid : Z) (tr : ctrace) : Z := if (cfreed uid tr =? 0)%nat then 1 else 0.

(** The message [m] is acceptable to channel [uid]. *)
Definition acceptable (uid : Z) (tr : ctrace) (m : umsg) (j : list Z) : Prop :=
  um_conn m = cconn uid tr /\ le_at 0 (octets m j) = ctoken uid tr /\ le_at 4 (octets m j) = (clast uid tr + 1) mod 4294967296.

(** ** Totals *)
Definition copens (x : cev * list cout) : nat := ccount (fun o => match o with CTx KOpn _ => true | _ => false end) (snd x).
Definition cfrees (x : cev * list cout) : nat := ccount (fun o => match o with CFree _ => true | _ => false end) (snd x).
(** Open requests that could not be decoded. *)
Definition cbad (x : cev * list cout) : nat :=
  match fst x with CvOpen _ _ _ _ _ => ccount (fun o => match o with CThrow => true | _ => false end) (snd x) | _ => 0 end.
Definition ctotal (f : cev * list cout -> nat) (tr : ctrace) : nat := list_sum (map f tr).
(** Channels currently open. *)
Definition copened (tr : ctrace) : nat := (ctotal copens tr - ctotal cfrees tr)%nat.
