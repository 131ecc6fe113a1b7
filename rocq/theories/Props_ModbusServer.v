(** Theorems about the Modbus server, C31-C34, C59, C62-C66. *)
From Verif Require Import Base QueueModel PoolModel ModbusCodecModel ModbusCodecSpec ModbusClientModel ModbusClientSpec
  ModbusServerModel ModbusServerSpec ModbusServerProofs ModbusServerRuns ModbusServerFacts ModbusServerWire.
Local Open Scope Z_scope.

(** Memory contents used by the examples: all zero. *)
Definition zb : list Z := repeat 0 512.
Definition zq : adu_req := mkReq 0 0 0 0 0 0 (repeat 0 260).
Lemma zmem : mem_ok zb zq.
Proof.
  assert (H : forall n, bytes_ok (repeat 0 n)).
  { intros n. apply Forall_forall. intros x Hx. apply repeat_spec in Hx as ->. unfold is_byte. lia. }
  unfold mem_ok, zb, zq, req_ok, is_u32, is_u16, is_byte. cbn [q_tid q_func q_addr q_start q_nitems q_nbytes q_data].
  repeat split; try lia; auto using repeat_length.
Qed.
Definition accept := VAccept true true true.
Definition read3 (tid unit start n : Z) : list Z := [0; tid; 0; 0; 0; 6; unit; 3; 0; start; 0; n].

(** * C31 *)

(** A transmission happens only on a reply with success status for that session, while it
    waits, with the transaction id of the reply; if the data that made it wait was forwarded as a
    request, that request is the one answered. *)
Theorem C31_answers_partial b0 q0 v tr e v' os uid bs :
  reach b0 q0 v tr -> vev_ok e -> srv_enabled v e = true -> srv_step v e = Some (v', os) -> In (TTx uid bs) os ->
  0 <= uid < 256 /\ waiting uid tr /\
  exists p, e = VReply p true /\ p_session p = uid /\ p_ok p = true /\ wf_frame bs /\ frame_tid bs = p_tid p /\
    forall os0 t f a st n nb d, w_last (view_of uid tr) = Some os0 -> In (TReq uid t f a st n nb d) os0 ->
      p_tid p = t /\ answers t f a st n p bs.
Proof. apply tx_sound. Qed.

Definition late_reply (sid tid : Z) : areply := mkReply sid tid true 0 2 [52; 18].
Definition c31_run : list vev :=
  [accept; VData 0 (RxBytes (read3 1 9 0 1)); VTimer 0; VData 0 (RxBytes [0; 1; 0; 0; 0; 7; 5; 4; 0; 0; 0; 1; 0])].

(** The answer need not belong to the latest forwarded request: a malformed frame changes the
    unit and the function under which a late reply goes out. *)
Theorem C31_refuted :
  ~ (forall b0 q0 v tr e v' os uid bs, reach b0 q0 v tr -> vev_ok e -> srv_enabled v e = true ->
       srv_step v e = Some (v', os) -> In (TTx uid bs) os ->
       exists l t f a st n nb d, forwarded uid tr = l ++ [TReq uid t f a st n nb d] /\
         frame_tid bs = t /\ frame_unit bs = a /\ (frame_func bs = f \/ frame_func bs = 143)).
Proof.
  intros H.
  destruct (souts_last zb zq c31_run
    [[TArm 0 30000000]; [TReq 0 1 3 9 0 1 0 []; TDisarm 0; TArm 0 5000000]; [TDisarm 0; TArm 0 30000000];
     [TDisarm 0; TArm 0 5000000]]
    (VReply (late_reply 0 1) true) [TTx 0 [0; 1; 0; 0; 0; 5; 5; 4; 2; 18; 52]; TDisarm 0; TArm 0 30000000] zmem)
    as (v & v' & R & He & Hen & Hs); [reflexivity|reflexivity|vm_compute; reflexivity|].
  destruct (H zb zq v _ _ v' _ 0 [0; 1; 0; 0; 0; 5; 5; 4; 2; 18; 52] R He Hen Hs) as (l & t & f & a & st & n & nb & d & Hl & Ht & Hu & _).
  - left. reflexivity.
  - unfold forwarded in Hl. cbn in Hl. destruct l as [|x l]; [|destruct l; discriminate]. injection Hl as _ _ <- _ _ _ _. discriminate Hu.
Qed.

(** The hypotheses of [C31_answers_partial] with a forwarded request. *)
Example C31_case : exists v v' bs, reach zb zq v (combine (firstn 2 c31_run) [[TArm 0 30000000]; [TReq 0 1 3 9 0 1 0 []; TDisarm 0; TArm 0 5000000]]) /\
  srv_step v (VReply (late_reply 0 1) true) = Some (v', [TTx 0 bs; TDisarm 0; TArm 0 30000000]) /\
  answers 1 3 9 0 1 (late_reply 0 1) bs /\ bs = [0; 1; 0; 0; 0; 5; 9; 3; 2; 18; 52].
Proof.
  destruct (souts_last zb zq (firstn 2 c31_run)
    [[TArm 0 30000000]; [TReq 0 1 3 9 0 1 0 []; TDisarm 0; TArm 0 5000000]]
    (VReply (late_reply 0 1) true) [TTx 0 [0; 1; 0; 0; 0; 5; 9; 3; 2; 18; 52]; TDisarm 0; TArm 0 30000000] zmem)
    as (v & v' & R & He & Hen & Hs); [reflexivity|reflexivity|vm_compute; reflexivity|].
  exists v, v', [0; 1; 0; 0; 0; 5; 9; 3; 2; 18; 52]. split; [exact R|]. split; [exact Hs|]. split; [|reflexivity]. split; reflexivity.
Qed.

(** * C32 *)

Theorem C32_timer_armed b0 q0 v tr uid : reach b0 q0 v tr -> 0 <= uid < 256 ->
  (live uid tr <-> w_armed (view_of uid tr) = Some 30000000 \/ w_armed (view_of uid tr) = Some 5000000) /\
  (~ live uid tr <-> w_armed (view_of uid tr) = None).
Proof. apply timers. Qed.

Theorem C32_expiry b0 q0 v tr uid : reach b0 q0 v tr -> 0 <= uid < 256 -> live uid tr ->
  exists v', srv_enabled v (VTimer uid) = true /\
    srv_step v (VTimer uid) =
      Some (v', if Z.eqb (match w_armed (view_of uid tr) with Some t => t | None => 0 end) 5000000
                then [TDisarm uid; TArm uid 30000000] else [TDisarm uid; TFree uid]).
Proof. apply expiry. Qed.

Theorem C32_terminates b0 q0 v tr uid : reach b0 q0 v tr -> 0 <= uid < 256 -> live uid tr ->
  exists v' tr', reach b0 q0 v' (tr ++ tr') /\ (length tr' <= 2)%nat /\ Forall (fun x => fst x = VTimer uid) tr' /\
    ~ live uid (tr ++ tr').
Proof. apply terminates. Qed.

Example C32_case : exists v tr, reach zb zq v tr /\ live 0 tr /\ waiting 0 tr.
Proof.
  destruct (souts_reach zb zq (firstn 2 c31_run)
    [[TArm 0 30000000]; [TReq 0 1 3 9 0 1 0 []; TDisarm 0; TArm 0 5000000]] zmem) as [v R]; [reflexivity|vm_compute; reflexivity|].
  eexists _, _. split; [exact R|]. split; reflexivity.
Qed.

(** * C33 *)

Theorem C33_exclusive b0 q0 v tr uid : reach b0 q0 v tr -> 0 <= uid < 256 ->
  (w_frees (view_of uid tr) <= w_starts (view_of uid tr) <= S (w_frees (view_of uid tr)))%nat.
Proof. apply exclusive. Qed.

Theorem C33_idle_clean b0 q0 v tr uid : reach b0 q0 v tr -> 0 <= uid < 256 -> ~ live uid tr ->
  srv_enabled v (VTimer uid) = false /\ forall r, srv_enabled v (VData uid r) = false.
Proof. apply idle_clean. Qed.

(** A connection is served exactly when fewer than 256 sessions are in use or
    lost to failed accepts, and then by an idle session. *)
Theorem C33_capacity b0 q0 v tr tok lok aok : reach b0 q0 v tr -> v_acc v = true ->
  (total frees_of tr <= total starts_of tr)%nat /\
  (total starts_of tr - total frees_of tr + total throws_of tr <= 256)%nat /\
  exists v' os, srv_step v (VAccept tok lok aok) = Some (v', os) /\
    if (total starts_of tr - total frees_of tr + total throws_of tr <? 256)%nat
    then if tok && lok && aok
         then exists uid, 0 <= uid < 256 /\ ~ live uid tr /\ os = [TArm uid 30000000]
         else os = [TThrow]
    else os = [].
Proof. apply capacity. Qed.

(** Failed accepts lose session ids for good: after 256 of them nobody is served
    although no session is in use. *)
Theorem C33_leak_refuted b0 q0 : mem_ok b0 q0 ->
  exists v tr v', reach b0 q0 v tr /\ v_acc v = true /\ (forall uid, 0 <= uid < 256 -> ~ live uid tr) /\
    srv_step v (VAccept true true true) = Some (v', []).
Proof.
  intros Hm. destruct (failing_accepts b0 q0 256 Hm (le_n _)) as (v & tr & R & A & H1 & H2 & H3 & H4).
  destruct (capacity b0 q0 v tr true true true R A) as (_ & _ & v' & os & E & Ho).
  exists v, tr, v'. split; [exact R|]. split; [exact A|]. split.
  - intros uid Hu. apply (exhausted b0 q0 v tr uid R); [rewrite H2; apply le_n|exact Hu].
  - rewrite H2 in Ho. destruct (Nat.ltb_spec (total starts_of tr - total frees_of tr + 256) 256); [lia|]. now subst os.
Qed.

(** * C34 *)

Definition others : list vev := flat_map (fun k => [accept; VData (Z.of_nat k) RxErr]) (seq 1 255).
Definition others_out : list (list sout) :=
  flat_map (fun k => [[TArm (Z.of_nat k) 30000000]; [TDisarm (Z.of_nat k); TFree (Z.of_nat k)]]) (seq 1 255).
Definition c34_old : list vev := [accept; VData 0 (RxBytes (read3 1 9 0 1)); VData 0 RxErr].
Definition c34_run : list vev := c34_old ++ others ++ [accept; VData 0 (RxBytes (read3 1 7 5 2))].
Definition c34_out : list (list sout) :=
  [[TArm 0 30000000]; [TReq 0 1 3 9 0 1 0 []; TDisarm 0; TArm 0 5000000]; [TDisarm 0; TFree 0]] ++ others_out ++
  [[TArm 0 30000000]; [TReq 0 1 3 7 5 2 0 []; TDisarm 0; TArm 0 5000000]].

(** A reply to a request of a finished connection is sent to the next client
    with the same session id, if the transaction ids coincide. *)
Theorem C34_refuted :
  ~ (forall b0 q0 v tr1 e os tr2 uid t f a st n nb d p sok v' os',
       reach b0 q0 v (tr1 ++ (e, os) :: tr2) -> In (TReq uid t f a st n nb d) os -> In (TFree uid) (concat (map snd tr2)) ->
       p_session p = uid -> p_tid p = t -> reply_ok p -> srv_step v (VReply p sok) = Some (v', os') ->
       forall bs, ~ In (TTx uid bs) os').
Proof.
  intros H.
  destruct (souts_last zb zq c34_run c34_out
    (VReply (late_reply 0 1) true) [TTx 0 [0; 1; 0; 0; 0; 5; 7; 3; 2; 18; 52]; TDisarm 0; TArm 0 30000000] zmem)
    as (v & v' & R & He & Hen & Hs); [vm_compute; reflexivity|vm_compute; reflexivity|vm_compute; reflexivity|].
  refine (H zb zq v [(accept, [TArm 0 30000000])] (VData 0 (RxBytes (read3 1 9 0 1))) [TReq 0 1 3 9 0 1 0 []; TDisarm 0; TArm 0 5000000]
    (combine (VData 0 RxErr :: others ++ [accept; VData 0 (RxBytes (read3 1 7 5 2))])
             ([TDisarm 0; TFree 0] :: others_out ++ [[TArm 0 30000000]; [TReq 0 1 3 7 5 2 0 []; TDisarm 0; TArm 0 5000000]]))
    0 1 3 9 0 1 0 [] (late_reply 0 1) true v' _ R _ _ eq_refl eq_refl He Hs _ _).
  - left. reflexivity.
  - cbn [combine map concat snd app]. right. left. reflexivity.
  - left. reflexivity.
Qed.

(** It is dropped if the session does not wait, or waits for the answer to a request
    with another transaction id. *)
Theorem C34_late_reply_partial b0 q0 v tr p sok v' os bs :
  reach b0 q0 v tr -> reply_ok p -> srv_step v (VReply p sok) = Some (v', os) ->
  (~ waiting (p_session p) tr \/
   exists os0 t f a st n nb d, w_last (view_of (p_session p) tr) = Some os0 /\ In (TReq (p_session p) t f a st n nb d) os0 /\ t <> p_tid p) ->
  ~ In (TTx (p_session p) bs) os.
Proof.
  intros R Hp Hs Hc Hin. destruct (tx_sound b0 q0 v tr (VReply p sok) v' os _ bs R Hp eq_refl Hs Hin) as (_ & Hw & p' & E & _ & _ & _ & _ & Hl).
  injection E as <- _. destruct Hc as [Hc|(os0 & t & f & a & st & n & nb & d & H1 & H2 & H3)]; [contradiction|].
  destruct (Hl os0 t f a st n nb d H1 H2) as [H4 _]. congruence.
Qed.

(** * C59, C66: the fate of a reply *)

(** A reply for the request a session waits for, on a connection without
    errors: a payload above 260 octets runs over the session's buffer; otherwise the frame for it
    is sent exactly when the protocol can express the reply. *)
Theorem C59_session_refuted b0 q0 v tr uid os0 t f a st n nb d p :
  reach b0 q0 v tr -> 0 <= uid < 256 -> waiting uid tr -> srv_enabled v (VError uid) = true ->
  w_last (view_of uid tr) = Some os0 -> In (TReq uid t f a st n nb d) os0 ->
  reply_ok p -> p_session p = uid -> p_tid p = t -> p_ok p = true -> 260 < p_nbytes p ->
  srv_step v (VReply p true) = None.
Proof.
  intros R Hu Hw He Hl Hi Hp H1 H2 H3 Hn. pose proof (reply_outcome b0 q0 v tr uid os0 t f a st n nb d p R Hu Hw He Hl Hi Hp H1 H2 H3) as X.
  destruct (Z.ltb_spec 260 (p_nbytes p)); [exact X|lia].
Qed.

Theorem C66_reply_sent_partial b0 q0 v tr uid os0 t f a st n nb d p :
  reach b0 q0 v tr -> 0 <= uid < 256 -> waiting uid tr -> srv_enabled v (VError uid) = true ->
  w_last (view_of uid tr) = Some os0 -> In (TReq uid t f a st n nb d) os0 ->
  reply_ok p -> p_session p = uid -> p_tid p = t -> p_ok p = true -> p_nbytes p <= 260 ->
  exists v' os, srv_step v (VReply p true) = Some (v', os ++ [TDisarm uid; TArm uid 30000000]) /\
    if expressible f p then exists bs, os = [TTx uid bs] /\ answers t f a st n p bs else os = [].
Proof.
  intros R Hu Hw He Hl Hi Hp H1 H2 H3 Hn. pose proof (reply_outcome b0 q0 v tr uid os0 t f a st n nb d p R Hu Hw He Hl Hi Hp H1 H2 H3) as X.
  destruct (Z.ltb_spec 260 (p_nbytes p)); [lia|exact X].
Qed.

(** Reads of coils and discrete inputs are forwarded but never answered. *)
Theorem C66_bits_refuted b0 q0 v tr uid os0 t f a st n nb d p :
  reach b0 q0 v tr -> 0 <= uid < 256 -> waiting uid tr -> srv_enabled v (VError uid) = true ->
  w_last (view_of uid tr) = Some os0 -> In (TReq uid t f a st n nb d) os0 -> f = 1 \/ f = 2 ->
  reply_ok p -> p_session p = uid -> p_tid p = t -> p_ok p = true -> p_error p = 0 -> p_nbytes p <= 260 ->
  exists v', srv_step v (VReply p true) = Some (v', [TDisarm uid; TArm uid 30000000]).
Proof.
  intros R Hu Hw He Hl Hi Hf Hp H1 H2 H3 H4 Hn.
  destruct (C66_reply_sent_partial b0 q0 v tr uid os0 t f a st n nb d p R Hu Hw He Hl Hi Hp H1 H2 H3 Hn) as (v' & os & E & X).
  assert (Hx : expressible f p = false) by (unfold expressible; rewrite H4; destruct Hf as [-> | ->]; reflexivity).
  rewrite Hx in X. subst os. eauto.
Qed.

Example C66_case : exists v tr os0, reach zb zq v tr /\ waiting 0 tr /\ srv_enabled v (VError 0) = true /\
  w_last (view_of 0 tr) = Some os0 /\ In (TReq 0 1 1 9 0 8 0 []) os0 /\
  reply_ok (mkReply 0 1 true 0 1 [85]) /\ reply_ok (mkReply 0 1 true 0 300 (repeat 7 300)).
Proof.
  assert (B : forall n, bytes_ok (repeat 7 n)).
  { intros n. apply Forall_forall. intros x Hx. apply repeat_spec in Hx as ->. unfold is_byte. lia. }
  destruct (souts_last zb zq [accept; VData 0 (RxBytes [0; 1; 0; 0; 0; 6; 9; 1; 0; 0; 0; 8])]
    [[TArm 0 30000000]; [TReq 0 1 1 9 0 8 0 []; TDisarm 0; TArm 0 5000000]] (VError 0) [] zmem) as (v & v' & R & _ & Hen & _);
    [reflexivity|reflexivity|vm_compute; reflexivity|].
  eexists v, _, _. split; [exact R|]. split; [reflexivity|]. split; [exact Hen|]. split; [reflexivity|]. split; [left; reflexivity|].
  split; unfold reply_ok, is_u32, is_u16, is_byte; cbn [p_session p_tid p_ok p_error p_nbytes p_data]; rewrite ?repeat_length;
  repeat match goal with |- _ /\ _ => split end; try lia; auto.
  - repeat constructor; lia.
  - cbn. lia.
Qed.

(** * C62 *)

(** A request is forwarded only when data arrives on a live session; unless the
    arrival is an end of file, all octets received since the session became ready form one Modbus frame
    and the request has its contents. *)
Theorem C62_forwards_sent_partial b0 q0 v tr e v' os uid t f a st n nb d :
  reach b0 q0 v tr -> vev_ok e -> srv_enabled v e = true -> srv_step v e = Some (v', os) -> In (TReq uid t f a st n nb d) os ->
  0 <= uid < 256 /\ live uid tr /\
  exists bs, e = VData uid (RxBytes bs) /\ (bs <> [] -> carried (w_rx (view_of uid tr) ++ bs) (TReq uid t f a st n nb d)).
Proof. apply req_sound. Qed.

Definition write16 : list Z := [0; 2; 0; 0; 0; 11; 9; 16; 0; 0; 0; 2; 4; 202; 254; 186; 190].
Definition c62_run : list vev := [accept; VData 0 (RxBytes write16); VData 0 RxErr] ++ others ++ [accept].
Definition c62_out : list (list sout) :=
  [[TArm 0 30000000]; [TReq 0 2 16 9 0 2 4 [254; 202; 190; 186]; TDisarm 0; TArm 0 5000000]; [TDisarm 0; TFree 0]] ++ others_out ++
  [[TArm 0 30000000]].

(** The payload of a forwarded read request is that of an earlier write request,
    even of another client. *)
Theorem C62_payload_refuted :
  exists v v' tr bs nb d, reach zb zq v tr /\ srv_enabled v (VData 0 (RxBytes bs)) = true /\ w_rx (view_of 0 tr) = [] /\
    srv_step v (VData 0 (RxBytes bs)) = Some (v', [TReq 0 1 3 7 5 2 nb d; TDisarm 0; TArm 0 5000000]) /\
    nb = 4 /\ forall x, In x d -> ~ In x bs.
Proof.
  destruct (souts_last zb zq c62_run c62_out (VData 0 (RxBytes (read3 1 7 5 2)))
    [TReq 0 1 3 7 5 2 4 [254; 202; 190; 186]; TDisarm 0; TArm 0 5000000] zmem)
    as (v & v' & R & He & Hen & Hs); [vm_compute; reflexivity|vm_compute; reflexivity|vm_compute; reflexivity|].
  exists v, v'. eexists. exists (read3 1 7 5 2), 4, [254; 202; 190; 186]. split; [exact R|]. split; [exact Hen|]. split; [vm_compute; reflexivity|].
  split; [exact Hs|]. split; [reflexivity|]. intros x Hx. cbn in Hx |- *. lia.
Qed.

Definition trojan : list Z := [0; 2; 0; 0; 0; 19; 9; 16; 0; 0; 0; 6; 12; 9; 0; 0; 0; 6; 9; 6; 0; 77; 1; 1; 0].
Definition c62_run2 : list vev :=
  [accept; VData 0 (RxBytes trojan); VReply (mkReply 0 2 true 0 0 []) true; VData 0 (RxBytes (read3 3 9 0 1))].

(** An end of file while waiting forwards whatever stale octets follow the request: here a
    register write although no write-single-register frame was received. *)
Theorem C62_phantom_refuted :
  exists v v' tr oss, reach zb zq v tr /\ tr = combine c62_run2 oss /\
    srv_enabled v (VData 0 (RxBytes [])) = true /\
    srv_step v (VData 0 (RxBytes [])) = Some (v', [TReq 0 3081 6 9 77 1 2 [1; 1]]) /\
    Forall (fun e => match e with VData _ (RxBytes bs) => wf_frame bs -> frame_func bs <> 6 | _ => True end) c62_run2.
Proof.
  destruct (souts_last zb zq c62_run2
    [[TArm 0 30000000]; [TReq 0 2 16 9 0 6 12 [0; 9; 0; 0; 9; 6; 0; 6; 1; 77; 0; 1]; TDisarm 0; TArm 0 5000000];
     [TTx 0 [0; 2; 0; 0; 0; 6; 9; 16; 0; 0; 0; 6]; TDisarm 0; TArm 0 30000000];
     [TReq 0 3 3 9 0 1 12 [0; 9; 0; 0; 9; 6; 0; 6; 1; 77; 0; 1]; TDisarm 0; TArm 0 5000000]]
    (VData 0 (RxBytes [])) [TReq 0 3081 6 9 77 1 2 [1; 1]] zmem)
    as (v & v' & R & He & Hen & Hs); [reflexivity|reflexivity|vm_compute; reflexivity|].
  eexists v, v', _, _. split; [exact R|]. split; [reflexivity|]. split; [exact Hen|]. split; [exact Hs|].
  repeat constructor; cbv; intros; discriminate.
Qed.

(** * C63 *)

Theorem C63_unknown_session_refuted b0 q0 v tr p sok : reach b0 q0 v tr -> reply_ok p -> 256 <= p_session p ->
  srv_step v (VReply p sok) = None.
Proof.
  intros R (P1 & _) H. destruct (srv_step v (VReply p sok)) as [r|] eqn:E; [|reflexivity].
  cbn [srv_step] in E. pose proof (on_range b0 q0 v tr _ _ _ R P1 E). lia.
Qed.
Theorem C63_idle_session_partial b0 q0 v tr p sok : reach b0 q0 v tr -> reply_ok p -> p_session p < 256 -> ~ waiting (p_session p) tr ->
  exists v', srv_step v (VReply p sok) = Some (v', []) /\ forall uid, session_of v' uid = session_of v uid.
Proof.
  intros R (P1 & _) H Hw. unfold is_u32 in P1. assert (Hu : 0 <= p_session p < 256) by lia.
  destruct (lookup b0 q0 v tr _ R Hu) as (s & Hs & HS & En & G).
  rewrite (waiting_iff _ s tr HS) in Hw. cbn [srv_step]. unfold srv_on. rewrite G, En. unfold s_reply.
  assert (Hup : forall uid, session_of (mkSrv (v_acc v) (v_pool v) (upd (v_sess v) (Z.to_nat (p_session p)) s)) uid = session_of v uid).
  { intros uid. unfold session_of. cbn [v_pool v_sess]. destruct (pool_get (v_pool v) uid) as [i|]; [|reflexivity].
    destruct (Nat.eq_dec i (Z.to_nat (p_session p))) as [->|Hne].
    - rewrite En. apply nth_error_upd_eq. apply nth_error_Some. congruence.
    - apply nth_error_upd_neq. congruence. }
  destruct (x_st s); [| |congruence]; cbn [srv_release]; eexists; (split; [reflexivity|exact Hup]).
Qed.

(** * C64 *)

Theorem C64_stays_inside_partial b0 q0 v tr e : reach b0 q0 v tr -> vev_ok e -> srv_enabled v e = true ->
  match e with
  | VData _ r => r <> RxBytes []
  | VReply p _ => p_session p < 256 /\ p_nbytes p <= 260
  | _ => True
  end -> exists v' os, srv_step v e = Some (v', os).
Proof. apply step_defined. Qed.

Definition spray : list Z :=
  [0; 0; 0; 0; 0; 2] ++ repeat 1 253 ++ [0; 9; 0; 0; 0; 253; 9; 16; 0; 0; 0; 123; 246] ++ repeat 1 240.
Definition full16 : list Z := [0; 4; 0; 0; 0; 253; 9; 16; 0; 0; 0; 123; 246] ++ repeat 5 246.
Definition c64_run : list vev := [accept; VData 0 (RxBytes spray); VTimer 0; VData 0 (RxBytes full16)].
Definition c64_out : list (list sout) :=
  [[TArm 0 30000000]; [TDisarm 0; TArm 0 5000000]; [TDisarm 0; TArm 0 30000000];
   [TReq 0 4 16 9 0 123 246 (repeat 5 246); TDisarm 0; TArm 0 5000000]].

(** A client that sprays the buffer, sends a maximal request and closes makes
    the session read past its 512-octet buffer. *)
Definition none_after (o : option (server * strace)) (e : vev) : bool :=
  match o with Some (v, _) => srv_enabled v e && match srv_step v e with None => true | Some _ => false end | None => false end.
Lemma none_after_inv o e oss : outs_of o = Some oss -> none_after o e = true ->
  exists v tr, o = Some (v, tr) /\ srv_enabled v e = true /\ srv_step v e = None.
Proof.
  destruct o as [[v tr]|]; [|discriminate]. cbn [none_after]. intros _ H. exists v, tr. split; [reflexivity|].
  apply andb_prop in H as [H1 H2]. destruct (srv_step v e); [discriminate|auto].
Qed.
Theorem C64_eof_overrun_refuted :
  exists v tr, reach zb zq v tr /\ srv_enabled v (VData 0 (RxBytes [])) = true /\
    srv_step v (VData 0 (RxBytes [])) = None.
Proof.
  destruct (none_after_inv (vstart (srv_new maxNumSession zb zq) c64_run) (VData 0 (RxBytes [])) c64_out) as (v & tr & E & H1 & H2);
    [vm_compute; reflexivity|vm_compute; reflexivity|].
  exists v, tr. split; [|auto]. exact (vstart_reach zb zq _ c64_run v tr zmem (vev_okb_ok c64_run eq_refl) eq_refl E).
Qed.

(** * C65 *)

(** The octets of a valid request, arriving in any number of pieces, are forwarded exactly once, as that request, and
    the session then waits for the answer. *)
Theorem C65_segmented_request b0 q0 uid q fr segs v tr : req_ok q -> encode_req q = EncOk fr ->
  reach b0 q0 v tr -> (forall r, srv_enabled v (VData uid r) = true) -> Forall (fun bs => bs <> []) segs -> segs <> [] ->
  w_rx (view_of uid tr) ++ concat segs = fr ->
  exists v' tr', reach b0 q0 v' (tr ++ tr') /\ map fst tr' = map (fun bs => VData uid (RxBytes bs)) segs /\
    exists m, forwards uid q m /\ filter (is_req uid) (concat (map snd tr')) = [m] /\ waiting uid (tr ++ tr').
Proof. intros Hq He. now apply segmented. Qed.

Example C65_case : exists v tr, reach zb zq v tr /\ (forall r, srv_enabled v (VData 0 r) = true) /\
  w_rx (view_of 0 tr) ++ concat [[0]; [1; 0; 0; 0]; [6; 9; 3; 0; 0; 0]; [1]] = read3 1 9 0 1 /\
  encode_req (mkReq 1 3 9 0 1 0 []) = EncOk (read3 1 9 0 1) /\ req_ok (mkReq 1 3 9 0 1 0 []).
Proof.
  destruct (souts_last zb zq [accept] [[TArm 0 30000000]] (VData 0 RxNa) [] zmem) as (v & v' & R & _ & Hen & _);
    [reflexivity|reflexivity|vm_compute; reflexivity|].
  eexists v, _. split; [exact R|]. split; [intros r; exact Hen|]. split; [reflexivity|]. split; [reflexivity|].
  unfold req_ok, is_u32, is_u16, is_byte. cbn. repeat split; try lia. constructor.
Qed.

Print Assumptions C31_answers_partial.
Print Assumptions C31_refuted.
Print Assumptions C32_timer_armed.
Print Assumptions C32_expiry.
Print Assumptions C32_terminates.
Print Assumptions C33_exclusive.
Print Assumptions C33_idle_clean.
Print Assumptions C33_capacity.
Print Assumptions C33_leak_refuted.
Print Assumptions C34_refuted.
Print Assumptions C34_late_reply_partial.
Print Assumptions C59_session_refuted.
Print Assumptions C66_reply_sent_partial.
Print Assumptions C66_bits_refuted.
Print Assumptions C62_forwards_sent_partial.
Print Assumptions C62_payload_refuted.
Print Assumptions C62_phantom_refuted.
Print Assumptions C63_unknown_session_refuted.
Print Assumptions C63_idle_session_partial.
Print Assumptions C64_stays_inside_partial.
Print Assumptions C64_eof_overrun_refuted.
Print Assumptions C65_segmented_request.
