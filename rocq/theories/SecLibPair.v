(** A client and a server channel of the library opening a channel with each other: facts about the packets involved. *)
From Verif Require Import Base ModbusCodecSpec ModbusClientModel UaCodecModel UaCodecSpec UaCodecProofs UaCodecLocal UaTcpModel UaTcpSpec UaTcpProofs UaTcpFacts UaChanModel UaChanSpec
  ProtoConnModel ProtoConnSpec ProtoConnProofs ProtoConnFacts SecLibModel SecLibSpec SecLibProofs SecLibFacts.
Local Open Scope Z_scope.

(** ** Decoding what is at the front of a buffer *)
Lemma front {A} (d : rd A) pkt v k h m : Loc d -> d (mkSdu 0 (length pkt) pkt) = DOk v (mkSdu k (length pkt) pkt) -> (k <= length pkt)%nat ->
  d (mkSdu 0 h (buf_write m 0 pkt)) = DOk v (mkSdu k h (buf_write m 0 pkt)).
Proof.
  intros [_ L] E K. rewrite (L _ _ _ (mkSdu 0 h (buf_write m 0 pkt)) E); [reflexivity|reflexivity|]. cbn [k_tail k_pkt].
  rewrite bw_put. cbn [firstn app]. rewrite firstn_app. replace (k - length pkt)%nat with 0%nat by lia. now rewrite firstn_O, app_nil_r.
Qed.
Lemma front_at {A} (d : rd A) pkt v i k h m : Loc d -> d (mkSdu i (length pkt) pkt) = DOk v (mkSdu k (length pkt) pkt) -> (k <= length pkt)%nat ->
  d (mkSdu i h (buf_write m 0 pkt)) = DOk v (mkSdu k h (buf_write m 0 pkt)).
Proof.
  intros [_ L] E K. rewrite (L _ _ _ (mkSdu i h (buf_write m 0 pkt)) E); [reflexivity|reflexivity|]. cbn [k_tail k_pkt].
  rewrite bw_put. cbn [firstn app]. rewrite firstn_app. replace (k - length pkt)%nat with 0%nat by lia. now rewrite firstn_O, app_nil_r.
Qed.
Lemma Loc_hello_msg : Loc dec_hello_msg. Proof. unfold dec_hello_msg. loct. Qed.
Lemma Loc_ack_msg : Loc dec_ack_msg. Proof. unfold dec_ack_msg. loct. Qed.

(** ** The open response as the client reads it *)
(** The client does not read the type id, so everything is read four octets early; with a lifetime of zero that goes well. *)
Lemma R_i64_any a b c d e f g h : exists v, Rd dec_datetime [a; b; c; d; e; f; g; h] v.
Proof. eexists. unfold dec_datetime, dec_i64. apply Rd_last. unfold rd64. repeat apply Rd_cons. apply Rd_ret. Qed.
Lemma R_u32_any a b c d : exists v, Rd dec_u32 [a; b; c; d] v.
Proof. eexists. unfold dec_u32, rd32. repeat apply Rd_cons. apply Rd_ret. Qed.
Lemma R_arr_none : Rd (dec_arr [] dec_string []) [0; 0; 0; 0] [].
Proof. apply (R_arr_str []). split; [constructor|cbn; lia]. Qed.
Lemma R_ext_none : Rd (dec_extobj extobj0) [0; 0; 0] extobj0.
Proof. apply (R_extobj extobj0). split; [|exact I]. unfold wf_nodeid, extobj0, nodeid0, is_u16, is_u32. cbn [xo_id n_ns n_val]. lia. Qed.
Lemma R_diag_none : Rd (dec_diag diag0) [0] diag0.
Proof. apply (R_diag diag0). cbn. tauto. Qed.
Lemma R_nonce_none old : Rd (dec_bstring old) [0; 0; 0; 0] [].
Proof. unfold dec_bstring. apply (Rd_bind dec_i32 _ [0; 0; 0; 0] [] 0 []); [apply (R_i32 0); unfold is_i32; lia|]. cbn [Z.eqb Z.ltb Z.compare Z.to_nat rdn]. apply Rd_ret. Qed.
(** Reading [l] at the cursor leaves the packet array, or throws. *)
Definition Bad {A} (d : rd A) (r : dres A) (l : list Z) : Prop := forall b, Z.of_nat (length (k_pkt b)) = 4096 -> holds b (k_tail b) l -> d b = r.
Lemma Bad_bind {A B} (m : rd A) (k : A -> rd B) r l1 l2 a : Rd m l1 a -> Bad (k a) r l2 -> Bad (bind m k) r (l1 ++ l2).
Proof.
  intros H1 H2 b Hl Hb. apply holds_app in Hb as [Ha Hc]. unfold bind. rewrite H1 by exact Ha. apply H2; [exact Hl|exact Hc].
Qed.
Lemma rdn_out n : forall b, (0 < n)%nat -> (length (k_pkt b) < k_tail b + n)%nat -> rdn n b = DOob.
Proof.
  induction n as [|n IH]; intros b N H; [lia|]. cbn [rdn]. unfold bind at 1. unfold read. destruct (nth_error (k_pkt b) (k_tail b)) as [v|] eqn:E; [|reflexivity].
  assert (L : (k_tail b < length (k_pkt b))%nat) by (apply nth_error_Some; congruence).
  unfold bind. rewrite IH; [reflexivity|lia|cbn [k_pkt k_tail]; lia].
Qed.
Lemma Bad_nonce old life : 4096 < life < 2147483648 -> Bad (dec_bstring old) DOob (le_bytes 4 life).
Proof.
  intros H. unfold dec_bstring. rewrite <- (app_nil_r (le_bytes 4 life)). eapply Bad_bind; [apply R_i32; unfold is_i32; lia|]. intros b Hl _.
  destruct (Z.eqb_spec life (-1)); [lia|]. destruct (Z.ltb_spec life 0); [lia|]. apply rdn_out; lia.
Qed.
Definition early (id tok t1 t2 : Z) : list Z :=
  [1; 0; 193; 1] ++ le_bytes 8 t1 ++ [0; 0; 0; 0] ++ [0; 0; 0; 0] ++ [0] ++ [0; 0; 0; 0] ++ [0; 0; 0] ++ [0; 0; 0; 0] ++ le_bytes 4 id ++ le_bytes 4 tok ++
  le_bytes 8 t2.
Lemma R_early id tok t1 t2 : exists h lr v0 t lt, Rd (dec_rsphdr rsphdr0) lr h /\ Rd dec_u32 [0; 0; 0; 0] v0 /\ Rd dec_chtoken lt t /\
  early id tok t1 t2 = lr ++ [0; 0; 0; 0] ++ lt.
Proof.
  unfold early. rewrite !le8, !le4. set (a := u8 t1). set (i := u8 id). set (k := u8 tok). set (z := u8 t2). cbn [app].
  destruct (R_i64_any 1 0 193 1 a (u8 (Z.shiftr t1 8)) (u8 (Z.shiftr t1 16)) (u8 (Z.shiftr t1 24))) as (v1 & H1).
  destruct (R_u32_any (u8 (Z.shiftr t1 32)) (u8 (Z.shiftr t1 40)) (u8 (Z.shiftr t1 48)) (u8 (Z.shiftr t1 56))) as (v2 & H2).
  destruct (R_u32_any 0 0 0 0) as (v0 & H0).
  destruct (R_u32_any i (u8 (Z.shiftr id 8)) (u8 (Z.shiftr id 16)) (u8 (Z.shiftr id 24))) as (v3 & H3).
  destruct (R_i64_any k (u8 (Z.shiftr tok 8)) (u8 (Z.shiftr tok 16)) (u8 (Z.shiftr tok 24)) z (u8 (Z.shiftr t2 8)) (u8 (Z.shiftr t2 16)) (u8 (Z.shiftr t2 24))) as (v4 & H4).
  destruct (R_u32_any (u8 (Z.shiftr t2 32)) (u8 (Z.shiftr t2 40)) (u8 (Z.shiftr t2 48)) (u8 (Z.shiftr t2 56))) as (v5 & H5).
  assert (HR : Rd (dec_rsphdr rsphdr0) ([1; 0; 193; 1; a; u8 (Z.shiftr t1 8); u8 (Z.shiftr t1 16); u8 (Z.shiftr t1 24)] ++
    [u8 (Z.shiftr t1 32); u8 (Z.shiftr t1 40); u8 (Z.shiftr t1 48); u8 (Z.shiftr t1 56)] ++ [0; 0; 0; 0] ++ [0] ++ [0; 0; 0; 0] ++ [0; 0; 0])
    (mkRp v1 v2 v0 diag0 [] extobj0)).
  { unfold dec_rsphdr. eapply Rd_bind; [exact H1|]. eapply Rd_bind; [exact H2|]. eapply Rd_bind; [exact H0|].
    eapply Rd_bind; [exact R_diag_none|]. eapply Rd_bind; [exact R_arr_none|]. apply (Rd_last (dec_extobj extobj0)). exact R_ext_none. }
  assert (HT : Rd dec_chtoken ([0; 0; 0; 0] ++ [i; u8 (Z.shiftr id 8); u8 (Z.shiftr id 16); u8 (Z.shiftr id 24)] ++
    [k; u8 (Z.shiftr tok 8); u8 (Z.shiftr tok 16); u8 (Z.shiftr tok 24); z; u8 (Z.shiftr t2 8); u8 (Z.shiftr t2 16); u8 (Z.shiftr t2 24)] ++
    [u8 (Z.shiftr t2 32); u8 (Z.shiftr t2 40); u8 (Z.shiftr t2 48); u8 (Z.shiftr t2 56)]) (mkCt v0 v3 v4 v5)).
  { unfold dec_chtoken. eapply Rd_bind; [exact H0|]. eapply Rd_bind; [exact H3|]. eapply Rd_bind; [exact H4|]. apply (Rd_last dec_u32). exact H5. }
  eexists _, _, v0, _, _. split; [exact HR|]. split; [exact H0|]. split; [exact HT|]. reflexivity.
Qed.
Lemma rsp_len id seq req tok t1 t2 life : Z.of_nat (length (opn_pkt id seq req tok t1 t2 life)) = 135.
Proof. unfold opn_pkt, open_rsp, rsp_head. rewrite !app_length, !le_bytes_length. vm_compute. reflexivity. Qed.
Lemma opn_early id seq req tok t1 t2 life : opn_pkt id seq req tok t1 t2 life =
  s_uhdr (mkUh opn_type 70 135 id) ++ s_sechdr (mkSh policy [] []) ++ s_seqhdr (mkSq seq req) ++ early id tok t1 t2 ++ le_bytes 4 life ++ le_bytes 4 (-1).
Proof.
  unfold opn_pkt, open_rsp, rsp_head, early, s_uhdr, s_sechdr, s_seqhdr, s_str, s_1, s_4. cbn [uh_type uh_final uh_size uh_chan sh_policy sh_cert sh_thumb sq_num sq_req].
  change (match policy with [] => le_bytes 4 (-1) | _ :: _ => le_bytes 4 (Z.of_nat (length policy)) ++ policy end) with (le_bytes 4 47 ++ policy).
  rewrite <- !app_assoc. reflexivity.
Qed.
Lemma R_uhdr_rsp id : is_u32 id -> Rd (dec_uhdr uhdr0) (s_uhdr (mkUh opn_type 70 135 id)) (mkUh opn_type 70 135 id).
Proof.
  intros Hi. apply R_uhdr. unfold wf_uhdr. cbn [uh_type uh_final uh_size uh_chan]. split; [split; [|reflexivity]|].
  - unfold opn_type. repeat constructor; unfold is_byte; lia.
  - unfold is_byte, is_u32 in *. lia.
Qed.
Lemma R_sechdr_rsp : Rd (dec_sechdr sechdr0) (s_sechdr (mkSh policy [] [])) (mkSh policy [] []).
Proof.
  apply R_sechdr. assert (W0 : wf_str []) by (split; [constructor|cbn; lia]). split; [|split; exact W0]. split; [|vm_compute; reflexivity].
  apply Forall_forall. intros z Hz. assert (B : forallb (fun z => (0 <=? z) && (z <? 256)) policy = true) by reflexivity.
  rewrite forallb_forall in B. specialize (B z Hz). cbn [sh_policy] in *. unfold is_byte. lia.
Qed.
Lemma client_reads id seq req tok t1 t2 h m : is_u32 id -> is_u32 seq -> is_u32 req -> exists v b,
  dec_open_rsp_pkt (mkSdu 0 h (buf_write m 0 (opn_pkt id seq req tok t1 t2 0))) = DOk v b.
Proof.
  intros Hi Hs Hq. destruct (R_early id tok t1 t2) as (v & lr & v0 & t & lt & HR & H0 & HT & EE).
  assert (HQ : Rd dec_seqhdr (s_seqhdr (mkSq seq req)) (mkSq seq req)) by (apply R_seqhdr; split; assumption).
  assert (HE : Rd (dec_openrsp openrsp0) (lr ++ [0; 0; 0; 0] ++ lt ++ [0; 0; 0; 0]) (mkOr v v0 t [])).
  { unfold dec_openrsp. eapply Rd_bind; [exact HR|]. eapply Rd_bind; [exact H0|]. eapply Rd_bind; [exact HT|].
    apply (Rd_last (dec_bstring [])). apply R_nonce_none. }
  pose proof (Rd_bind _ (fun _ => do s <- dec_sechdr sechdr0; do q <- dec_seqhdr; dec_openrsp openrsp0) _ _ _ _ (R_uhdr_rsp id Hi)
    (Rd_bind _ (fun _ => do q <- dec_seqhdr; dec_openrsp openrsp0) _ _ _ _ R_sechdr_rsp (Rd_bind _ (fun _ => dec_openrsp openrsp0) _ _ _ _ HQ HE))) as HA.
  eexists _, _. apply HA. apply holds_iff. exists (le_bytes 4 (-1) ++ skipn (length (opn_pkt id seq req tok t1 t2 0)) m). cbn [k_tail k_pkt skipn].
  rewrite bw_put, firstn_O, app_nil_l, Nat.add_0_l. rewrite opn_early at 1. rewrite EE. change (le_bytes 4 0) with [0; 0; 0; 0]. rewrite <- !app_assoc. reflexivity.
Qed.
(** The lifetime is taken for the length of the nonce. *)
Lemma client_overreads id seq req tok t1 t2 life h m : is_u32 id -> is_u32 seq -> is_u32 req -> length m = pktLen -> 4096 < life < 2147483648 ->
  dec_open_rsp_pkt (mkSdu 0 h (buf_write m 0 (opn_pkt id seq req tok t1 t2 life))) = DOob.
Proof.
  intros Hi Hs Hq Hm Hl. destruct (R_early id tok t1 t2) as (v & lr & v0 & t & lt & HR & H0 & HT & EE).
  assert (HQ : Rd dec_seqhdr (s_seqhdr (mkSq seq req)) (mkSq seq req)) by (apply R_seqhdr; split; assumption).
  assert (HN : Bad (do c <- dec_bstring []; ret (mkOr v v0 t c)) DOob (le_bytes 4 life)).
  { intros b Lb Hb. unfold bind. rewrite (Bad_nonce [] life Hl b Lb Hb). reflexivity. }
  assert (HE : Bad (dec_openrsp openrsp0) DOob (lr ++ [0; 0; 0; 0] ++ lt ++ le_bytes 4 life)).
  { unfold dec_openrsp. eapply Bad_bind; [exact HR|]. eapply Bad_bind; [exact H0|]. eapply Bad_bind; [exact HT|]. exact HN. }
  pose proof (Bad_bind _ (fun _ => do s <- dec_sechdr sechdr0; do q <- dec_seqhdr; dec_openrsp openrsp0) _ _ _ _ (R_uhdr_rsp id Hi)
    (Bad_bind _ (fun _ => do q <- dec_seqhdr; dec_openrsp openrsp0) _ _ _ _ R_sechdr_rsp (Bad_bind _ (fun _ => dec_openrsp openrsp0) _ _ _ _ HQ HE))) as HA.
  apply HA.
  - cbn [k_pkt]. rewrite bw_put. cbn [firstn app]. rewrite app_length, skipn_length. pose proof (rsp_len id seq req tok t1 t2 life).
    assert (Z.of_nat pktLen = 4096) by (vm_compute; reflexivity). lia.
  - apply holds_iff. exists (le_bytes 4 (-1) ++ skipn (length (opn_pkt id seq req tok t1 t2 life)) m). cbn [k_tail k_pkt skipn].
    rewrite bw_put, firstn_O, app_nil_l, Nat.add_0_l. rewrite opn_early at 1. rewrite EE. rewrite <- !app_assoc. reflexivity.
Qed.

(** ** The connections *)
Definition c_sh (m : list Z) : pconn := mkP PsShake (Some (Some receiveTimeout)) (Some true) (mkSdu 0 0 m).
Definition c_co (m : list Z) : pconn := mkP PsConn (Some (Some establishTimeout)) (Some true) (mkSdu 0 0 m).
Lemma receive_run st ti m pkt k : length m = pktLen -> sized pkt -> (length pkt <= pktLen)%nat ->
  p_receive (RxBytes pkt) k (mkP st ti (Some true) (mkSdu 0 0 m)) = k UrDone (mkP st ti (Some true) (mkSdu 0 (length pkt) (buf_write m 0 pkt))).
Proof.
  intros L S1 S2. unfold p_receive. cbn [p_timer p_link p_rx]. rewrite receive_done; [reflexivity|exact L|reflexivity|reflexivity|reflexivity|exact S1|exact S2].
Qed.
Lemma bytesb l : forallb (fun z => (0 <=? z) && (z <? 256)) l = true -> bytes_ok l.
Proof. intros B. apply Forall_forall. intros z Hz. rewrite forallb_forall in B. specialize (B z Hz). unfold is_byte. lia. Qed.
Lemma sizedb pkt : forallb (fun z => (0 <=? z) && (z <? 256)) pkt = true -> (8 <=? Z.of_nat (length pkt)) && (le_at 4 pkt =? Z.of_nat (length pkt)) = true -> sized pkt.
Proof.
  intros B H. split; [|lia]. apply Forall_forall. intros z Hz. rewrite forallb_forall in B. specialize (B z Hz). unfold is_byte. lia.
Qed.
Lemma hello_sized : sized hello_packet. Proof. apply sizedb; vm_compute; reflexivity. Qed.
Lemma ack_sized : sized ack_packet. Proof. apply sizedb; vm_compute; reflexivity. Qed.
Lemma req_sized : sized opn_req. Proof. apply sizedb; vm_compute; reflexivity. Qed.
Lemma bw_len m pkt : length m = pktLen -> (length pkt <= pktLen)%nat -> length (buf_write m 0 pkt) = pktLen.
Proof. intros L H. rewrite bw_put. cbn [firstn app]. rewrite app_length, skipn_length. lia. Qed.
Lemma types m pkt a b c r t : pkt = a :: b :: c :: r -> has_octets (buf_write m 0 pkt) t = has_octets pkt t.
Proof. intros ->. rewrite bw_put. cbn [firstn app]. reflexivity. Qed.
Lemma le_pkt (p : list Z) : Z.of_nat (length p) <= 4096 -> (length p <= pktLen)%nat.
Proof. intros H. assert (Z.of_nat pktLen = 4096) by (vm_compute; reflexivity). lia. Qed.
Lemma shake_server m n : length m = pktLen -> p_step RServer (PvData (RxBytes hello_packet) (Some n) []) (c_sh m) =
  Some (c_co (buf_write m 0 hello_packet), [PTx ack_packet (Nat.min n (length ack_packet)); PDisarm; PNote NConnected; PArm establishTimeout], false).
Proof.
  intros L. unfold c_sh. cbn [p_step p_st]. rewrite receive_run; [|exact L|exact hello_sized|apply le_pkt; vm_compute; discriminate].
  unfold p_shake. cbn [p_rx k_tail k_pkt skipn].
  rewrite (types m hello_packet 72 69 76 (skipn 3 hello_packet)) by reflexivity.
  assert (D : dec_hello_msg (mkSdu 0 (length hello_packet) (buf_write m 0 hello_packet)) = DOk (mkHello 0 65536 65536 65536 5000 []) (mkSdu 32 (length hello_packet) (buf_write m 0 hello_packet))).
  { apply front; [exact Loc_hello_msg|vm_compute; reflexivity|vm_compute; auto with arith]. }
  rewrite D. change (has_octets hello_packet [72; 69; 76]) with true. cbv iota. remember (buf_write m 0 hello_packet) as B eqn:EB. clear D EB.
  unfold p_send_enc. rewrite ackp_eq. remember ack_packet as AP. clear HeqAP. cbn -[Nat.min receiveTimeout establishTimeout]. reflexivity.
Qed.
Definition asks_open (w : option nat) : list pcall := [KSend opn_req w].
Lemma shake_client m w n us : length m = pktLen -> us = [] \/ us = [KSend opn_req (Some n)] -> p_step RClient (PvData (RxBytes ack_packet) w us) (c_sh m) =
  Some (c_co (buf_write m 0 ack_packet), [PDisarm; PNote NConnected] ++ (if us then [] else [PUser (KSend opn_req (Some n)); PTx opn_req (Nat.min n (length opn_req)); PSent true]) ++ [PArm establishTimeout], false).
Proof.
  intros L U. unfold c_sh. cbn [p_step p_st]. rewrite receive_run; [|exact L|exact ack_sized|apply le_pkt; vm_compute; discriminate].
  unfold p_shake. cbn [p_rx k_tail k_pkt skipn].
  rewrite (types m ack_packet 65 67 75 (skipn 3 ack_packet)) by reflexivity.
  assert (D : dec_ack_msg (mkSdu 0 (length ack_packet) (buf_write m 0 ack_packet)) = DOk (mkAck 0 65536 65536 327680000 5000) (mkSdu 28 (length ack_packet) (buf_write m 0 ack_packet))).
  { apply front; [exact Loc_ack_msg|vm_compute; reflexivity|vm_compute; auto with arith]. }
  rewrite D. change (has_octets ack_packet [65; 67; 75]) with true. cbv iota. remember (buf_write m 0 ack_packet) as B eqn:EB. clear D EB.
  remember opn_req as q eqn:Eq. clear Eq. destruct U as [->| ->]; cbn -[Nat.min receiveTimeout establishTimeout]; reflexivity.
Qed.
Lemma data_run role m pkt w us n p : length m = pktLen -> sized pkt -> (length pkt <= pktLen)%nat -> us = [] \/ us = [KSend p (Some n)] ->
  p_step role (PvData (RxBytes pkt) w us) (c_co m) =
  Some (c_co (buf_write m 0 pkt), [PNote (NData pkt)] ++ (if us then [] else [PUser (KSend p (Some n)); PTx p (Nat.min n (length p)); PSent true]), false).
Proof.
  intros L S1 S2 U. unfold c_co. cbn [p_step p_st]. rewrite receive_run by auto. cbn [p_rx k_head k_pkt].
  assert (F : firstn (length pkt) (buf_write m 0 pkt) = pkt).
  { rewrite bw_put. cbn [firstn app]. rewrite firstn_app, Nat.sub_diag, firstn_O, app_nil_r. apply firstn_all. }
  rewrite F. remember (buf_write m 0 pkt) as B eqn:EB. clear F EB.
  destruct U as [->| ->]; cbn -[Nat.min receiveTimeout establishTimeout]; reflexivity.
Qed.

(** ** The channels *)
Definition req_msg := Eval vm_compute in match dec_cont dec_openreq (cont_new 446 openreq0) (mkSdu 32 85 opn_req) with DOk r _ => r | _ => cont_new 446 openreq0 end.
Lemma req_msg_eq : dec_cont dec_openreq (cont_new 446 openreq0) (mkSdu 32 85 opn_req) = DOk req_msg (mkSdu 85 85 opn_req).
Proof. vm_compute. reflexivity. Qed.
Lemma rsp_sized id seq req tok t1 t2 life : is_u32 id -> sized (opn_pkt id seq req tok t1 t2 life).
Proof.
  intros Hi. split; [|split].
  - unfold opn_pkt, open_rsp, rsp_head. assert (P : bytes_ok policy) by (apply bytesb; vm_compute; reflexivity).
    repeat (apply Forall_app; split); try apply le_bytes_ok; try exact P; repeat constructor; unfold is_byte; lia.
  - pose proof (rsp_len id seq req tok t1 t2 life). lia.
  - rewrite rsp_len. reflexivity.
Qed.
Section Steps.
  Context (n : nat) (rnd t1 t2 : Z) (tl : nat) (us : list (list Z * option nat)).
  Lemma server_hello m id a b c d e : length m = pktLen ->
    s_step RServer (mkS SDial (c_sh m) id a b c d e) (SvData (RxBytes hello_packet) (Some n) rnd t1 t2 tl us) =
    Some (mkS SShake (c_co (buf_write m 0 hello_packet)) id a b c d e,
      ([PTx ack_packet (Nat.min n (length ack_packet)); PDisarm; PNote NConnected; PArm establishTimeout], []), false).
  Proof.
    intros L. cbn [s_step]. unfold s_down. cbn [lower s_c]. rewrite !shake_server by exact L. cbn [note_of s_rand s_w s_us s_hear s_st].
    rewrite !shake_server by exact L. reflexivity.
  Qed.
  Lemma server_open m id a b c d e : length m = pktLen -> is_u32 id -> is_u32 a ->
    let tok := rnd mod 2147483647 in let pkt := opn_pkt id a 0 tok t1 t2 0 in
    s_step RServer (mkS SShake (c_co m) id a b c d e) (SvData (RxBytes opn_req) (Some n) rnd t1 t2 tl us) =
    Some (mkS SEst (c_co (buf_write m 0 opn_req)) id (u32 (a + 1)) 0 0 0 tok,
      ([PNote (NData opn_req); PUser (KSend pkt (Some n)); PTx pkt (Nat.min n (length pkt)); PSent true], [SHeard (buf_write m 0 opn_req)]), false).
  Proof.
    intros L Hi Ha tok pkt. cbn [s_step]. unfold s_down. cbn [lower s_c].
    assert (S2 : (length opn_req <= pktLen)%nat) by (apply le_pkt; vm_compute; discriminate).
    rewrite (data_run RServer m opn_req (Some n) [] n pkt L req_sized S2) by auto. cbn [app note_of s_rand s_w s_us c_co p_link].
    assert (RX : rx_now (c_co m) (SvData (RxBytes opn_req) (Some n) rnd t1 t2 tl us) = mkSdu 0 (length opn_req) (buf_write m 0 opn_req)).
    { unfold rx_now, c_co. rewrite receive_run; [reflexivity|exact L|exact req_sized|exact S2]. }
    change (mkP PsConn (Some (Some establishTimeout)) (Some true) (mkSdu 0 0 m)) with (c_co m). rewrite RX.
    assert (SH : s_hear RServer (mkS SShake (c_co m) id a b c d e) (NData opn_req) (mkSdu 0 (length opn_req) (buf_write m 0 opn_req)) (Some n) true rnd t1 t2 us =
      Some (mkS SEst (c_co m) id (u32 (a + 1)) 0 0 0 tok, [KSend pkt (Some n)], [], false)).
    { unfold s_hear. cbn [k_tail k_pkt skipn s_st].
      assert (L3 : (length (buf_write m 0 opn_req) <? 3)%nat = false) by (rewrite bw_len by auto; vm_compute; reflexivity). rewrite L3.
      rewrite !(types m opn_req 79 80 78 (skipn 3 opn_req)) by reflexivity. change (has_octets opn_req opn_type) with true. cbv iota.
      unfold s_open.
      assert (D1 : (do h <- dec_uhdr uhdr0; do s <- dec_sechdr sechdr0; dec_seqhdr) (mkSdu 0 (length opn_req) (buf_write m 0 opn_req)) =
        DOk (mkSq 0 0) (mkSdu 32 (length opn_req) (buf_write m 0 opn_req))).
      { apply front; [loct|vm_compute; reflexivity|vm_compute; lia]. }
      rewrite D1. 
      assert (D2 : exists r b1, dec_cont dec_openreq (cont_new 446 openreq0) (mkSdu 32 (length opn_req) (buf_write m 0 opn_req)) = DOk r b1 /\ oq_life (co_msg r) = 0).
      { exists req_msg, (mkSdu 85 (length opn_req) (buf_write m 0 opn_req)). split; [|reflexivity]. apply (front_at _ opn_req req_msg 32 85); [auto with loc|exact req_msg_eq|vm_compute; lia]. }
      destruct D2 as (r & b1 & -> & ->). unfold open_rsp_pkt. cbn [x_tok x_life x_took s_id s_tx s_req s_tok s_life sq_num sq_req].
      rewrite opn_pkt_eq by exact Hi. reflexivity. }
    rewrite SH. rewrite (data_run RServer m opn_req (Some n) [KSend pkt (Some n)] n pkt L req_sized S2) by auto. reflexivity.
  Qed.

  Lemma client_ack m id a b c d e : length m = pktLen ->
    s_step RClient (mkS SDial (c_sh m) id a b c d e) (SvData (RxBytes ack_packet) (Some n) rnd t1 t2 tl us) =
    Some (mkS SShake (c_co (buf_write m 0 ack_packet)) id a b c d e,
      ([PDisarm; PNote NConnected; PUser (KSend opn_req (Some n)); PTx opn_req (Nat.min n (length opn_req)); PSent true; PArm establishTimeout], []), false).
  Proof.
    intros L. cbn [s_step]. unfold s_down. cbn [lower s_c]. rewrite (shake_client m (Some n) n []) by auto. cbn [app note_of s_rand s_w s_us].
    assert (SH : forall x b ok, s_st x = SDial -> s_hear RClient x NConnected b (Some n) ok rnd t1 t2 us = Some (x_st x SShake, [KSend opn_req (Some n)], [], false)).
    { intros x b' ok E. unfold s_hear. rewrite E. assert (Q : open_req_pkt = Some opn_req) by (vm_compute; reflexivity). rewrite Q. reflexivity. }
    rewrite SH by reflexivity. rewrite (shake_client m (Some n) n [KSend opn_req (Some n)]) by auto. reflexivity.
  Qed.
  Lemma client_hurt m id a b c d e i q r tok u1 u2 life w : length m = pktLen -> is_u32 i -> is_u32 q -> is_u32 r -> 4096 < life < 2147483648 ->
    s_step RClient (mkS SShake (c_co m) id a b c d e) (SvData (RxBytes (opn_pkt i q r tok u1 u2 life)) w rnd t1 t2 tl us) = None.
  Proof.
    intros L Hi Hq Hr Hl. set (pkt := opn_pkt i q r tok u1 u2 life). cbn [s_step]. unfold s_down. cbn [lower s_c].
    assert (S1 : sized pkt) by (apply rsp_sized; auto).
    assert (S2 : (length pkt <= pktLen)%nat) by (apply le_pkt; unfold pkt; rewrite rsp_len; lia).
    rewrite (data_run RClient m pkt w [] n pkt L S1 S2) by auto. cbn [app note_of s_rand s_w s_us c_co p_link].
    assert (RX : rx_now (c_co m) (SvData (RxBytes pkt) w rnd t1 t2 tl us) = mkSdu 0 (length pkt) (buf_write m 0 pkt)).
    { unfold rx_now, c_co. rewrite receive_run; [reflexivity|exact L|exact S1|exact S2]. }
    change (mkP PsConn (Some (Some establishTimeout)) (Some true) (mkSdu 0 0 m)) with (c_co m). rewrite RX.
    assert (SH : forall ok, s_hear RClient (mkS SShake (c_co m) id a b c d e) (NData pkt) (mkSdu 0 (length pkt) (buf_write m 0 pkt)) w ok rnd t1 t2 us = None).
    { intros ok. unfold s_hear. cbn [k_tail k_pkt skipn s_st].
      assert (L3 : (length (buf_write m 0 pkt) <? 3)%nat = false) by (rewrite bw_len by auto; vm_compute; reflexivity). rewrite L3.
      rewrite !(types m pkt 79 80 78 (skipn 3 pkt)) by reflexivity. change (has_octets pkt opn_type) with true. cbv iota.
      unfold pkt. rewrite client_overreads by auto. reflexivity. }
    rewrite SH. reflexivity.
  Qed.
  Lemma client_rsp m id a b c d e i q r tok u1 u2 w : length m = pktLen -> is_u32 i -> is_u32 q -> is_u32 r -> 
    let pkt := opn_pkt i q r tok u1 u2 0 in
    s_step RClient (mkS SShake (c_co m) id a b c d e) (SvData (RxBytes pkt) w rnd t1 t2 tl us) =
    Some (mkS SEst (c_co (buf_write m 0 pkt)) id a b c d e, ([PNote (NData pkt)], [SHeard (buf_write m 0 pkt)]), false).
  Proof.
    intros L Hi Hq Hr pkt. cbn [s_step]. unfold s_down. cbn [lower s_c].
    assert (S1 : sized pkt) by (apply rsp_sized; auto).
    assert (S2 : (length pkt <= pktLen)%nat) by (apply le_pkt; unfold pkt; rewrite rsp_len; lia).
    rewrite (data_run RClient m pkt w [] n pkt L S1 S2) by auto. cbn [app note_of s_rand s_w s_us c_co p_link].
    assert (RX : rx_now (c_co m) (SvData (RxBytes pkt) w rnd t1 t2 tl us) = mkSdu 0 (length pkt) (buf_write m 0 pkt)).
    { unfold rx_now, c_co. rewrite receive_run; [reflexivity|exact L|exact S1|exact S2]. }
    change (mkP PsConn (Some (Some establishTimeout)) (Some true) (mkSdu 0 0 m)) with (c_co m). rewrite RX.
    assert (SH : forall ok, s_hear RClient (mkS SShake (c_co m) id a b c d e) (NData pkt) (mkSdu 0 (length pkt) (buf_write m 0 pkt)) w ok rnd t1 t2 us =
      Some (mkS SEst (c_co m) id a b c d e, [], [], false)).
    { intros ok. unfold s_hear. cbn [k_tail k_pkt skipn s_st].
      assert (L3 : (length (buf_write m 0 pkt) <? 3)%nat = false) by (rewrite bw_len by auto; vm_compute; reflexivity). rewrite L3.
      rewrite !(types m pkt 79 80 78 (skipn 3 pkt)) by reflexivity. change (has_octets pkt opn_type) with true. cbv iota.
      destruct (client_reads i q r tok u1 u2 (length pkt) m Hi Hq Hr) as (v & b1 & D). fold pkt in D. rewrite D. reflexivity. }
    rewrite SH. rewrite (data_run RClient m pkt w [] n pkt L S1 S2) by auto. reflexivity.
  Qed.
End Steps.
Lemma client_dials b0 id a b c d e rnd : s_step RClient (mkS SInit (conn0 b0) id a b c d e) (SvOpen true true true rnd) =
  Some (mkS SDial (mkP PsDial (Some (Some connectTimeout)) (Some true) (mkSdu 0 0 b0)) id a b c d e, ([PUser (KConnect true true true); PLink; PTimer; PDial; PArm connectTimeout], []), false).
Proof. reflexivity. Qed.
Lemma client_greets m id a b c d e n us : s_step RClient (mkS SDial (mkP PsDial (Some (Some connectTimeout)) (Some true) (mkSdu 0 0 m)) id a b c d e) (SvConnected (Some n) us) =
  Some (mkS SDial (c_sh m) id a b c d e, ([PTx hello_packet (Nat.min n (length hello_packet)); PDisarm; PArm receiveTimeout], []), false).
Proof.
  cbn [s_step]. unfold s_down. cbn [lower s_c p_step p_st]. unfold p_send_enc. rewrite greeting_eq. cbn [greeting_packet]. remember hello_packet as p. clear Heqp.
  cbn -[Nat.min receiveTimeout connectTimeout]. reflexivity.
Qed.
Lemma server_accepts b0 id a b c d e lok cok rnd : s_step RServer (mkS SInit (conn0 b0) id a b c d e) (SvOpen lok true cok rnd) =
  Some (mkS SDial (c_sh b0) (rnd mod 2147483647) a b c d e, ([PUser (KAccept true); PLink; PTimer; PArm receiveTimeout], []), false).
Proof. reflexivity. Qed.

(** What a run put on the wire, and what it was given from it. *)
Definition wrote (o : list s_out) : list (list Z) := flat_map (fun p => match p with PTx pkt k => [firstn k pkt] | _ => [] end) (concat (map fst o)).
Definition given (es : list sev) : list (list Z) := flat_map (fun e => match e with SvData (RxBytes bs) _ _ _ _ _ _ => [bs] | _ => [] end) es.
Lemma srun_cons role x e es x1 o t y os : s_enabled x e = true -> s_step role x e = Some (x1, o, t) -> srun role x1 es = Some (y, os) -> srun role x (e :: es) = Some (y, o :: os).
Proof. intros A B C. cbn [srun]. rewrite A, B, C. reflexivity. Qed.
Lemma pair_up bc ic bs is n rc rs rnd t1 t2 tl lok cok : umem_ok bc -> umem_ok bs -> 4096 <= Z.of_nat n -> 0 <= rs -> 0 <= rnd ->
  exists rsp oc os xc xs,
    let dat p := SvData (RxBytes p) (Some n) rnd t1 t2 tl [] in
    let ec := [SvOpen true true true rc; SvConnected (Some n) []; dat ack_packet; dat rsp] in
    let es := [SvOpen lok true cok rs; dat hello_packet; dat opn_req] in
    srun RClient (sch_new bc ic) ec = Some (xc, oc) /\ srun RServer (sch_new bs is) es = Some (xs, os) /\
    given ec = wrote os /\ given es = wrote oc /\ s_st xc = SEst /\ s_st xs = SEst /\
    rsp = opn_pkt (rs mod 2147483647) 1 0 (rnd mod 2147483647) t1 t2 0.
Proof.
  intros [Mc _] [Ms _] Hn Hr Hd. destruct ic as [[[[a b] c] d] e]. destruct is as [[[[a' b'] c'] d'] e'].
  assert (LC : length bc = pktLen) by (assert (Z.of_nat pktLen = 4096) by (vm_compute; reflexivity); lia).
  assert (LS : length bs = pktLen) by (assert (Z.of_nat pktLen = 4096) by (vm_compute; reflexivity); lia).
  assert (Hi : is_u32 (rs mod 2147483647)) by (unfold is_u32; lia).
  set (rsp := opn_pkt (rs mod 2147483647) 1 0 (rnd mod 2147483647) t1 t2 0).
  assert (LA : (length ack_packet <= pktLen)%nat) by (apply le_pkt; vm_compute; discriminate).
  assert (LH : (length hello_packet <= pktLen)%nat) by (apply le_pkt; vm_compute; discriminate).
  exists rsp. eexists _, _, _, _. cbv zeta. split; [|split].
  - eapply srun_cons; [reflexivity|apply client_dials|]. eapply srun_cons; [reflexivity|apply client_greets|].
    eapply srun_cons; [reflexivity|apply client_ack; exact LC|].
    eapply srun_cons; [reflexivity|apply (client_rsp n); [apply bw_len; [exact LC|exact LA]|exact Hi|unfold is_u32; lia|unfold is_u32; lia]|]. reflexivity.
  - eapply srun_cons; [reflexivity|apply server_accepts|]. eapply srun_cons; [reflexivity|apply server_hello; exact LS|].
    eapply srun_cons; [reflexivity|apply server_open; [apply bw_len; [exact LS|exact LH]|exact Hi|unfold is_u32; lia]|]. reflexivity.
  - assert (W : forall p : list Z, Z.of_nat (length p) <= 4096 -> firstn (Nat.min n (length p)) p = p) by (intros p Hp; apply firstn_all2; lia).
    cbn [s_st s_tok s_id]. split; [|split; [|auto]].
    + unfold given, wrote. cbn [map fst concat app flat_map]. fold rsp. rewrite !W; [reflexivity|unfold rsp; rewrite rsp_len; lia|vm_compute; discriminate].
    + unfold given, wrote. cbn [map fst concat app flat_map]. rewrite !W; [reflexivity|vm_compute; discriminate..].
Qed.
