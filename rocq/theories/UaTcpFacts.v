(** Consequences of the invariant of the UA TCP transport. *)
From Verif Require Import Base QueueModel QueueSpec QueueProofs PoolModel PoolSpec PoolProofs EntProofs ModbusCodecModel ModbusCodecSpec
  ModbusClientModel ModbusClientProofs UaCodecModel UaCodecSpec UaCodecProofs UaCodecLocal UaTcpModel UaTcpSpec UaTcpProofs UaTcpRuns.
Local Open Scope Z_scope.

(** * The possible effects of each handler *)

Lemma data_shape uid c w r wr c' os : TOK uid c w -> t_link c = Some true -> lrx_ok r -> u_data uid c r wr = Some (c', os) ->
  (t_st c = UInit /\ os = []) \/
  (t_st c = UHello /\ (os = [] \/ os = [UThrow] \/ os = [UDisarm uid; UFree uid] \/
     exists n, os = [UTx uid ack_packet n; UDisarm uid; UArm uid 30000000])) \/
  (t_st c = UConn /\ (os = [] \/ os = closing uid (t_chan c) \/
     exists k ch ck len d, os = [UFwd k uid ch ck len d; UArm uid 30000000] /\ (k <> KOpn -> t_chan c = Some ch))).
Proof.
  intros HT Hk Hr H. pose proof HT as [HL HB HS HR]. unfold u_data in H. destruct (t_st c) eqn:Est.
  - apply some2 in H as (<- & <-). left. auto.
  - right. left. split; [auto|]. destruct HS as (A1 & A2 & A3 & A4 & A5 & A6 & A7). specialize (HR ltac:(congruence)).
    destruct (u_hello uid c r wr) as [[[c1 o] res]|] eqn:Eh; [|discriminate H].
    destruct (hello_ok _ _ _ _ _ _ _ _ HL HB HR Hk Hr Eh) as ([S1 S2 S3 S4 S5 S6] & Hc).
    destruct Hc as [(-> & n & ->)|[(-> & ->)|[(-> & -> & R)|(-> & -> & R)]]]; cbn [u_then] in H.
    + rewrite (tr_conn uid c1 _ (eq_trans S1 Est) (eq_trans S2 A2)) in H. apply some2 in H as (<- & <-). right. right. right. now exists n.
    + rewrite (tr_init uid c1 _ ltac:(congruence) (eq_trans S2 A2)) in H. apply some2 in H as (<- & <-). auto.
    + apply some2 in H as (<- & <-). auto.
    + apply some2 in H as (<- & <-). auto.
  - right. right. split; [auto|]. destruct HS as (A1 & A2 & A3 & A4 & A5 & A6 & A7). specialize (HR ltac:(congruence)).
    destruct (u_secured uid c r) as [[[c1 o] res]|] eqn:Eh; [|discriminate H].
    destruct (secured_ok _ _ _ _ _ _ _ HL HB HR Hk Hr Eh) as ([S1 S2 S3 S4 S5 S6] & Hc).
    destruct Hc as [(-> & k & ch & ck & len & d & -> & Hch)|[(-> & ->)|(-> & -> & R & Rt)]]; cbn [u_then] in H.
    + unfold u_arm in H. rewrite (eq_trans S2 A2) in H. apply some2 in H as (_ & <-). right. right. now exists k, ch, ck, len, d.
    + rewrite (fail_eq uid c1 _ ltac:(congruence) (eq_trans S2 A2)) in H. apply some2 in H as (_ & <-).
      right. left. now rewrite S4.
    + apply some2 in H as (<- & <-). auto.
Qed.

Lemma msg_shape uid k c w m wr c' os : TOK uid c w -> umsg_ok m -> u_msg uid k c m wr = Some (c', os) ->
  (t_st c <> UConn /\ os = []) \/
  (t_st c = UConn /\ ((exists n, (n <= length (packet_of k m))%nat /\ os = [UTx uid (packet_of k m) n] /\
                         (k <> KOpn -> t_chan c = Some (um_chan m))) \/
     os = closing uid (match k with KOpn => Some (um_chan m) | _ => t_chan c end))).
Proof.
  intros HT Hm H. pose proof HT as [HL HB HS HR]. unfold u_msg in H.
  destruct (t_st c) eqn:Est; [left; split; [congruence|now apply some2 in H]|left; split; [congruence|now apply some2 in H]|].
  right. split; [auto|]. destruct HS as (A1 & A2 & A3 & A4 & A5 & A6 & A7).
  destruct (u_message uid k c m wr) as [[[c1 o] res]|] eqn:Eh; [|discriminate H].
  destruct (message_ok _ _ _ _ _ _ _ _ Hm Eh) as (S1 & S2 & S3 & S4 & S5 & [(-> & Sc & n & Hn & ->)|(-> & ->)]).
  - apply some2 in H as (<- & <-). left. exists n. split; [auto|]. split; [auto|]. intros Hk. destruct k; congruence.
  - cbn [u_then] in H. rewrite (fail_eq uid c1 _ ltac:(congruence) (eq_trans S2 A2)) in H. apply some2 in H as (_ & <-).
    right. cbn [app]. now rewrite S5.
Qed.

Lemma release_shape uid c w c' os : TOK uid c w -> u_release uid c = Some (c', os) ->
  os = if ust_eqb (t_st c) UConn then [UDisarm uid; UFree uid] else [].
Proof.
  intros [HL HB HS HR] H. unfold u_release in H. destruct (t_st c) eqn:Est; cbn [ust_eqb]; [now apply some2 in H|now apply some2 in H|].
  destruct HS as (A1 & A2 & _). rewrite (tr_init uid c _ ltac:(congruence) A2) in H. now apply some2 in H.
Qed.

Lemma timer_shape uid c w c' os : TOK uid c w -> t_st c <> UInit -> u_timer uid c = Some (c', os) ->
  os = closing uid (match t_st c with UConn => t_chan c | _ => None end).
Proof.
  intros [HL HB HS HR] Hn H. unfold u_timer in H. tcbn_in H.
  destruct (t_st c) eqn:Est; [congruence| |]; destruct HS as (A1 & A2 & _); rewrite A2 in H.
  - rewrite (tr_init uid _ None) in H; tcbn; [|congruence|auto]. now apply some2 in H.
  - rewrite (fail_eq uid _ None) in H; tcbn; [|congruence|auto]. now apply some2 in H.
Qed.

(** * Views and states *)

Lemma conn_inv v tr uid : TInv v tr -> 1 <= uid <= 32 -> exists c, conn_of v uid = Some c /\ TOK uid c (uview_of uid tr) /\
  nth_error (d_conn v) (Z.to_nat (uid - 1)) = Some c /\ pool_get (d_pool v) uid = Some (Z.to_nat (uid - 1)).
Proof.
  intros HI Hu. pose proof HI as [S O T]. destruct c32 as (C1 & C2 & C3).
  assert (Hu32 : is_u32 uid) by (unfold is_u32; lia).
  rewrite (conn_of_eq v tr uid HI Hu32).
  pose proof (own_get _ _ _ C1 C2 C3 _ _ _ _ O Hu32) as Eg. change (Z.of_nat 32) with 32 in Eg.
  destruct (Z.leb_spec 1 uid); [|lia]. destruct (Z.leb_spec uid 32); [|lia]. cbn [andb] in *.
  assert (Hlt : (Z.to_nat (uid - 1) < length (d_conn v))%nat) by (rewrite (own_len _ _ _ _ _ _ O); lia).
  destruct (nth_error (d_conn v) (Z.to_nat (uid - 1))) as [c|] eqn:En; [|apply nth_error_None in En; lia].
  exists c. split; [reflexivity|]. split; [|auto]. replace uid with (Z.of_nat (Z.to_nat (uid - 1)) + 1) by lia. now apply S.
Qed.

Lemma view_out uid tr b0 v : ureach b0 v tr -> ~ 1 <= uid <= 32 -> g_starts (uview_of uid tr) = 0%nat /\ g_frees (uview_of uid tr) = 0%nat /\
  g_armed (uview_of uid tr) = None /\ g_acked (uview_of uid tr) = false.
Proof.
  intros HR Hu. induction HR as [v Hm Hn|v tr e v' os HR IH Hev Hen Hs]; [auto|].
  pose proof (reach_inv _ _ _ HR) as HI. destruct (step_inv _ _ _ _ _ HI Hev Hen Hs) as [_ Ht].
  rewrite uview_snoc. destruct IH as (I1 & I2 & I3 & I4).
  assert (G : forall w x, Forall (uabout x) os -> x <> uid -> g_starts w = 0%nat -> g_frees w = 0%nat -> g_armed w = None -> g_acked w = false ->
    g_starts (uview_next uid w (e, os)) = 0%nat /\ g_frees (uview_next uid w (e, os)) = 0%nat /\
    g_armed (uview_next uid w (e, os)) = None /\ g_acked (uview_next uid w (e, os)) = false).
  { intros w x Ha Hx W1 W2 W3 W4. destruct (uother_facts x uid os Ha ltac:(auto)) as (A & B & C & D & F & G).
    unfold uview_next, ucount. cbn [g_starts g_frees g_armed g_acked]. rewrite A, B, D, F, G, W1, W2, W3, W4. cbn [length orb Nat.add].
    split; [destruct e; auto|]. split; [auto|]. split; [|auto]. destruct e as [? ? ?|? ? ?|?|u|? ? ?|?]; auto. now destruct (u =? uid). }
  destruct Ht as [e u k c c' v' os Et Hu' Ec Ec' HT HQ Ek Ek'|b1 b2 tok v' os Hb -> ->|tok v' os Hl ->|u v' os Hl Hu' Hnl ->|u v' os Hl Hu' Hnl ->].
  - apply (G _ u); first [assumption|apply HQ|lia].
  - apply (G _ (uid + 1)); first [assumption|lia|repeat constructor].
  - apply (G _ (uid + 1)); first [assumption|lia|constructor].
  - apply (G _ (uid + 1)); first [assumption|lia|repeat constructor].
  - apply (G _ u); first [assumption|lia|repeat constructor].
Qed.

Lemma live_range b0 v tr uid : ureach b0 v tr -> ulive uid tr -> 1 <= uid <= 32.
Proof.
  intros HR HL. assert (D : 1 <= uid <= 32 \/ ~ 1 <= uid <= 32) by lia. destruct D as [|D]; [auto|].
  destruct (view_out uid tr b0 v HR D) as (A & B & _). unfold ulive in HL. lia.
Qed.
Lemma acked_live b0 v tr uid : ureach b0 v tr -> uacked uid tr -> ulive uid tr.
Proof.
  intros HR HA. assert (D : 1 <= uid <= 32 \/ ~ 1 <= uid <= 32) by lia. destruct D as [D|D].
  - destruct (conn_inv _ _ uid (reach_inv _ _ _ HR) D) as (c & _ & [_ _ S _] & _). unfold uacked in HA. unfold ulive. destruct (t_st c).
    + destruct S as (_ & _ & _ & _ & X & _). congruence.
    + tauto.
    + tauto.
  - destruct (view_out uid tr b0 v HR D) as (_ & _ & _ & B). unfold uacked in HA. congruence.
Qed.
Lemma acked_st uid c w : TOK uid c w -> (g_acked w = true <-> t_st c = UConn).
Proof.
  intros [_ _ S _]. destruct (t_st c).
  - destruct S as (_ & _ & _ & _ & X & _). split; congruence.
  - destruct S as (_ & _ & _ & _ & _ & X & _). split; congruence.
  - destruct S as (_ & _ & _ & _ & X & _). split; congruence.
Qed.
Lemma conn_chan uid c w : TOK uid c w -> t_chan c = g_chan w.
Proof.
  intros [_ _ S _]. destruct (t_st c).
  - destruct S as (_ & _ & X & Y & _). congruence.
  - destruct S as (_ & _ & _ & X & Y & _). congruence.
  - tauto.
Qed.

(** * Transmissions and forwarded messages *)

Section Step.
Variables (b0 : list Z) (v : tserver) (tr : utrace) (e : tev) (v' : tserver) (os : list uout).
Hypotheses (HR : ureach b0 v tr) (Hev : tev_ok e) (Hen : tsrv_enabled v e = true) (Hs : tsrv_step v e = Some (v', os)).

Lemma step_cases : 
  (exists uid c, 1 <= uid <= 32 /\ conn_of v uid = Some c /\ TOK uid c (uview_of uid tr) /\
     match e with
     | EvAccept _ _ _ => False
     | EvData u r w => u = uid /\
         ((t_st c = UInit /\ os = []) \/
          (t_st c = UHello /\ (os = [] \/ os = [UThrow] \/ os = [UDisarm uid; UFree uid] \/
             exists n, os = [UTx uid ack_packet n; UDisarm uid; UArm uid 30000000])) \/
          (t_st c = UConn /\ (os = [] \/ os = closing uid (t_chan c) \/
             exists k ch ck len d, os = [UFwd k uid ch ck len d; UArm uid 30000000] /\ (k <> KOpn -> t_chan c = Some ch))))
     | EvError u => u = uid /\ os = []
     | EvTimer u => u = uid /\ t_st c <> UInit /\ os = closing uid (match t_st c with UConn => t_chan c | _ => None end)
     | EvMsg k m w => um_conn m = uid /\ 
         ((t_st c <> UConn /\ os = []) \/
          (t_st c = UConn /\ ((exists n, (n <= length (packet_of k m))%nat /\ os = [UTx uid (packet_of k m) n] /\
                                 (k <> KOpn -> t_chan c = Some (um_chan m))) \/
             os = closing uid (match k with KOpn => Some (um_chan m) | _ => t_chan c end))))
     | EvRelease u => u = uid /\ os = if ust_eqb (t_st c) UConn then [UDisarm uid; UFree uid] else []
     end) \/
  (exists b1 b2 b3, e = EvAccept b1 b2 b3 /\
    ((b1 && b2 = false /\ os = [UThrow]) \/
     (b1 = true /\ b2 = true /\ (nlive (d_conn v) + utotal unotimer tr = 32)%nat /\ os = []) \/
     (b1 = true /\ b2 = true /\ (nlive (d_conn v) + utotal unotimer tr < 32)%nat /\
       exists uid, 1 <= uid <= 32 /\ ~ ulive uid tr /\ os = if b3 then [UArm uid 30000000] else [UThrow]))).
Proof.
  pose proof (reach_inv _ _ _ HR) as HI. destruct (step_inv _ _ _ _ _ HI Hev Hen Hs) as [_ Ht].
  destruct Ht as [e u k c c' v' os Et Hu' Ec Ec' HT HQ Ek Ek'|b1 b2 tok v' os Hb -> ->|tok v' os Hl ->|u v' os Hl Hu' Hnl ->|u v' os Hl Hu' Hnl ->].
  - left. exists u, c. split; [auto|]. split; [auto|]. split; [auto|].
    destruct e as [? ? ?|t r w|t|t|kd m w|t]; cbn [target] in Et; try discriminate Et; injection Et as Et; subst k; cbn beta in Ek.
    + split; [auto|]. apply (data_shape _ _ _ r w c' _ HT); [|exact Hev|exact Ek]. cbn in Hen. rewrite Et, Ec in Hen.
      destruct (t_link c) as [[|]|]; [auto| |]; rewrite andb_false_r in Hen; discriminate.
    + split; [auto|]. now apply some2 in Ek as (_ & <-).
    + split; [auto|]. assert (Hst : t_st c <> UInit).
      { intros E. destruct HT as [_ _ S _]. rewrite E in S. destruct S as (_ & S & _). cbn in Hen. rewrite Et, Ec, S, andb_false_r in Hen. discriminate. }
      split; [auto|]. exact (timer_shape _ _ _ _ _ HT Hst Ek).
    + split; [auto|]. exact (msg_shape _ _ _ _ _ _ _ _ HT Hev Ek).
    + split; [auto|]. exact (release_shape _ _ _ _ _ HT Ek).
  - right. exists b1, b2, tok. auto.
  - right. exists true, true, tok. split; [auto|]. right. left. auto.
  - right. exists true, true, false. split; [auto|]. right. right. eauto 8.
  - right. exists true, true, true. split; [auto|]. right. right. eauto 8.
Qed.

Lemma tx_facts uid pkt n : In (UTx uid pkt n) os ->
  ulive uid tr /\
  ((pkt = ack_packet /\ ~ uacked uid tr /\ exists r w, e = EvData uid r w) \/
   (exists k m w, e = EvMsg k m w /\ um_conn m = uid /\ umsg_ok m /\ uacked uid tr /\ pkt = packet_of k m /\ (n <= length pkt)%nat /\
      (k <> KOpn -> uchan uid tr = Some (um_chan m)))).
Proof.
  intros Hi. destruct step_cases as [(u & c & Hu & Ec & HT & Hc)|(b1 & b2 & b3 & _ & Hc)].
  - pose proof (acked_st _ _ _ HT) as HA. pose proof (conn_chan _ _ _ HT) as HC.
    destruct e as [? ? ?|t r w|t|t|kd m w|t].
    + contradiction.
    + destruct Hc as (-> & [(_ & ->)|[(Est & [->|[->|[->|(k & ->)]]])|(Est & [->|[->|(k & ch & ck & len & d & -> & _)]])]]); cbn in Hi; try intuition discriminate.
      * destruct Hi as [Hi|Hi]; [|intuition discriminate]. injection Hi as <- <- <-. split; [apply (live_iff _ _ _ HT); congruence|].
        left. split; [auto|]. split; [|eauto]. unfold uacked. rewrite HA. congruence.
      * unfold closing in Hi. destruct (t_chan c); cbn in Hi; intuition discriminate.
    + destruct Hc as (_ & ->). contradiction.
    + destruct Hc as (_ & _ & ->). unfold closing in Hi. destruct (match t_st c with UConn => t_chan c | _ => None end); cbn in Hi; intuition discriminate.
    + destruct Hc as (Hm & [(_ & ->)|(Est & [(k & Hk & -> & Hch)| ->])]).
      * contradiction.
      * destruct Hi as [Hi|[]]. injection Hi as E1 E2 E3. subst pkt n. rewrite <- E1. clear E1 uid. split; [apply (live_iff u c tr HT); congruence|].
        right. exists kd, m, w. split; [auto|]. split; [auto|]. split; [exact Hev|]. split; [now apply HA|]. split; [auto|]. split; [auto|].
        intros Hkd. unfold uchan. rewrite <- HC. auto.
      * unfold closing in Hi. destruct (match kd with KOpn => _ | _ => _ end); cbn in Hi; intuition discriminate.
    + destruct Hc as (_ & ->). destruct (ust_eqb (t_st c) UConn); cbn in Hi; intuition discriminate.
  - destruct Hc as [(_ & ->)|[(_ & _ & _ & ->)|(_ & _ & _ & u & _ & _ & ->)]]; [| |destruct b3]; cbn in Hi; intuition discriminate.
Qed.

Lemma fwd_facts k uid ch ck len d : In (UFwd k uid ch ck len d) os ->
  uacked uid tr /\ ulive uid tr /\ (k <> KOpn -> uchan uid tr = Some ch) /\ exists r w, e = EvData uid r w.
Proof.
  intros Hi. destruct step_cases as [(u & c & Hu & Ec & HT & Hc)|(b1 & b2 & b3 & _ & Hc)].
  - pose proof (acked_st _ _ _ HT) as HA. pose proof (conn_chan _ _ _ HT) as HC.
    destruct e as [? ? ?|t r w|t|t|kd m w|t].
    + contradiction.
    + destruct Hc as (-> & [(_ & ->)|[(Est & [->|[->|[->|(k' & ->)]]])|(Est & [->|[->|(k' & ch' & ck' & len' & d' & -> & Hch)]])]]); cbn in Hi; try intuition discriminate.
      * unfold closing in Hi. destruct (t_chan c); cbn in Hi; intuition discriminate.
      * destruct Hi as [Hi|Hi]; [|intuition discriminate]. injection Hi as -> -> -> -> -> ->.
        split; [now apply HA|]. split; [apply (live_iff _ _ _ HT); congruence|]. split; [|eauto]. unfold uchan. now rewrite <- HC.
    + destruct Hc as (_ & ->). contradiction.
    + destruct Hc as (_ & _ & ->). unfold closing in Hi. destruct (match t_st c with UConn => t_chan c | _ => None end); cbn in Hi; intuition discriminate.
    + destruct Hc as (Hm & [(_ & ->)|(Est & [(n & Hk & -> & Hch)| ->])]).
      * contradiction.
      * cbn in Hi; intuition discriminate.
      * unfold closing in Hi. destruct (match kd with KOpn => _ | _ => _ end); cbn in Hi; intuition discriminate.
    + destruct Hc as (_ & ->). destruct (ust_eqb (t_st c) UConn); cbn in Hi; intuition discriminate.
  - destruct Hc as [(_ & ->)|[(_ & _ & _ & ->)|(_ & _ & _ & u & _ & _ & ->)]]; [| |destruct b3]; cbn in Hi; intuition discriminate.
Qed.
End Step.

(** * Segmentation *)

Lemma bw_bw p h x y : (h + length x + length y <= length p)%nat ->
  buf_write (buf_write p h x) (h + length x) y = buf_write p h (x ++ y).
Proof.
  intros H. rewrite !bw_put. 
  assert (E : length (firstn h p ++ x) = (h + length x)%nat) by (rewrite app_length, firstn_length; lia).
  rewrite (app_assoc (firstn h p) x (skipn _ p)). rewrite firstn_app, E, Nat.sub_diag, firstn_O, app_nil_r, <- E, firstn_all.
  rewrite skipn_app, (skipn_all2 (firstn h p ++ x)) by lia. cbn [app]. rewrite E, skipn_skipn', app_length, <- !app_assoc.
  do 4 f_equal. lia.
Qed.

Lemma read_more c r b1 res : forall bs, r = RxBytes bs -> t_link c = Some true -> (k_head (t_rx c) <= 1024)%nat ->
  (length bs + k_head (t_rx c) <= length (k_pkt (t_rx c)))%nat ->
  b1 = mkSdu (k_tail (t_rx c)) (k_head (t_rx c) + length bs) (buf_write (k_pkt (t_rx c)) (k_head (t_rx c)) bs) ->
  res = (let n := Z.of_nat (k_head b1) in
         if n <? 8 then Some UrNoerror
         else match getMsgSizeFromHdr (skipn (k_tail b1) (k_pkt b1)) with
              | None => None
              | Some size => if n <? size then Some UrNoerror else if negb (n =? size) then Some UrError else Some UrDone
              end) ->
  u_receive c r = match res with Some x => Some (z_rx c b1, x) | None => None end.
Proof.
  intros bs -> Hk Hh Hl Hb Hr. unfold u_receive. destruct (Z.ltb_spec 1024 (Z.of_nat (k_head (t_rx c)))); [lia|].
  rewrite Hk. rewrite firstn_all2 by lia. rewrite <- Hb. subst res. cbv zeta. subst b1. cbn [k_head k_tail k_pkt].
  destruct (_ <? 8); [reflexivity|]. destruct (getMsgSizeFromHdr _) as [size|]; [|reflexivity].
  destruct (_ <? size); [reflexivity|]. destruct (negb _); reflexivity.
Qed.

(** Octets read so far do not matter for what the next read does. *)
Lemma receive_merge c x y : t_link c = Some true -> k_head (t_rx c) = 0%nat -> (length x <= 1024)%nat ->
  (length x + length y <= length (k_pkt (t_rx c)))%nat ->
  u_receive (z_rx c (mkSdu (k_tail (t_rx c)) (length x) (buf_write (k_pkt (t_rx c)) 0 x))) (RxBytes y) =
  u_receive c (RxBytes (x ++ y)).
Proof.
  intros Hk Hh Hx Hy.
  assert (Hl : length (buf_write (k_pkt (t_rx c)) 0 x) = length (k_pkt (t_rx c))) by (apply bw_length; lia).
  erewrite (read_more (z_rx c _) (RxBytes y)); [|reflexivity|tcbn; auto|tcbn; auto|tcbn; lia|reflexivity|reflexivity].
  erewrite (read_more c (RxBytes (x ++ y))); [|reflexivity|auto|lia|rewrite app_length; lia|reflexivity|reflexivity].
  tcbn. rewrite Hh, app_length. cbn [Nat.add].
  assert (E : buf_write (buf_write (k_pkt (t_rx c)) 0 x) (length x) y = buf_write (k_pkt (t_rx c)) 0 (x ++ y)) by (apply (bw_bw _ 0%nat); lia).
  rewrite E. reflexivity.
Qed.

Lemma data_merge uid c x y w : t_link c = Some true -> k_head (t_rx c) = 0%nat -> (length x <= 1024)%nat ->
  (length x + length y <= length (k_pkt (t_rx c)))%nat -> 
  t_st c <> UInit ->
  u_data uid (z_rx c (mkSdu (k_tail (t_rx c)) (length x) (buf_write (k_pkt (t_rx c)) 0 x))) (RxBytes y) w =
  u_data uid c (RxBytes (x ++ y)) w.
Proof.
  intros Hk Hh Hx Hy Hst. pose proof (receive_merge c x y Hk Hh Hx Hy) as E. unfold u_data. tcbn.
  destruct (t_st c); [congruence| |].
  - unfold u_hello. rewrite E. reflexivity.
  - unfold u_secured. rewrite E. tcbn. reflexivity.
Qed.

Ltac fb := repeat (apply Forall_cons; [assumption|]); apply Forall_nil.
(** The size field of a message at the start of the buffer. *)
Lemma size_prefix b m : (8 <= length m)%nat -> bytes_ok m ->
  getMsgSizeFromHdr (skipn 0 (buf_write b 0 m)) = Some (le_at 4 m).
Proof.
  intros H8 Hm. rewrite bw_put. cbn [firstn app skipn Nat.add].
  do 8 (destruct m as [|? m]; [cbn in H8; lia|]). unfold le_at. cbn [skipn firstn app].
  unfold bytes_ok in Hm. do 8 (apply Forall_cons_iff in Hm as [? Hm]).
  unfold getMsgSizeFromHdr, le32_at. cbn [nth_error Nat.add app]. f_equal. rewrite or32_val by assumption.
  unfold u32. apply Z.mod_small. apply (le_val_bound [z3; z4; z5; z6]). fb.
Qed.

Lemma wire_parts m : bytes_ok m -> (12 <= length m)%nat ->
  exists a b c f rest, m = [a; b; c] ++ [f] ++ le_bytes 4 (le_at 4 m) ++ le_bytes 4 (le_at 8 m) ++ rest /\
    skipn 12 m = rest /\ is_byte a /\ is_byte b /\ is_byte c /\ is_byte f /\ is_u32 (le_at 4 m) /\ is_u32 (le_at 8 m) /\ nth 3 m 0 = f /\
    firstn 3 m = [a; b; c].
Proof.
  intros Hm HL. do 12 (destruct m as [|? m]; [cbn in HL; lia|]). unfold bytes_ok in Hm. do 12 (apply Forall_cons_iff in Hm as [? Hm]).
  unfold le_at. cbn [skipn firstn].
  assert (F1 : bytes_ok [z3; z4; z5; z6]) by fb.
  assert (F2 : bytes_ok [z7; z8; z9; z10]) by fb.
  exists z, z0, z1, z2, m. pose proof (le_bytes_val _ F1) as E1. pose proof (le_bytes_val _ F2) as E2. cbn [length] in E1, E2. rewrite E1, E2.
  pose proof (le_val_bound _ F1). pose proof (le_val_bound _ F2). cbn [length] in *. unfold is_u32.
  change (256 ^ Z.of_nat 4) with 4294967296 in *.
  split; [reflexivity|]. split; [reflexivity|]. split; [assumption|]. split; [assumption|]. split; [assumption|]. split; [assumption|].
  split; [assumption|]. split; [assumption|]. split; reflexivity.
Qed.

Lemma kind_of_spec a b c r k : kind_of (a :: b :: c :: r) = Some k <-> [a; b; c] = kind_octets k.
Proof.
  unfold kind_of. destruct (Z.eqb_spec a 77), (Z.eqb_spec b 83), (Z.eqb_spec c 71), (Z.eqb_spec a 79), (Z.eqb_spec b 80), (Z.eqb_spec c 78),
    (Z.eqb_spec a 67), (Z.eqb_spec b 76), (Z.eqb_spec c 79); cbn [andb]; subst; try lia; destruct k; cbn; split; intros H; congruence.
Qed.

(** A packet of type [k], when exactly complete at the start of the buffer. *)
Lemma uhdr_at p m : bytes_ok m -> (12 <= length m)%nat -> (length m <= length p)%nat ->
  dec_uhdr uhdr0 (mkSdu 0 (length m) (buf_write p 0 m)) =
  DOk (mkUh (firstn 3 m) (nth 3 m 0) (le_at 4 m) (le_at 8 m)) (mkSdu 12 (length m) (buf_write p 0 m)).
Proof.
  intros Hm HL Hp. destruct (wire_parts m Hm HL) as (a & b & c & f & rest & Em & _ & A & B & C & F & S & Ch & N & T).
  assert (W : wf_uhdr (mkUh (firstn 3 m) (nth 3 m 0) (le_at 4 m) (le_at 8 m))).
  { unfold wf_uhdr. cbn [uh_type uh_final uh_size uh_chan]. rewrite T, N.
    split; [split; [fb|reflexivity]|]. repeat split; auto; unfold is_u32, is_byte in *; lia. }
  apply R_uhdr in W.
  assert (E : s_uhdr (mkUh (firstn 3 m) (nth 3 m 0) (le_at 4 m) (le_at 8 m)) = firstn 12 m).
  { unfold s_uhdr, s_1, s_4. cbn [uh_type uh_final uh_size uh_chan]. rewrite T, N.
    assert (E1 : le_bytes 1 f = [f]) by (cbn; f_equal; unfold is_byte in F; lia). rewrite E1.
    rewrite Em at 3. reflexivity. }
  rewrite E in W. specialize (W (mkSdu 0 (length m) (buf_write p 0 m))). cbn [k_tail k_head k_pkt Nat.add] in W.
  rewrite firstn_length, Nat.min_l in W by lia. apply W. apply holds_iff. exists (skipn 12 m ++ skipn (length m) p).
  cbn [k_pkt]. rewrite bw_put, firstn_O. cbn [app Nat.add skipn]. rewrite app_assoc, firstn_skipn. reflexivity.
Qed.

Lemma receive_done c m : length (k_pkt (t_rx c)) = pktLen -> t_link c = Some true -> k_head (t_rx c) = 0%nat -> k_tail (t_rx c) = 0%nat ->
  sized m -> (length m <= pktLen)%nat ->
  u_receive c (RxBytes m) = Some (z_rx c (mkSdu 0 (length m) (buf_write (k_pkt (t_rx c)) 0 m)), UrDone).
Proof.
  intros HL Hk Hh Ht (Hm & H8 & Hs) Hp.
  erewrite (read_more c (RxBytes m)); [|reflexivity|auto|lia|lia|reflexivity|reflexivity].
  cbv zeta. cbn [k_tail k_head k_pkt]. rewrite Hh, Ht. cbn [Nat.add].
  destruct (Z.ltb_spec (Z.of_nat (length m)) 8); [lia|]. rewrite size_prefix by auto. rewrite Hs.
  rewrite Z.ltb_irrefl, Z.eqb_refl. reflexivity.
Qed.

Lemma deliver uid c w m wr : TOK uid c w -> t_st c = UConn -> t_link c = Some true -> g_rx w = [] ->
  sized m -> (12 <= length m)%nat -> Z.of_nat (length m) <= 4072 ->
  exists c' os tail, u_data uid c (RxBytes m) wr = Some (c', os) /\ length tail = 12%nat /\ delivery uid (t_chan c) m tail os.
Proof.
  intros [HL HB HS HR] Est Hk Hrx Hsz H12 Hmax. pose proof pktLen_Z as PZ. rewrite Est in HS.
  destruct HS as (A1 & A2 & A3 & A4 & A5 & A6 & A7). specialize (HR ltac:(congruence)). rewrite Hrx in HR.
  destruct HR as (R1 & _ & _). rewrite firstn_nil in R1. cbn [length] in R1.
  pose proof Hsz as (Hm & _ & _).
  unfold u_data. rewrite Est. unfold u_secured. rewrite receive_done by (auto; lia). tcbn. rewrite uhdr_at by (auto; lia).
  cbn [uh_chan uh_final k_head k_tail k_pkt].
  set (tail := firstn 12 (skipn (length m) (k_pkt (t_rx c)))).
  assert (Ed : firstn (length m) (skipn 12 (buf_write (k_pkt (t_rx c)) 0 m)) = skipn 12 m ++ tail).
  { rewrite bw_put, firstn_O. cbn [app Nat.add]. rewrite skipn_app. replace (12 - length m)%nat with 0%nat by lia. rewrite skipn_O.
    rewrite firstn_app, skipn_length. rewrite firstn_all2 by (rewrite skipn_length; lia). unfold tail. do 2 f_equal. lia. }
  rewrite Ed.
  destruct (wire_parts m Hm H12) as (a & b & cc & f & rest & Em & _ & A & B & C & F & S & Ch & N & T).
  assert (Em3 : exists r, m = a :: b :: cc :: r) by (eexists; exact Em). destruct Em3 as [r3 Em3].
  assert (Ek : kind_of (buf_write (k_pkt (t_rx c)) 0 m) = kind_of m) by (rewrite bw_put, firstn_O, Em3; reflexivity).
  change (skipn 0 (buf_write (k_pkt (t_rx c)) 0 m)) with (buf_write (k_pkt (t_rx c)) 0 m). rewrite Ek.
  assert (Hty : forall k, has_type m k <-> kind_of m = Some k).
  { intros k. unfold has_type. rewrite T, Em3. symmetry. apply kind_of_spec. }
  assert (Ec : chunk_of (nth 3 m 0) = chunk_code (nth 3 m 0)).
  { rewrite N. unfold chunk_of, chunk_code. clear - F. unfold is_byte in F.
    destruct (Z.eqb_spec f 67) as [->|]; [reflexivity|]. destruct (Z.eqb_spec f 70) as [->|]; [reflexivity|]. destruct (Z.eqb_spec f 65) as [->|]; [reflexivity|].
    destruct f as [|q|q]; try reflexivity. do 7 (destruct q as [q|q|]; try reflexivity; try lia). }
  rewrite Ec.
  destruct (Z.ltb_spec msgRoom (Z.of_nat (length m))) as [X|_]; [unfold msgRoom in X; lia|].
  assert (Htail : length tail = 12%nat) by (unfold tail; rewrite firstn_length, skipn_length; lia).
  assert (Hfail : exists c', u_then (Some (z_rx c (mkSdu 12 (length m) (buf_write (k_pkt (t_rx c)) 0 m)), [])) (u_fail uid) =
     Some (c', closing uid (t_chan c))).
  { cbn [u_then]. erewrite fail_eq; [|tcbn; congruence|tcbn; eauto]. tcbn. eauto. }
  destruct Hfail as [cf Hfail].
  assert (Hfwd : forall k, exists c', u_then (Some (z_rx c (mkSdu 12 (length m) (buf_write (k_pkt (t_rx c)) 0 m)),
        [UFwd k uid (le_at 8 m) (chunk_code (nth 3 m 0)) (Z.of_nat (length m)) (skipn 12 m ++ tail)]))
      (fun c => match u_arm uid c with Some (c2, o2) => Some (z_rx c2 (sdu_reset (t_rx c2)), o2) | None => None end) =
     Some (c', [UFwd k uid (le_at 8 m) (chunk_code (nth 3 m 0)) (Z.of_nat (length m)) (skipn 12 m ++ tail); UArm uid 30000000])).
  { intros k. cbn [u_then]. unfold u_arm. tcbn. rewrite A2. eexists. reflexivity. }
  assert (Hnf : kind_of m = None -> delivery uid (t_chan c) m tail (closing uid (t_chan c))).
  { intros E. unfold delivery. repeat split; auto; intros *; rewrite ?Hty; congruence. }
  assert (Hok : forall k, kind_of m = Some k -> (k <> KOpn -> t_chan c = Some (le_at 8 m)) ->
    delivery uid (t_chan c) m tail [UFwd k uid (le_at 8 m) (chunk_code (nth 3 m 0)) (Z.of_nat (length m)) (skipn 12 m ++ tail); UArm uid 30000000]).
  { intros k E Hc. unfold delivery. cbv zeta. split; [rewrite Hty; congruence|]. split; [intros k' _; rewrite Hty; intros ? _; congruence|]. split.
    - intros k' Hn. rewrite Hty. intros E' Hne. exfalso. apply Hne, Hc. congruence.
    - intros Hn. exfalso. apply (Hn k). now apply Hty. }
  assert (Hko : forall k, kind_of m = Some k -> k <> KOpn -> t_chan c <> Some (le_at 8 m) ->
    delivery uid (t_chan c) m tail (closing uid (t_chan c))).
  { intros k E Hn Hc. unfold delivery. cbv zeta. split; [rewrite Hty; congruence|]. split; [intros k' _ _; congruence|]. split; [auto|].
    intros Hq. exfalso. apply (Hq k). now apply Hty. }
  destruct (kind_of m) as [[| |]|] eqn:Ekm.
  - destruct (t_chan c) as [ch|] eqn:Ech; [destruct (Z.eqb_spec ch (le_at 8 m)) as [->|Hne]|].
    + destruct (Hfwd KMsg) as [c' E]. eexists c', _, tail. split; [exact E|]. auto.
    + eexists cf, _, tail. split; [exact Hfail|]. split; [auto|]. apply (Hko KMsg); congruence.
    + eexists cf, _, tail. split; [exact Hfail|]. split; [auto|]. apply (Hko KMsg); congruence.
  - destruct (Hfwd KOpn) as [c' E]. eexists c', _, tail. split; [exact E|]. split; [auto|]. apply Hok; congruence.
  - destruct (t_chan c) as [ch|] eqn:Ech; [destruct (Z.eqb_spec ch (le_at 8 m)) as [->|Hne]|].
    + destruct (Hfwd KClo) as [c' E]. eexists c', _, tail. split; [exact E|]. auto.
    + eexists cf, _, tail. split; [exact Hfail|]. split; [auto|]. apply (Hko KClo); congruence.
    + eexists cf, _, tail. split; [exact Hfail|]. split; [auto|]. apply (Hko KClo); congruence.
  - eexists cf, _, tail. split; [exact Hfail|]. auto.
Qed.

(** More octets than the message has. *)
Lemma receive_over c m x : length (k_pkt (t_rx c)) = pktLen -> t_link c = Some true -> k_head (t_rx c) = 0%nat -> k_tail (t_rx c) = 0%nat ->
  sized m -> x <> [] -> (length m + length x <= pktLen)%nat ->
  exists c', u_receive c (RxBytes (m ++ x)) = Some (c', UrError) /\ t_st c' = t_st c /\ t_timer c' = t_timer c /\ t_chan c' = t_chan c.
Proof.
  intros HL Hk Hh Ht (Hm & H8 & Hs) Hx Hp.
  erewrite (read_more c (RxBytes (m ++ x))); [|reflexivity|auto|lia|rewrite app_length; lia|reflexivity|reflexivity].
  cbv zeta. cbn [k_tail k_head k_pkt]. rewrite Hh, Ht, app_length. cbn [Nat.add].
  assert (1 <= length x)%nat by (destruct x; [congruence|cbn; lia]).
  destruct (Z.ltb_spec (Z.of_nat (length m + length x)) 8); [lia|].
  assert (Eq : getMsgSizeFromHdr (skipn 0 (buf_write (k_pkt (t_rx c)) 0 (m ++ x))) = Some (le_at 4 m)).
  { rewrite <- (size_prefix (x ++ skipn (length m + length x) (k_pkt (t_rx c))) m) by auto.
    rewrite !bw_put. cbn [firstn app Nat.add skipn]. rewrite app_length, <- app_assoc.
    do 8 (destruct m as [|? m]; [cbn in H8; lia|]). reflexivity. }
  rewrite Eq, Hs. destruct (Z.ltb_spec (Z.of_nat (length m + length x)) (Z.of_nat (length m))); [lia|].
  destruct (Z.eqb_spec (Z.of_nat (length m + length x)) (Z.of_nat (length m))); [lia|]. cbn [negb]. eexists. split; [reflexivity|]. tcbn. auto.
Qed.

(** A connection that has received a proper prefix of a message waits. *)
Lemma receive_wait c m x y : length (k_pkt (t_rx c)) = pktLen -> t_link c = Some true -> k_head (t_rx c) = 0%nat -> k_tail (t_rx c) = 0%nat ->
  sized m -> m = x ++ y -> y <> [] -> (length x <= 1024)%nat ->
  u_receive c (RxBytes x) = Some (z_rx c (mkSdu 0 (length x) (buf_write (k_pkt (t_rx c)) 0 x)), UrNoerror).
Proof.
  intros HL Hk Hh Ht (Hm & H8 & Hs) Em Hy Hp. pose proof pktLen_Z as PZ.
  erewrite (read_more c (RxBytes x)); [|reflexivity|auto|lia|lia|reflexivity|reflexivity].
  cbv zeta. cbn [k_tail k_head k_pkt]. rewrite Hh, Ht. cbn [Nat.add].
  destruct (Z.ltb_spec (Z.of_nat (length x)) 8) as [|G8]; [reflexivity|].
  assert (1 <= length y)%nat by (destruct y; [congruence|cbn; lia]).
  rewrite size_prefix; [|lia|subst m; unfold bytes_ok in Hm; now apply Forall_app in Hm].
  assert (E : le_at 4 x = le_at 4 m).
  { subst m. unfold le_at. rewrite skipn_app, firstn_app. replace (4 - length (skipn 4 x))%nat with 0%nat by (rewrite skipn_length; lia).
    cbn [firstn]. now rewrite app_nil_r. }
  rewrite E, Hs, Em, app_length. destruct (Z.ltb_spec (Z.of_nat (length x)) (Z.of_nat (length x + length y))); [reflexivity|lia].
Qed.

Lemma data_wait uid c m x y wr : length (k_pkt (t_rx c)) = pktLen -> t_link c = Some true -> k_head (t_rx c) = 0%nat -> k_tail (t_rx c) = 0%nat ->
  t_st c <> UInit -> sized m -> m = x ++ y -> y <> [] -> (length x <= 1024)%nat ->
  u_data uid c (RxBytes x) wr = Some (z_rx c (mkSdu 0 (length x) (buf_write (k_pkt (t_rx c)) 0 x)), []).
Proof.
  intros HL Hk Hh Ht Hst Hs Em Hy Hx. pose proof (receive_wait c m x y HL Hk Hh Ht Hs Em Hy Hx) as E.
  unfold u_data. destruct (t_st c); [congruence| |].
  - unfold u_hello. rewrite E. reflexivity.
  - unfold u_secured. rewrite E. reflexivity.
Qed.

(** * From connections to the server *)

Lemma on_total v tr uid k c c' os : TInv v tr -> 1 <= uid <= 32 -> conn_of v uid = Some c -> k c = Some (c', os) -> UQ uid c c' os ->
  exists p', tsrv_on v uid k = Some (mkTs p' (upd (d_conn v) (Z.to_nat (uid - 1)) c'), os) /\
    (t_st c' <> UInit -> p' = d_pool v).
Proof.
  intros HI Hu Hc Hk [Q1 Q2 Q3]. destruct (conn_inv _ _ uid HI Hu) as (c2 & Hc2 & HT & En & Eg).
  assert (c2 = c) by congruence. subst c2. unfold tsrv_on. rewrite Eg, En, Hk, trelease_filter, Q2.
  pose proof HI as [S O T]. destruct c32 as (C1 & C2 & C3).
  pose proof (ust_spec (t_st c')) as U1. pose proof (ust_spec (t_st c)) as U2.
  destruct (ust_eqb (t_st c') UInit) eqn:E1, (ust_eqb (t_st c) UInit) eqn:E2; cbn [andb negb tsrv_release].
  - eexists. split; [reflexivity|congruence].
  - destruct (own_free _ _ _ C1 C2 _ _ _ _ _ c' O En) as (p2 & Ep & HO); [unfold uact; now rewrite E2|unfold uact; now rewrite E1|].
    replace (Z.of_nat (Z.to_nat (uid - 1)) + 1) with uid in Ep by lia. rewrite Ep. eexists. split; [reflexivity|congruence].
  - eexists. split; [reflexivity|auto].
  - eexists. split; [reflexivity|auto].
Qed.

Lemma upd_upd {A} (l : list A) i x y : upd (upd l i x) i y = upd l i y.
Proof. revert i. induction l as [|a l IH]; intros [|i]; cbn; auto. now rewrite IH. Qed.

Lemma live_boundary b0 v tr uid : ureach b0 v tr -> ulive uid tr -> uboundary uid tr ->
  1 <= uid <= 32 /\ exists c, conn_of v uid = Some c /\ TOK uid c (uview_of uid tr) /\
    nth_error (d_conn v) (Z.to_nat (uid - 1)) = Some c /\ pool_get (d_pool v) uid = Some (Z.to_nat (uid - 1)) /\
    t_st c <> UInit /\ k_head (t_rx c) = 0%nat /\ k_tail (t_rx c) = 0%nat.
Proof.
  intros HR HL HB. pose proof (live_range _ _ _ _ HR HL) as Hu. split; [auto|].
  destruct (conn_inv _ _ uid (reach_inv _ _ _ HR) Hu) as (c & Hc & HT & En & Eg). exists c.
  assert (Hst : t_st c <> UInit) by now apply (live_iff _ _ _ HT).
  split; [auto|]. split; [auto|]. split; [auto|]. split; [auto|]. split; [auto|].
  destruct HT as [_ _ _ R]. specialize (R Hst). unfold uboundary in HB. rewrite HB in R. destruct R as (R1 & _ & R3).
  rewrite firstn_nil in R1. auto.
Qed.

Lemma enabled_link v uid c r w : conn_of v uid = Some c -> tsrv_enabled v (EvData uid r w) = true -> t_link c = Some true.
Proof.
  intros Hc H. cbn in H. rewrite Hc in H. destruct (t_link c) as [[|]|]; auto; rewrite andb_false_r in H; discriminate.
Qed.

(** [v] with the octets [x] received on connection [uid] since the last boundary. *)
Definition got (v : tserver) (uid : Z) (x : list Z) : tserver :=
  match conn_of v uid with
  | Some c => mkTs (d_pool v) (upd (d_conn v) (Z.to_nat (uid - 1)) (z_rx c (mkSdu 0 (length x) (buf_write (k_pkt (t_rx c)) 0 x))))
  | None => v
  end.

Lemma upd_same {A} (l : list A) i x : nth_error l i = Some x -> upd l i x = l.
Proof. revert i. induction l as [|a l IH]; intros [|i] H; cbn in *; try congruence. now rewrite IH. Qed.

Section Segments.
Variables (b0 : list Z) (v : tserver) (tr : utrace) (uid : Z) (w : option nat).
Hypotheses (HR : ureach b0 v tr) (HL : ulive uid tr) (HB : uboundary uid tr)
  (Hen : tsrv_enabled v (EvData uid (RxBytes []) w) = true).

Lemma got_nil : got v uid [] = v.
Proof.
  destruct (live_boundary _ _ _ _ HR HL HB) as (Hu & c & Hc & HT & En & Eg & Hst & Hh & Ht).
  unfold got. rewrite Hc. 
  assert (E : z_rx c (mkSdu 0 (@length Z []) (buf_write (k_pkt (t_rx c)) 0 [])) = c).
  { destruct c as [st tm lk [t h p] ch]. tcbn. cbn [t_rx k_head k_tail] in Hh, Ht. subst. reflexivity. }
  rewrite E, upd_same by auto. now destruct v.
Qed.

Lemma got_step x y : (length x <= 1024)%nat -> (length (x ++ y) <= pktLen)%nat ->
  tsrv_step (got v uid x) (EvData uid (RxBytes y) w) = tsrv_step v (EvData uid (RxBytes (x ++ y)) w).
Proof.
  intros Hx Hy. destruct (live_boundary _ _ _ _ HR HL HB) as (Hu & c & Hc & HT & En & Eg & Hst & Hh & Ht).
  pose proof (enabled_link _ _ _ _ _ Hc Hen) as Hk. pose proof (to_len _ _ _ HT) as Hlen.
  unfold got. rewrite Hc. cbn [tsrv_step]. unfold tsrv_on. cbn [d_pool d_conn]. rewrite Eg, En.
  assert (Hlt : (Z.to_nat (uid - 1) < length (d_conn v))%nat) by (apply nth_error_Some; congruence).
  rewrite nth_error_upd_eq by auto. rewrite app_length in Hy.
  pose proof (data_merge uid c x y w Hk Hh Hx ltac:(lia) Hst) as Em. rewrite Ht in Em. rewrite Em.
  destruct (u_data uid c (RxBytes (x ++ y)) w) as [[c' os]|]; [|reflexivity].
  destruct (tsrv_release (d_pool v) os); [|reflexivity]. now rewrite upd_upd.
Qed.

Lemma got_wait m x y : sized m -> m = x ++ y -> y <> [] -> (length x <= 1024)%nat ->
  tsrv_step v (EvData uid (RxBytes x) w) = Some (got v uid x, []).
Proof.
  intros Hm Em Hy Hx. destruct (live_boundary _ _ _ _ HR HL HB) as (Hu & c & Hc & HT & En & Eg & Hst & Hh & Ht).
  pose proof (enabled_link _ _ _ _ _ Hc Hen) as Hk. pose proof (to_len _ _ _ HT) as Hlen.
  cbn [tsrv_step]. unfold tsrv_on, got. rewrite Eg, En, Hc.
  rewrite (data_wait uid c m x y w Hlen Hk Hh Ht Hst Hm Em Hy Hx). reflexivity.
Qed.

Lemma got_enabled x r : tsrv_enabled (got v uid x) (EvData uid r w) = true.
Proof.
  destruct (live_boundary _ _ _ _ HR HL HB) as (Hu & c & Hc & HT & En & Eg & Hst & Hh & Ht).
  pose proof (enabled_link _ _ _ _ _ Hc Hen) as Hk.
  assert (Hlt : (Z.to_nat (uid - 1) < length (d_conn v))%nat) by (apply nth_error_Some; congruence).
  unfold got. rewrite Hc. cbn. unfold conn_of. cbn [d_pool d_conn]. rewrite Eg, nth_error_upd_eq by auto. tcbn. rewrite Hk.
  destruct (Z.leb_spec 1 uid); [|lia]. destruct (Z.ltb_spec uid 33); [|lia]. auto.
Qed.

Lemma segments_run m y segs : sized m -> y <> [] -> forall x tr1,
  m = x ++ concat segs ++ y -> (length (x ++ concat segs) <= 1024)%nat -> ureach b0 (got v uid x) tr1 ->
  tsrv_run (got v uid x) (reads_of uid w segs) = Some (got v uid (x ++ concat segs), map (fun e => (e, [])) (reads_of uid w segs)) /\
  ureach b0 (got v uid (x ++ concat segs)) (tr1 ++ map (fun e => (e, [])) (reads_of uid w segs)).
Proof.
  intros Hm Hy. pose proof pktLen_Z as PZ. induction segs as [|s segs IH]; intros x tr1 Em Hl Hr; cbn [concat reads_of map tsrv_run app] in *.
  - rewrite !app_nil_r. auto.
  - assert (Hl2 : (length ((x ++ s) ++ concat segs) <= 1024)%nat) by (rewrite <- app_assoc; exact Hl).
    assert (Hxs : (length (x ++ s) <= 1024)%nat) by (rewrite app_length in Hl2; lia).
    assert (Es : tsrv_step (got v uid x) (EvData uid (RxBytes s) w) = Some (got v uid (x ++ s), [])).
    { rewrite got_step; [|rewrite app_length in Hxs; lia|lia].
      apply (got_wait m (x ++ s) (concat segs ++ y)); auto; [now rewrite Em, !app_assoc|].
      intros E. apply app_eq_nil in E as [_ E]. auto. }
    rewrite Es. rewrite app_assoc.
    assert (Hb : bytes_ok s). { destruct Hm as (Hm & _ & _). subst m. unfold bytes_ok in *. rewrite !Forall_app in Hm. tauto. }
    destruct (IH (x ++ s) (tr1 ++ [(EvData uid (RxBytes s) w, [])])) as [I1 I2].
    + now rewrite Em, <- !app_assoc.
    + exact Hl2.
    + eapply ur_step; eauto. now apply got_enabled.
    + rewrite <- (app_assoc tr1) in I2. split; [|exact I2]. unfold reads_of in *. rewrite I1. reflexivity.
Qed.

Theorem segments m segs y : sized m -> Z.of_nat (length m) <= 4096 -> m = concat segs ++ y -> y <> [] -> Z.of_nat (length (concat segs)) <= 1024 ->
  exists v1, tsrv_run v (reads_of uid w segs) = Some (v1, map (fun e => (e, [])) (reads_of uid w segs)) /\
    ureach b0 v1 (tr ++ map (fun e => (e, [])) (reads_of uid w segs)) /\
    tsrv_enabled v1 (EvData uid (RxBytes y) w) = true /\
    forall z, Z.of_nat (length (m ++ z)) <= 4096 ->
      tsrv_step v1 (EvData uid (RxBytes (y ++ z)) w) = tsrv_step v (EvData uid (RxBytes (m ++ z)) w).
Proof.
  intros Hm Hmax Em Hy Hl. pose proof pktLen_Z as PZ.
  destruct (segments_run m y segs Hm Hy [] tr) as [R1 R2]; cbn [app]; auto; [lia|now rewrite got_nil|].
  rewrite got_nil in R1. cbn [app] in R1, R2. exists (got v uid (concat segs)). split; [exact R1|]. split; [exact R2|].
  split; [apply got_enabled|]. intros z Hz.
  rewrite got_step; [now rewrite Em, app_assoc|lia|]. rewrite app_assoc, <- Em. lia.
Qed.

(** Octets after a complete message end the connection. *)
Theorem trailing m z : sized m -> bytes_ok z -> z <> [] -> Z.of_nat (length (m ++ z)) <= 4096 ->
  exists v', tsrv_step v (EvData uid (RxBytes (m ++ z)) w) = Some (v', closing uid (uchan uid tr)).
Proof.
  intros Hm Hzb Hz Hmax. pose proof pktLen_Z as PZ. destruct (live_boundary _ _ _ _ HR HL HB) as (Hu & c & Hc & HT & En & Eg & Hst & Hh & Ht).
  pose proof (enabled_link _ _ _ _ _ Hc Hen) as Hk. pose proof (to_len _ _ _ HT) as Hlen. rewrite app_length in Hmax.
  destruct (receive_over c m z Hlen Hk Hh Ht Hm Hz) as (c1 & Er & S1 & S2 & S3); [lia|].
  pose proof (conn_chan _ _ _ HT) as HC.
  assert (Hd : u_data uid c (RxBytes (m ++ z)) w = Some (mkT UInit None None (t_rx c1) None, closing uid (uchan uid tr))).
  { unfold u_data, uchan. rewrite <- HC. destruct HT as [_ _ S _]. destruct (t_st c) eqn:Est; [congruence| |].
    - unfold u_hello. rewrite Er. cbn [u_then]. destruct S as (_ & S & _ & X & _). erewrite tr_init; [|congruence|rewrite S2; eauto].
      rewrite X. reflexivity.
    - unfold u_secured. rewrite Er. cbn [u_then]. destruct S as (_ & S & _). erewrite fail_eq; [|congruence|rewrite S2; eauto].
      rewrite S3. reflexivity. }
  assert (Hlr : lrx_ok (RxBytes (m ++ z))). { destruct Hm as (Hm & _). cbn. apply Forall_app. auto. }
  destruct (data_step _ _ _ _ _ _ _ HT Hk Hlr Hd) as [_ HQ].
  destruct (on_total v tr uid (fun c => u_data uid c (RxBytes (m ++ z)) w) c _ _ (reach_inv _ _ _ HR) Hu Hc Hd HQ) as (p' & E & _).
  cbn [tsrv_step]. eauto.
Qed.

Theorem delivered m : uacked uid tr -> sized m -> (12 <= length m)%nat -> Z.of_nat (length m) <= 4072 ->
  exists v' os tail, tsrv_step v (EvData uid (RxBytes m) w) = Some (v', os) /\ length tail = 12%nat /\ delivery uid (uchan uid tr) m tail os.
Proof.
  intros HA Hm H12 Hmax. destruct (live_boundary _ _ _ _ HR HL HB) as (Hu & c & Hc & HT & En & Eg & Hst & Hh & Ht).
  pose proof (enabled_link _ _ _ _ _ Hc Hen) as Hk. pose proof (conn_chan _ _ _ HT) as HC.
  assert (Est : t_st c = UConn) by (apply (acked_st _ _ _ HT); exact HA).
  destruct (deliver uid c _ m w HT Est Hk HB Hm H12 Hmax) as (c' & os & tail & E & Ht' & D).
  assert (Hlr : lrx_ok (RxBytes m)) by (destruct Hm as (Hm & _); exact Hm).
  destruct (data_step _ _ _ _ _ _ _ HT Hk Hlr E) as [_ HQ].
  destruct (on_total v tr uid (fun c => u_data uid c (RxBytes m) w) c _ _ (reach_inv _ _ _ HR) Hu Hc E HQ) as (p' & E2 & _).
  cbn [tsrv_step]. unfold uchan. rewrite <- HC. eauto 6.
Qed.
End Segments.

(** More than 1024 octets without a complete message: the next data ends the connection. *)
Theorem backlog b0 v tr uid r w : ureach b0 v tr -> ulive uid tr -> 1024 < Z.of_nat (length (g_rx (uview_of uid tr))) ->
  tsrv_enabled v (EvData uid r w) = true -> tev_ok (EvData uid r w) ->
  exists v', tsrv_step v (EvData uid r w) = Some (v', closing uid (uchan uid tr)).
Proof.
  intros HR HL Hb Hen Hok. pose proof (live_range _ _ _ _ HR HL) as Hu. pose proof pktLen_Z as PZ.
  destruct (conn_inv _ _ uid (reach_inv _ _ _ HR) Hu) as (c & Hc & HT & En & Eg).
  assert (Hst : t_st c <> UInit) by now apply (live_iff _ _ _ HT).
  pose proof (enabled_link _ _ _ _ _ Hc Hen) as Hk. pose proof (conn_chan _ _ _ HT) as HC.
  assert (Er : u_receive c r = Some (c, UrError)).
  { unfold u_receive. destruct HT as [_ _ _ R]. destruct (R Hst) as (R1 & _). rewrite firstn_length in R1.
    destruct (Z.ltb_spec 1024 (Z.of_nat (k_head (t_rx c)))); [reflexivity|lia]. }
  assert (Hd : u_data uid c r w = Some (mkT UInit None None (t_rx c) None, closing uid (uchan uid tr))).
  { unfold u_data, uchan. rewrite <- HC. destruct HT as [_ _ S _]. destruct (t_st c) eqn:Est; [congruence| |].
    - unfold u_hello. rewrite Er. cbn [u_then]. destruct S as (_ & S & _ & X & _). erewrite tr_init; [|congruence|eauto].
      rewrite X. reflexivity.
    - unfold u_secured. rewrite Er. cbn [u_then]. destruct S as (_ & S & _). erewrite fail_eq; [|congruence|eauto]. reflexivity. }
  destruct (data_step _ _ _ _ _ _ _ HT Hk Hok Hd) as [_ HQ].
  destruct (on_total v tr uid (fun c => u_data uid c r w) c _ _ (reach_inv _ _ _ HR) Hu Hc Hd HQ) as (p' & E & _).
  cbn [tsrv_step]. eauto.
Qed.

(** * Lifecycle *)

Theorem conn_counts b0 v tr uid : ureach b0 v tr ->
  (g_starts (uview_of uid tr) = g_frees (uview_of uid tr) \/ ulive uid tr) /\
  (ulive uid tr -> 1 <= uid <= 32 /\ g_armed (uview_of uid tr) = Some 30000000) /\
  (~ ulive uid tr -> g_armed (uview_of uid tr) = None).
Proof.
  intros HR. assert (D : 1 <= uid <= 32 \/ ~ 1 <= uid <= 32) by lia. destruct D as [D|D].
  - destruct (conn_inv _ _ uid (reach_inv _ _ _ HR) D) as (c & _ & HT & _). pose proof (live_iff _ _ _ HT) as L.
    destruct HT as [_ _ S _]. destruct (t_st c).
    + destruct S as (A & _ & _ & _ & _ & E). split; [auto|]. split; [|auto]. intros X. apply L in X. congruence.
    + destruct S as (A & _ & _ & _ & _ & _ & E). split; [auto|]. split; [auto|]. intros X. exfalso. apply X, L. congruence.
    + destruct S as (A & _ & _ & _ & _ & E & _). split; [auto|]. split; [auto|]. intros X. exfalso. apply X, L. congruence.
  - destruct (view_out uid tr b0 v HR D) as (A & B & C & E). split; [left; congruence|]. split; [|auto].
    intros X. unfold ulive in X. lia.
Qed.

Theorem total_counts b0 v tr : ureach b0 v tr ->
  (utotal ufrees tr <= utotal ustarts tr)%nat /\ (utotal ustarts tr - utotal ufrees tr + utotal unotimer tr <= 32)%nat.
Proof.
  intros HR. destruct (reach_inv _ _ _ HR) as [_ O T]. destruct c32 as (C1 & C2 & C3).
  pose proof (own_bound _ _ _ C1 C2 _ _ _ O). lia.
Qed.

Theorem accept_total b0 v tr tok : ureach b0 v tr -> exists v' os, tsrv_step v (EvAccept true true tok) = Some (v', os) /\
  ((utotal ustarts tr - utotal ufrees tr + utotal unotimer tr = 32)%nat /\ os = [] \/
   (utotal ustarts tr - utotal ufrees tr + utotal unotimer tr < 32)%nat /\
     exists uid, 1 <= uid <= 32 /\ ~ ulive uid tr /\ os = if tok then [UArm uid 30000000] else [UThrow]).
Proof.
  intros HR. pose proof (reach_inv _ _ _ HR) as HI.
  assert (Hd : exists v' os, tsrv_step v (EvAccept true true tok) = Some (v', os)).
  { destruct HI as [S O T]. destruct c32 as (C1 & C2 & C3). cbn [tsrv_step andb negb].
    destruct (own_alloc _ _ _ C1 C2 _ _ _ O) as [(Hf & p' & Ep & O')|(Hf & p' & i & c & Ep & En & Ha & O1 & O2 & Eg)]; rewrite Ep.
    - eauto.
    - assert (Hlt : (i < 32)%nat) by (rewrite <- (own_len _ _ _ _ _ _ O); apply nth_error_Some; congruence).
      unfold tsrv_on. cbn [d_pool d_conn]. rewrite Eg, (own_get _ _ _ C1 C2 C3 _ _ _ _ O) by lia. change (Z.of_nat 32) with 32.
      destruct (Z.leb_spec 1 (Z.of_nat i + 1)); [|lia]. destruct (Z.leb_spec (Z.of_nat i + 1) 32); [|lia]. cbn [andb].
      replace (Z.to_nat (Z.of_nat i + 1 - 1)) with i by lia. rewrite En.
      assert (Hini : t_st c = UInit) by (pose proof (uact_spec c) as X; now rewrite Ha in X).
      unfold u_accept. rewrite Hini. destruct tok; cbn [negb].
      + rewrite tr_hello by (tcbn; auto). cbn [tsrv_release]. eauto.
      + cbn [tsrv_release]. eauto. }
  destruct Hd as (v' & os & E). exists v', os. split; [exact E|].
  assert (T : (utotal ustarts tr - utotal ufrees tr = nlive (d_conn v))%nat) by (destruct HI; lia). rewrite T.
  destruct (step_cases b0 v tr (EvAccept true true tok) v' os HR I eq_refl E) as [(u & c & _ & _ & _ & [])|(b1 & b2 & b3 & Eq & Hc)].
  injection Eq as <- <- <-. destruct Hc as [(X & _)|[(_ & _ & A & B)|(_ & _ & A & B)]]; [discriminate|auto|auto].
Qed.

Theorem timer_total b0 v tr uid : ureach b0 v tr -> ulive uid tr ->
  tsrv_enabled v (EvTimer uid) = true /\
  exists v', tsrv_step v (EvTimer uid) = Some (v', closing uid (uchan uid tr)).
Proof.
  intros HR HL. pose proof (live_range _ _ _ _ HR HL) as Hu.
  destruct (conn_inv _ _ uid (reach_inv _ _ _ HR) Hu) as (c & Hc & HT & En & Eg).
  assert (Hst : t_st c <> UInit) by now apply (live_iff _ _ _ HT). pose proof (conn_chan _ _ _ HT) as HC.
  assert (Ht : t_timer c = Some (Some uaTimeout)). { destruct HT as [_ _ S _]. destruct (t_st c); [congruence|tauto|tauto]. }
  split.
  - cbn. rewrite Hc, Ht. destruct (Z.leb_spec 1 uid); [|lia]. destruct (Z.ltb_spec uid 33); [|lia]. auto.
  - assert (Hd : u_timer uid c = Some (mkT UInit None None (t_rx c) None, closing uid (uchan uid tr))).
    { unfold u_timer, uchan. rewrite <- HC, Ht. tcbn. destruct (t_st c) eqn:Est; [congruence| |].
      - erewrite tr_init; [|tcbn; congruence|tcbn; reflexivity]. tcbn. destruct HT as [_ _ S _]. rewrite Est in S.
        destruct S as (_ & _ & _ & X & _). rewrite X. reflexivity.
      - erewrite fail_eq; [|tcbn; congruence|tcbn; reflexivity]. reflexivity. }
    destruct (timer_step _ _ _ _ _ HT (ex_intro _ _ Ht) Hd) as (_ & HQ & _).
    destruct (on_total v tr uid (fun c => u_timer uid c) c _ _ (reach_inv _ _ _ HR) Hu Hc Hd HQ) as (p' & E & _). cbn [tsrv_step]. eauto.
Qed.

Theorem release_total b0 v tr uid : ureach b0 v tr -> uacked uid tr ->
  exists v', tsrv_step v (EvRelease uid) = Some (v', [UDisarm uid; UFree uid]).
Proof.
  intros HR HA. pose proof (acked_live _ _ _ _ HR HA) as HL. pose proof (live_range _ _ _ _ HR HL) as Hu.
  destruct (conn_inv _ _ uid (reach_inv _ _ _ HR) Hu) as (c & Hc & HT & En & Eg).
  assert (Est : t_st c = UConn) by (apply (acked_st _ _ _ HT); exact HA).
  assert (Ht : t_timer c = Some (Some uaTimeout)). { destruct HT as [_ _ S _]. rewrite Est in S. tauto. }
  assert (Hd : u_release uid c = Some (mkT UInit None None (t_rx c) None, [UDisarm uid; UFree uid])).
  { unfold u_release. rewrite Est. erewrite tr_init; [|congruence|eauto]. reflexivity. }
  destruct (release_step _ _ _ _ _ HT Hd) as (_ & HQ).
  destruct (on_total v tr uid (fun c => u_release uid c) c _ _ (reach_inv _ _ _ HR) Hu Hc Hd HQ) as (p' & E & _). cbn [tsrv_step]. eauto.
Qed.

Theorem readerr_total b0 v tr uid w : ureach b0 v tr -> ulive uid tr -> tsrv_enabled v (EvData uid RxErr w) = true ->
  exists v', tsrv_step v (EvData uid RxErr w) = Some (v', closing uid (uchan uid tr)).
Proof.
  intros HR HL Hen. pose proof (live_range _ _ _ _ HR HL) as Hu.
  destruct (conn_inv _ _ uid (reach_inv _ _ _ HR) Hu) as (c & Hc & HT & En & Eg).
  assert (Hst : t_st c <> UInit) by now apply (live_iff _ _ _ HT).
  pose proof (enabled_link _ _ _ _ _ Hc Hen) as Hk. pose proof (conn_chan _ _ _ HT) as HC.
  assert (Er : u_receive c RxErr = Some (c, UrError)).
  { unfold u_receive. rewrite Hk. now destruct (_ <? _). }
  assert (Hd : u_data uid c RxErr w = Some (mkT UInit None None (t_rx c) None, closing uid (uchan uid tr))).
  { unfold u_data, uchan. rewrite <- HC. destruct HT as [_ _ S _]. destruct (t_st c) eqn:Est; [congruence| |].
    - unfold u_hello. rewrite Er. cbn [u_then]. destruct S as (_ & S & _ & X & _). erewrite tr_init; [|congruence|eauto].
      rewrite X. reflexivity.
    - unfold u_secured. rewrite Er. cbn [u_then]. destruct S as (_ & S & _). erewrite fail_eq; [|congruence|eauto]. reflexivity. }
  destruct (data_step _ _ _ RxErr _ _ _ HT Hk I Hd) as [_ HQ].
  destruct (on_total v tr uid (fun c => u_data uid c RxErr w) c _ _ (reach_inv _ _ _ HR) Hu Hc Hd HQ) as (p' & E & _).
  cbn [tsrv_step]. eauto.
Qed.

(** An id lost to a failed accept is never seen again. *)
Lemma notimer_mono tr x : (utotal unotimer tr <= utotal unotimer (tr ++ [x]))%nat.
Proof. rewrite utotal_snoc. lia. Qed.

(** * Checked runs *)
Fixpoint trun (v : tserver) (es : list tev) : option (tserver * utrace) :=
  match es with
  | [] => Some (v, [])
  | e :: r =>
      if tsrv_enabled v e then
        match tsrv_step v e with
        | None => None
        | Some (v1, os) => match trun v1 r with
                           | None => None
                           | Some (v2, tr) => Some (v2, (e, os) :: tr)
                           end
        end
      else None
  end.
Lemma trun_reach b0 es : forall v tr v' tr', ureach b0 v tr -> Forall tev_ok es -> trun v es = Some (v', tr') ->
  ureach b0 v' (tr ++ tr').
Proof.
  induction es as [|e es IH]; intros v tr v' tr' HR Hok H; cbn [trun] in H.
  - apply some2 in H as (<- & <-). now rewrite app_nil_r.
  - apply Forall_cons_iff in Hok as [He Hok]. destruct (tsrv_enabled v e) eqn:Ee; [|discriminate].
    destruct (tsrv_step v e) as [[v1 os]|] eqn:Es; [|discriminate].
    destruct (trun v1 es) as [[v2 tr2]|] eqn:Er; [|discriminate]. apply some2 in H as (<- & <-).
    change ((e, os) :: tr2) with ([(e, os)] ++ tr2). rewrite app_assoc. eapply IH; eauto. eapply ur_step; eauto.
Qed.
Definition tstart (o : option tserver) (es : list tev) : option (tserver * utrace) :=
  match o with Some v => trun v es | None => None end.
Lemma tstart_reach b0 o es v tr : umem_ok b0 -> Forall tev_ok es -> tsrv_new maxConn b0 = o ->
  tstart o es = Some (v, tr) -> ureach b0 v tr.
Proof.
  intros Hm Hok E H. destruct o as [v0|]; [|discriminate]. cbn [tstart] in H.
  change tr with ([] ++ tr). eapply trun_reach; eauto. now apply ur_new.
Qed.
Definition octetsb (bs : list Z) : bool := forallb (fun b => (0 <=? b) && (b <? 256)) bs.
Definition u32b (z : Z) : bool := (0 <=? z) && (z <? 4294967296).
Definition tev_okb (e : tev) : bool :=
  match e with
  | EvData _ (RxBytes bs) _ => octetsb bs
  | EvMsg _ m _ => u32b (um_conn m) && u32b (um_chan m) && ((0 <=? um_chunk m) && (um_chunk m <? 256)) &&
      ((0 <=? um_len m) && (um_len m <=? 4072)) && octetsb (um_data m) && (um_len m <=? Z.of_nat (length (um_data m)))
  | EvRelease u => u32b u
  | _ => true
  end.
Lemma octetsb_ok bs : octetsb bs = true -> bytes_ok bs.
Proof. intros H. apply Forall_forall. intros x Hx. eapply forallb_forall in H; eauto. unfold is_byte. lia. Qed.
Lemma tev_okb_ok es : forallb tev_okb es = true -> Forall tev_ok es.
Proof.
  intros H. apply Forall_forall. intros e He. eapply forallb_forall in H; eauto.
  destruct e as [? ? ?|u [| |bs] w|u|u|k m w|u]; cbn [tev_ok tev_okb] in *; auto.
  - now apply octetsb_ok.
  - repeat (apply andb_prop in H as [H ?]). unfold umsg_ok, is_u32, is_byte, u32b in *.
    repeat match goal with |- _ /\ _ => split end; try lia. now apply octetsb_ok.
  - unfold u32b in H. unfold is_u32. lia.
Qed.
Lemma trun_combine es : forall v v' tr, trun v es = Some (v', tr) -> tr = combine es (map snd tr).
Proof.
  induction es as [|e es IH]; intros v v' tr H; cbn [trun] in H.
  - apply some2 in H as (<- & <-). reflexivity.
  - destruct (tsrv_enabled v e); [|discriminate]. destruct (tsrv_step v e) as [[v1 os]|]; [|discriminate].
    destruct (trun v1 es) as [[v2 tr2]|] eqn:Er; [|discriminate]. apply some2 in H as (_ & <-).
    cbn [map snd combine]. f_equal. eapply IH; eauto.
Qed.
Definition touts_of (o : option (tserver * utrace)) : option (list (list uout)) :=
  match o with Some (_, tr) => Some (map snd tr) | None => None end.
Notation uouts b0 es := (touts_of (tstart (tsrv_new maxConn b0) es)).
Lemma touts_inv o es oss : touts_of (tstart o es) = Some oss ->
  exists v tr, tstart o es = Some (v, tr) /\ tr = combine es oss.
Proof.
  destruct o as [v0|]; [|discriminate]. cbn [tstart]. destruct (trun v0 es) as [[v tr]|] eqn:E; [|discriminate].
  cbn [touts_of]. intros H. injection H as <-. exists v, tr. split; [reflexivity|]. eapply trun_combine; eauto.
Qed.
Lemma touts_reach b0 o es oss : umem_ok b0 -> forallb tev_okb es = true -> tsrv_new maxConn b0 = o ->
  touts_of (tstart o es) = Some oss -> exists v, ureach b0 v (combine es oss).
Proof.
  intros Hm Hok Eo H. apply touts_inv in H as (v & tr & E & ->). exists v.
  apply (tstart_reach b0 o es v _ Hm (tev_okb_ok es Hok)); auto.
Qed.
Lemma uouts_reach b0 es oss : umem_ok b0 -> forallb tev_okb es = true -> uouts b0 es = Some oss ->
  exists v, ureach b0 v (combine es oss).
Proof. intros Hm Hok H. exact (touts_reach b0 _ es oss Hm Hok eq_refl H). Qed.
Lemma ureach_snoc b0 v tr e os : ureach b0 v (tr ++ [(e, os)]) ->
  exists v0, ureach b0 v0 tr /\ tev_ok e /\ tsrv_enabled v0 e = true /\ tsrv_step v0 e = Some (v, os).
Proof.
  intros H. inversion H as [v0 _ _ E|v0 tr0 e0 v1 os0 R He Hen Hs E1 E2].
  - destruct tr; discriminate.
  - apply app_inj_tail in E2 as [-> E2]. injection E2 as -> ->. eauto.
Qed.
Lemma uouts_last b0 es oss e os : umem_ok b0 -> forallb tev_okb (es ++ [e]) = true -> length es = length oss ->
  uouts b0 (es ++ [e]) = Some (oss ++ [os]) ->
  exists v v', ureach b0 v (combine es oss) /\ tev_ok e /\ tsrv_enabled v e = true /\ tsrv_step v e = Some (v', os).
Proof.
  intros Hm Hok Hl H. apply uouts_reach in H as [v' R]; [|auto|auto].
  assert (E : combine (es ++ [e]) (oss ++ [os]) = combine es oss ++ [(e, os)]).
  { clear - Hl. revert oss Hl. induction es as [|x es IH]; intros [|y oss] Hl; try discriminate; [reflexivity|].
    cbn. f_equal. apply IH. now injection Hl. }
  rewrite E in R. apply ureach_snoc in R as (v & R & A & B & C). eauto 6.
Qed.

(** * Definedness *)
Lemma uhdr_any p h : bytes_ok p -> (12 <= length p)%nat -> exists hd, dec_uhdr uhdr0 (mkSdu 0 h p) = DOk hd (mkSdu 12 h p).
Proof.
  intros Hp HL. destruct (wire_parts p Hp HL) as (a & b & c & f & rest & Em & _ & A & B & C & F & S & Ch & N & T).
  assert (W : wf_uhdr (mkUh (firstn 3 p) (nth 3 p 0) (le_at 4 p) (le_at 8 p))).
  { unfold wf_uhdr. cbn [uh_type uh_final uh_size uh_chan]. rewrite T, N.
    split; [split; [fb|reflexivity]|]. repeat split; auto; unfold is_u32, is_byte in *; lia. }
  apply R_uhdr in W.
  assert (E : s_uhdr (mkUh (firstn 3 p) (nth 3 p 0) (le_at 4 p) (le_at 8 p)) = firstn 12 p).
  { unfold s_uhdr, s_1, s_4. cbn [uh_type uh_final uh_size uh_chan]. rewrite T, N.
    assert (E1 : le_bytes 1 f = [f]) by (cbn; f_equal; unfold is_byte in F; lia). rewrite E1.
    rewrite Em at 3. reflexivity. }
  rewrite E in W. specialize (W (mkSdu 0 h p)). cbn [k_tail k_head k_pkt Nat.add] in W.
  rewrite firstn_length, Nat.min_l in W by lia. eexists. apply W. apply holds_iff. exists (skipn 12 p).
  cbn [k_pkt]. rewrite skipn_O, firstn_skipn. reflexivity.
Qed.

Lemma size_defined p : bytes_ok p -> (8 <= length p)%nat -> exists z, getMsgSizeFromHdr (skipn 0 p) = Some z.
Proof.
  intros _ H. rewrite skipn_O. do 8 (destruct p as [|? p]; [cbn in H; lia|]). unfold getMsgSizeFromHdr, le32_at. cbn. eauto.
Qed.

Theorem data_defined b0 v tr uid r w : ureach b0 v tr -> uacked uid tr -> tev_ok (EvData uid r w) ->
  tsrv_enabled v (EvData uid r w) = true ->
  Z.of_nat (length (g_rx (uview_of uid tr)) + match r with RxBytes bs => length bs | _ => 0 end) <= 4072 ->
  exists v' os, tsrv_step v (EvData uid r w) = Some (v', os).
Proof.
  intros HR HA Hok Hen Hmax. pose proof pktLen_Z as PZ. pose proof (acked_live _ _ _ _ HR HA) as HL. pose proof (live_range _ _ _ _ HR HL) as Hu.
  destruct (conn_inv _ _ uid (reach_inv _ _ _ HR) Hu) as (c & Hc & HT & En & Eg).
  assert (Est : t_st c = UConn) by (apply (acked_st _ _ _ HT); exact HA).
  pose proof (enabled_link _ _ _ _ _ Hc Hen) as Hk. pose proof HT as [Hlen Hbytes S Rx]. rewrite Est in S. destruct S as (S1 & S2 & S3 & S4 & S5 & S6 & S7).
  specialize (Rx ltac:(congruence)).
  assert (Hr : exists c1 res, u_receive c r = Some (c1, res)).
  { unfold u_receive. rewrite Hk. destruct (Z.ltb_spec 1024 (Z.of_nat (k_head (t_rx c)))); [eauto|]. destruct r as [| |bs]; [eauto|eauto|].
    destruct (Z.ltb_spec (Z.of_nat (k_head (t_rx c) + length (firstn (length (k_pkt (t_rx c)) - k_head (t_rx c)) bs))) 8); [eauto|].
    rewrite S7. destruct (size_defined (buf_write (k_pkt (t_rx c)) (k_head (t_rx c)) (firstn (length (k_pkt (t_rx c)) - k_head (t_rx c)) bs))) as [z ->].
    - apply bw_bytes; [auto|]. apply firstn_bytes. exact Hok.
    - rewrite bw_length; [lia|]. rewrite firstn_length. lia.
    - destruct (_ <? z); [eauto|]. destruct (negb _); eauto. }
  destruct Hr as (c1 & res & Hr).
  destruct (receive_ok c _ r c1 res Hlen Hbytes Rx Hk Hok Hr) as ([T1 T2 T3 T4 T5 T6] & Ht & Hth & Hrx & Hdone).
  assert (Hd : exists c' os, u_data uid c r w = Some (c', os)).
  { unfold u_data. rewrite Est. unfold u_secured. rewrite Hr.
    assert (F : exists c' os, u_then (Some (c1, [])) (u_fail uid) = Some (c', os)).
    { cbn [u_then]. erewrite fail_eq; [eauto|congruence|rewrite T2; eauto]. }
    destruct res; [eauto| |exact F|congruence].
    specialize (Hrx ltac:(discriminate)). destruct Hrx as (X1 & _).
    assert (X2 : Z.of_nat (k_head (t_rx c1)) <= 4072).
    { rewrite X1, firstn_length. destruct r; cbn [rx_after]; rewrite ?app_length; lia. }
    assert (Eb : t_rx c1 = mkSdu 0 (k_head (t_rx c1)) (k_pkt (t_rx c1))) by (rewrite S7 in Ht; destruct (t_rx c1); cbn in *; now subst).
    destruct (uhdr_any (k_pkt (t_rx c1)) (k_head (t_rx c1)) T6 ltac:(lia)) as [hd Ed]. rewrite <- Eb in Ed. rewrite Ed. cbn [k_head].
    destruct (Z.ltb_spec msgRoom (Z.of_nat (k_head (t_rx c1)))) as [X|_]; [unfold msgRoom in X; lia|].
    set (c2 := z_rx c1 _).
    assert (F2 : exists c' os, u_then (Some (c2, [])) (u_fail uid) = Some (c', os)).
    { cbn [u_then]. erewrite fail_eq; [eauto|unfold c2; tcbn; congruence|unfold c2; tcbn; rewrite T2; eauto]. }
    assert (F3 : forall o, exists c' os, u_then (Some (c2, o)) (fun c => match u_arm uid c with
        | Some (c2, o2) => Some (z_rx c2 (sdu_reset (t_rx c2)), o2) | None => None end) = Some (c', os)).
    { intros o. cbn [u_then]. unfold u_arm, c2. tcbn. rewrite T2, S2. eauto. }
    destruct (kind_of _) as [[| |]|]; [| | |exact F2].
    - destruct (t_chan c) as [a|]; [destruct (a =? uh_chan hd)|]; first [apply F3|exact F2].
    - apply F3.
    - destruct (t_chan c) as [a|]; [destruct (a =? uh_chan hd)|]; first [apply F3|exact F2]. }
  destruct Hd as (c' & os & Hd).
  destruct (data_step _ _ _ _ _ _ _ HT Hk Hok Hd) as [_ HQ].
  destruct (on_total v tr uid (fun c => u_data uid c r w) c _ _ (reach_inv _ _ _ HR) Hu Hc Hd HQ) as (p' & E & _).
  cbn [tsrv_step]. eauto.
Qed.

(** Forwarding a packet of more than 4072 octets leaves the message it is copied to. *)
Theorem overflow b0 v tr uid m w : ureach b0 v tr -> uacked uid tr -> uboundary uid tr ->
  tsrv_enabled v (EvData uid (RxBytes []) w) = true -> sized m -> 4072 < Z.of_nat (length m) <= 4096 ->
  (has_type m KOpn \/ exists k, has_type m k /\ uchan uid tr = Some (le_at 8 m)) ->
  tsrv_step v (EvData uid (RxBytes m) w) = None.
Proof.
  intros HR HA HB Hen Hm Hmax Hty. pose proof pktLen_Z as PZ. pose proof (acked_live _ _ _ _ HR HA) as HL.
  destruct (live_boundary _ _ _ _ HR HL HB) as (Hu & c & Hc & HT & En & Eg & Hst & Hh & Ht).
  pose proof (enabled_link _ _ _ _ _ Hc Hen) as Hk. pose proof (conn_chan _ _ _ HT) as HC. pose proof (to_len _ _ _ HT) as Hlen.
  assert (Est : t_st c = UConn) by (apply (acked_st _ _ _ HT); exact HA).
  cbn [tsrv_step]. unfold tsrv_on. rewrite Eg, En. pose proof Hm as (Hb & _ & _).
  unfold u_data. rewrite Est. unfold u_secured. rewrite receive_done by (auto; lia). tcbn. rewrite uhdr_at by (auto; lia).
  cbn [uh_chan uh_final k_head k_tail k_pkt]. destruct (Z.ltb_spec msgRoom (Z.of_nat (length m))) as [_|X]; [|unfold msgRoom in X; lia].
  destruct (wire_parts m Hb ltac:(lia)) as (x & y & z & f & rest & Em & _ & _ & _ & _ & _ & _ & _ & N & T).
  assert (Em3 : exists r, m = x :: y :: z :: r) by (eexists; exact Em). destruct Em3 as [r3 Em3].
  assert (Ek : kind_of (skipn 0 (buf_write (k_pkt (t_rx c)) 0 m)) = kind_of m) by (rewrite skipn_O, bw_put, firstn_O, Em3; reflexivity).
  rewrite Ek.
  assert (Hk2 : forall k, has_type m k -> kind_of m = Some k).
  { intros k. unfold has_type. rewrite T, Em3. apply kind_of_spec. }
  unfold uchan in Hty. rewrite <- HC in Hty.
  destruct Hty as [Hty|(k & Hty & Hch)]; apply Hk2 in Hty; rewrite Hty; [reflexivity|].
  rewrite Hch, Z.eqb_refl. now destruct k.
Qed.
