(** Connection-level facts about the UA TCP transport. *)
From Verif Require Import Base QueueModel PoolModel ModbusCodecModel ModbusCodecSpec ModbusClientModel ModbusClientProofs
  UaCodecModel UaCodecSpec UaCodecProofs UaCodecLocal UaTcpModel UaTcpSpec.
Local Open Scope Z_scope.

Ltac tcbn := cbn [z_st z_timer z_link z_rx z_chan t_st t_timer t_link t_rx t_chan k_tail k_head k_pkt sdu_reset].
Ltac tcbn_in H := cbn [z_st z_timer z_link z_rx z_chan t_st t_timer t_link t_rx t_chan k_tail k_head k_pkt sdu_reset] in H.

(** The size of a packet buffer, kept folded. *)
Definition pktLen : nat := Z.to_nat 4096.
Lemma pktLen_Z : Z.of_nat pktLen = 4096.
Proof. unfold pktLen. rewrite Z2Nat.id; lia. Qed.
Opaque pktLen.

(** * Packets *)

Lemma bw_put p h l : buf_write p h l = firstn h p ++ l ++ skipn (h + length l) p.
Proof. reflexivity. Qed.

Lemma set_size_app (h r : list Z) v : (8 <= length h)%nat ->
  setPayloadSizeToHdr (h ++ r) v = (firstn 4 h ++ [u8 v; u8 (Z.shiftr v 8); u8 (Z.shiftr v 16); u8 (Z.shiftr v 24)] ++ skipn 8 h) ++ r.
Proof.
  intros H. do 8 (destruct h as [|? h]; [cbn [length] in H; lia|]). reflexivity.
Qed.

Lemma le4_bytes v : [u8 v; u8 (Z.shiftr v 8); u8 (Z.shiftr v 16); u8 (Z.shiftr v 24)] = le_bytes 4 v.
Proof.
  cbn [le_bytes]. rewrite !Z.shiftr_div_pow2 by lia. change (2 ^ 8) with 256. change (2 ^ 16) with (256 * 256).
  change (2 ^ 24) with (256 * 256 * 256). rewrite <- !Z.div_div by lia. reflexivity.
Qed.

Lemma tx_packet_eq e h data : Wr e h -> (8 <= length h)%nat -> Z.of_nat (length h + length data) <= 4096 ->
  tx_packet e data = Some (firstn 4 h ++ le_bytes 4 (Z.of_nat (length h + length data)) ++ skipn 8 h ++ data).
Proof.
  intros He H8 Hl. unfold tx_packet, maxPacketLen.
  assert (Hz : Z.of_nat (length (repeat 0 (Z.to_nat 4096))) = 4096) by (rewrite repeat_length; lia).
  set (z := repeat 0 (Z.to_nat 4096)) in *. clearbody z.
  assert (F : fits (mkSdu 0 0 z) h = true) by (unfold fits; cbn [k_head k_pkt]; apply Nat.leb_le; lia).
  rewrite He by (unfold hok; cbn [k_head k_pkt]; lia). rewrite F. unfold put. cbn [k_head k_pkt k_tail firstn app].
  rewrite Nat.add_0_l.
  destruct (Z.ltb_spec 4096 (Z.of_nat (length h + length data))); [lia|]. f_equal. rewrite bw_put.
  rewrite firstn_app, Nat.sub_diag, firstn_O, app_nil_r, firstn_all.
  rewrite set_size_app by lia. rewrite le4_bytes.
  set (a := firstn 4 h ++ le_bytes 4 (Z.of_nat (length h + length data)) ++ skipn 8 h).
  assert (La : length a = length h) by (unfold a; rewrite !app_length, le_bytes_length, firstn_length, skipn_length; lia).
  rewrite app_assoc, firstn_app. rewrite app_length, La.
  replace (length h + length data - (length h + length data))%nat with 0%nat by lia. rewrite firstn_O, app_nil_r.
  rewrite firstn_all2 by (rewrite app_length; lia). unfold a. rewrite <- !app_assoc. reflexivity.
Qed.

Lemma wf_hdr k m : umsg_ok m -> wf_uhdr (mkUh (kind_octets k) (chunk_octet (um_chunk m)) 0 (um_chan m)).
Proof.
  intros (_ & Hc & _ & _). unfold wf_uhdr. cbn [uh_type uh_final uh_size uh_chan]. split.
  - destruct k; split; auto; repeat constructor; unfold is_byte; lia.
  - split; [|split; [unfold is_u32; lia|auto]]. unfold chunk_octet.
    destruct (um_chunk m) as [|[[?|?|]|[?|?|]|]|]; unfold is_byte; lia.
Qed.

Lemma message_packet k m : umsg_ok m ->
  tx_packet (enc_uhdr (mkUh (kind_octets k) (chunk_octet (um_chunk m)) 0 (um_chan m)))
            (firstn (Z.to_nat (um_len m)) (um_data m)) = Some (packet_of k m).
Proof.
  intros Hm. pose proof Hm as (_ & _ & _ & Hl & _ & Hd).
  assert (L : length (firstn (Z.to_nat (um_len m)) (um_data m)) = Z.to_nat (um_len m)) by (rewrite firstn_length; lia).
  pose proof (W_uhdr _ (wf_hdr k m Hm)) as HW.
  set (h := s_uhdr _) in HW.
  assert (Lh : length h = 12%nat) by (unfold h, s_uhdr, s_1, s_4; cbn [uh_type uh_final uh_size uh_chan]; rewrite !app_length, !le_bytes_length; destruct k; reflexivity).
  rewrite (tx_packet_eq _ _ _ HW) by lia. f_equal. unfold packet_of. rewrite L, Lh.
  replace (Z.of_nat (12 + Z.to_nat (um_len m))) with (12 + um_len m) by lia.
  unfold h, s_uhdr, s_1. cbn [uh_type uh_final uh_size uh_chan].
  change (match um_chunk m with 1 => 67 | 2 => 70 | 3 => 65 | _ => 0 end) with (chunk_octet (um_chunk m)).
  assert (Hc : chunk_octet (um_chunk m) mod 256 = chunk_octet (um_chunk m)).
  { unfold chunk_octet. destruct (um_chunk m) as [|[[?|?|]|[?|?|]|]|]; reflexivity. }
  destruct k; cbn [kind_octets le_bytes app firstn skipn s_4]; rewrite Hc; reflexivity.
Qed.

Lemma ack_packet_eq : tx_packet ack_octets [] = Some ack_packet.
Proof. vm_compute. reflexivity. Qed.

Lemma le_at_set a n r : length a = 4%nat -> 0 <= n < 4294967296 -> le_at 4 (a ++ le_bytes 4 n ++ r) = n.
Proof.
  intros Ha Hn. unfold le_at. rewrite skipn_app, Ha, skipn_all2, Nat.sub_diag by lia. cbn [app skipn].
  rewrite firstn_app, le_bytes_length, Nat.sub_diag, firstn_O, app_nil_r, firstn_all2 by (rewrite le_bytes_length; lia).
  rewrite le_val_bytes. rewrite Z.mod_small; lia.
Qed.

Lemma packet_sized k m : umsg_ok m -> sized (packet_of k m).
Proof.
  intros (_ & _ & _ & Hl & Hb & Hd). unfold sized, packet_of. 
  assert (L : length (firstn (Z.to_nat (um_len m)) (um_data m)) = Z.to_nat (um_len m)) by (rewrite firstn_length; lia).
  split; [|split].
  - unfold bytes_ok. rewrite !Forall_app. repeat split.
    + destruct k; repeat constructor; unfold is_byte; lia.
    + repeat constructor; destruct (um_chunk m) as [|[[?|?|]|[?|?|]|]|]; lia.
    + apply le_bytes_ok. + apply le_bytes_ok. + now apply firstn_bytes.
  - rewrite !app_length, !le_bytes_length, L. destruct k; cbn [kind_octets length]; lia.
  - rewrite !app_length, !le_bytes_length, L. rewrite app_assoc. rewrite le_at_set.
    + destruct k; cbn [kind_octets length]; lia.
    + destruct k; reflexivity.
    + lia.
Qed.

Lemma ack_sized : sized ack_packet.
Proof.
  split; [|split].
  - unfold ack_packet, bytes_ok. rewrite !Forall_app. repeat split; try apply le_bytes_ok. repeat constructor; unfold is_byte; lia.
  - vm_compute. lia.
  - vm_compute. reflexivity.
Qed.

(** * The invariant of a connection *)

Definition uabout (uid : Z) (o : uout) : Prop :=
  match o with
  | UFwd _ u _ _ _ _ | URelInd u _ | UTx u _ _ | UArm u _ | UDisarm u | UFree u => u = uid
  | UThrow => True
  end.

Definition rx_ok (b : sdu) (rx : list Z) : Prop :=
  k_head b = length (firstn pktLen rx) /\ firstn (k_head b) (k_pkt b) = firstn pktLen rx /\ (rx = [] -> k_tail b = 0%nat).

Record TOK (uid : Z) (c : tconn) (w : uview) : Prop := {
  to_len : length (k_pkt (t_rx c)) = pktLen;
  to_bytes : bytes_ok (k_pkt (t_rx c));
  to_st : match t_st c with
          | UInit => g_armed w = None /\ t_timer c = None /\ t_chan c = None /\ g_chan w = None /\ g_acked w = false /\
                     g_starts w = g_frees w
          | UHello => g_armed w = Some uaTimeout /\ t_timer c = Some (Some uaTimeout) /\ (exists fd, t_link c = Some fd) /\
                      t_chan c = None /\ g_chan w = None /\ g_acked w = false /\ g_starts w = S (g_frees w)
          | UConn => g_armed w = Some uaTimeout /\ t_timer c = Some (Some uaTimeout) /\ (exists fd, t_link c = Some fd) /\
                     t_chan c = g_chan w /\ g_acked w = true /\ g_starts w = S (g_frees w) /\ k_tail (t_rx c) = 0%nat
          end;
  to_rx : t_st c <> UInit -> rx_ok (t_rx c) (g_rx w)
}.

(** Effects of one handler call on connection [uid]. *)
Definition is_ufree_any (o : uout) : bool := match o with UFree _ => true | _ => false end.
Record UQ (uid : Z) (c c' : tconn) (os : list uout) : Prop := {
  uq_about : Forall (uabout uid) os;
  uq_free : filter is_ufree_any os = if ust_eqb (t_st c') UInit && negb (ust_eqb (t_st c) UInit) then [UFree uid] else [];
  uq_idle : t_st c = UInit -> t_st c' = UInit
}.

(** What handlers leave alone. *)
Record same (c c1 : tconn) : Prop := {
  sa_st : t_st c1 = t_st c; sa_timer : t_timer c1 = t_timer c; sa_link : t_link c1 = t_link c; sa_chan : t_chan c1 = t_chan c;
  sa_len : length (k_pkt (t_rx c1)) = pktLen; sa_bytes : bytes_ok (k_pkt (t_rx c1))
}.

Definition rx_after (rx : list Z) (r : lrx) : list Z := match r with RxBytes bs => rx ++ bs | _ => rx end.
Definition lrx_ok (r : lrx) : Prop := match r with RxBytes bs => bytes_ok bs | _ => True end.

Lemma firstn_short {A} (l : list A) n m : (length (firstn n l) <= m)%nat -> (m < n)%nat -> firstn n l = l.
Proof. intros H1 H2. rewrite firstn_length in H1. apply firstn_all2. lia. Qed.

Ltac fin := split; [assumption|]; split; [reflexivity|]; split; [discriminate|]; split; [|discriminate]; intros X; first [exfalso; apply X; reflexivity|clear X].
Lemma receive_ok c rx r c1 res : length (k_pkt (t_rx c)) = pktLen -> bytes_ok (k_pkt (t_rx c)) ->
  rx_ok (t_rx c) rx -> t_link c = Some true -> lrx_ok r -> u_receive c r = Some (c1, res) ->
  same c c1 /\ k_tail (t_rx c1) = k_tail (t_rx c) /\ res <> UrThrow /\
  (res <> UrError -> rx_ok (t_rx c1) (rx_after rx r)) /\
  (res = UrDone -> (8 <= k_head (t_rx c1))%nat /\
     getMsgSizeFromHdr (skipn (k_tail (t_rx c)) (k_pkt (t_rx c1))) = Some (Z.of_nat (k_head (t_rx c1)))).
Proof.
  intros HL HB (R1 & R2 & R3) Hk Hr H. pose proof pktLen_Z as PZ. unfold u_receive in H.
  assert (S0 : same c c) by (constructor; auto).
  destruct (Z.ltb_spec 1024 (Z.of_nat (k_head (t_rx c)))) as [H1|H1].
  { apply some2 in H as (<- & <-). fin. }
  rewrite Hk in H. destruct r as [| |bs].
  { apply some2 in H as (<- & <-). fin. exact (conj R1 (conj R2 R3)). }
  { apply some2 in H as (<- & <-). fin. }
  cbn in Hr. rewrite HL in H.
  assert (Hh : Z.of_nat (k_head (t_rx c)) <= 1024) by lia.
  assert (Hrx : firstn pktLen rx = rx) by (apply firstn_short with (m := k_head (t_rx c)); lia).
  rewrite Hrx in R1, R2.
  set (bs' := firstn (pktLen - k_head (t_rx c)) bs) in *.
  assert (Hbs' : (length bs' <= pktLen - k_head (t_rx c))%nat) by (unfold bs'; rewrite firstn_length; lia).
  set (m := buf_write (k_pkt (t_rx c)) (k_head (t_rx c)) bs') in *.
  assert (Hm : length m = pktLen) by (unfold m; rewrite bw_length; lia).
  assert (Hmb : bytes_ok m) by (apply bw_bytes; [auto|now apply firstn_bytes]).
  assert (E4 : firstn pktLen (rx ++ bs) = rx ++ bs').
  { rewrite firstn_app. rewrite firstn_all2 by lia. unfold bs'. now rewrite R1. }
  assert (Hok : rx_ok (mkSdu (k_tail (t_rx c)) (k_head (t_rx c) + length bs') m) (rx ++ bs)).
  { unfold rx_ok. cbn [k_head k_pkt k_tail]. rewrite E4, app_length. split; [lia|]. split.
    - unfold m. rewrite bw_prefix by lia. now rewrite R2.
    - intros E. apply app_eq_nil in E as [E _]. auto. }
  assert (S1 : same c (z_rx c (mkSdu (k_tail (t_rx c)) (k_head (t_rx c) + length bs') m))).
  { constructor; tcbn; auto. }
  destruct (Z.ltb_spec (Z.of_nat (k_head (t_rx c) + length bs')) 8) as [H8|H8].
  { apply some2 in H as (<- & <-). fin. exact Hok. }
  destruct (getMsgSizeFromHdr (skipn (k_tail (t_rx c)) m)) as [size|] eqn:Eg; [|discriminate H].
  destruct (Z.ltb_spec (Z.of_nat (k_head (t_rx c) + length bs')) size) as [Hs|Hs].
  { apply some2 in H as (<- & <-). fin. exact Hok. }
  destruct (Z.eqb_spec (Z.of_nat (k_head (t_rx c) + length bs')) size) as [Hq|Hq]; cbn [negb] in H.
  - apply some2 in H as (<- & <-). split; [auto|]. split; [auto|]. split; [discriminate|]. tcbn. split; [auto|].
    intros _. split; [lia|]. rewrite Eg. now rewrite Hq.
  - apply some2 in H as (<- & <-). split; [auto|]. split; [auto|]. split; [discriminate|]. split; [congruence|discriminate].
Qed.

(** * Transitions *)

Lemma tr_init uid c t : t_st c <> UInit -> t_timer c = Some t ->
  u_transit uid c UInit = Some (mkT UInit None None (t_rx c) None, [UDisarm uid; UFree uid]).
Proof.
  intros H Ht. unfold u_transit, u_exit, u_disarm, u_enter. destruct (t_st c) eqn:E; [congruence| |];
  cbn [ust_eqb]; rewrite Ht; tcbn; reflexivity.
Qed.
Lemma tr_hello uid c : t_st c = UInit -> t_timer c = Some None ->
  u_transit uid c UHello =
  Some (mkT UHello (Some (Some uaTimeout)) (t_link c) (mkSdu 0 0 (k_pkt (t_rx c))) (t_chan c), [UArm uid uaTimeout]).
Proof. intros E Ht. unfold u_transit, u_exit, u_enter, u_arm. rewrite E. cbn [ust_eqb]. tcbn. rewrite Ht. reflexivity. Qed.
Lemma tr_conn uid c t : t_st c = UHello -> t_timer c = Some t ->
  u_transit uid c UConn =
  Some (mkT UConn (Some (Some uaTimeout)) (t_link c) (mkSdu 0 0 (k_pkt (t_rx c))) (t_chan c), [UDisarm uid; UArm uid uaTimeout]).
Proof. intros E Ht. unfold u_transit, u_exit, u_disarm, u_enter, u_arm. rewrite E. cbn [ust_eqb]. rewrite Ht. tcbn. reflexivity. Qed.
Lemma fail_eq uid c t : t_st c <> UInit -> t_timer c = Some t ->
  u_fail uid c = Some (mkT UInit None None (t_rx c) None, closing uid (t_chan c)).
Proof. intros H Ht. unfold u_fail. cbn [u_then]. rewrite (tr_init _ _ _ H Ht). reflexivity. Qed.

(** * Handlers *)

Lemma throw_or_ok_hello b : match dec_hello_msg b with
  | DOk _ b' => k_head b' = k_head b /\ k_pkt b' = k_pkt b
  | _ => True end.
Proof.
  assert (A : Adv dec_hello_msg) by (apply Adv_bind; [apply Loc_mhdr|intros; apply Loc_hello]).
  destruct (dec_hello_msg b) as [x b'| | |] eqn:E; auto. apply A in E. unfold adv in E. tauto.
Qed.

Lemma write_cases uid c pkt w o ok : u_write uid c pkt w = Some (o, ok) ->
  (ok = true /\ exists n, (n <= length pkt)%nat /\ o = [UTx uid pkt n]) \/ (ok = false /\ o = []).
Proof.
  unfold u_write. destruct (t_link c) as [fd|]; [|discriminate]. destruct (if fd then w else None) as [n|].
  - intros H. apply some2 in H as (<- & <-). left. split; [auto|]. exists (Nat.min n (length pkt)). split; [lia|auto].
  - intros H. apply some2 in H as (<- & <-). now right.
Qed.

Lemma hello_ok uid c rx r w c1 o res : length (k_pkt (t_rx c)) = pktLen -> bytes_ok (k_pkt (t_rx c)) ->
  rx_ok (t_rx c) rx -> t_link c = Some true -> lrx_ok r -> u_hello uid c r w = Some (c1, o, res) ->
  same c c1 /\
  ((res = UrDone /\ exists n, o = [UTx uid ack_packet n]) \/ (res = UrError /\ o = []) \/
   (res = UrNoerror /\ o = [] /\ rx_ok (t_rx c1) (rx_after rx r)) \/
   (res = UrThrow /\ o = [UThrow] /\ rx_ok (t_rx c1) (rx_after rx r))).
Proof.
  intros HL HB HR Hk Hr H. unfold u_hello in H.
  destruct (u_receive c r) as [[c0 res0]|] eqn:Er; [|discriminate H].
  destruct (receive_ok _ _ _ _ _ HL HB HR Hk Hr Er) as (S & T & N & R & D).
  destruct res0.
  - apply some3 in H as (<- & <- & <-). split; [auto|]. right. right. left. repeat split; auto; apply R; discriminate.
  - specialize (R ltac:(discriminate)). specialize (D eq_refl).
    pose proof (throw_or_ok_hello (t_rx c0)) as X.
    destruct (dec_hello_msg (t_rx c0)) as [x b'| | |]; [| |discriminate H|discriminate H].
    + unfold u_ack in H. rewrite ack_packet_eq in H.
      destruct (u_write uid c0 ack_packet w) as [[o' ok]|] eqn:Ew; [|discriminate H].
      apply some3 in H as (<- & <- & <-). destruct X as [X1 X2]. destruct S as [S1 S2 S3 S4 S5 S6].
      split; [constructor; tcbn; auto; now rewrite X2|].
      apply write_cases in Ew as [(-> & n & _ & ->)|(-> & ->)]; [left|right; left]; eauto.
    + apply some3 in H as (<- & <- & <-). destruct S as [S1 S2 S3 S4 S5 S6].
      split; [constructor; tcbn; auto|]. right. right. right. split; [auto|]. split; [auto|].
      destruct R as (R1 & R2 & R3). unfold rx_ok. tcbn. split; [auto|]. split; [auto|].
      intros E. exfalso. rewrite E, firstn_nil in R1. cbn [length] in R1. lia.
  - apply some3 in H as (<- & <- & <-). auto.
  - congruence.
Qed.

Lemma uhdr_adv b h b' : dec_uhdr uhdr0 b = DOk h b' -> k_head b' = k_head b /\ k_pkt b' = k_pkt b.
Proof.
  intros E. assert (A : Adv (dec_uhdr uhdr0)) by apply Loc_uhdr. apply A in E. unfold adv in E. tauto.
Qed.

Lemma secured_ok uid c rx r c1 o res : length (k_pkt (t_rx c)) = pktLen -> bytes_ok (k_pkt (t_rx c)) ->
  rx_ok (t_rx c) rx -> t_link c = Some true -> lrx_ok r -> u_secured uid c r = Some (c1, o, res) ->
  same c c1 /\
  ((res = UrDone /\ exists k ch ck len d, o = [UFwd k uid ch ck len d] /\ (k <> KOpn -> t_chan c = Some ch)) \/
   (res = UrError /\ o = []) \/
   (res = UrNoerror /\ o = [] /\ rx_ok (t_rx c1) (rx_after rx r) /\ k_tail (t_rx c1) = k_tail (t_rx c))).
Proof.
  intros HL HB HR Hk Hr H. unfold u_secured in H.
  destruct (u_receive c r) as [[c0 res0]|] eqn:Er; [|discriminate H].
  destruct (receive_ok _ _ _ _ _ HL HB HR Hk Hr Er) as (S & T & N & R & D).
  destruct res0.
  - apply some3 in H as (<- & <- & <-). split; [auto|]. right. right. repeat split; auto; apply R; discriminate.
  - destruct (dec_uhdr uhdr0 (t_rx c0)) as [h b'| | |] eqn:Ed; [|discriminate H|discriminate H|discriminate H].
    apply uhdr_adv in Ed as [X1 X2]. destruct S as [S1 S2 S3 S4 S5 S6].
    assert (S' : same c (z_rx c0 b')) by (constructor; tcbn; auto; now rewrite X2).
    cbv zeta in H.
    assert (G : forall k, (k <> KOpn -> t_chan c = Some (uh_chan h)) ->
      (if msgRoom <? Z.of_nat (k_head b') then None
       else Some (z_rx c0 b', [UFwd k uid (uh_chan h) (chunk_of (uh_final h)) (Z.of_nat (k_head b'))
              (firstn (k_head b') (skipn (k_tail b') (k_pkt b')))], UrDone)) = Some (c1, o, res) ->
      same c c1 /\ (res = UrDone /\ exists k ch ck len d, o = [UFwd k uid ch ck len d] /\ (k <> KOpn -> t_chan c = Some ch))).
    { intros k Hch E. destruct (msgRoom <? Z.of_nat (k_head b')); [discriminate E|]. apply some3 in E as (<- & <- & <-).
      split; [auto|]. split; [auto|]. do 5 eexists. split; [reflexivity|auto]. }
    destruct (kind_of _) as [[| |]|].
    + destruct (t_chan c) as [a|] eqn:Ea; [destruct (Z.eqb_spec a (uh_chan h)) as [E|E]|].
      * apply G in H; [tauto|intros _; now rewrite E].
      * apply some3 in H as (<- & <- & <-). auto.
      * apply some3 in H as (<- & <- & <-). auto.
    + apply G in H; [tauto|congruence].
    + destruct (t_chan c) as [a|] eqn:Ea; [destruct (Z.eqb_spec a (uh_chan h)) as [E|E]|].
      * apply G in H; [tauto|intros _; now rewrite E].
      * apply some3 in H as (<- & <- & <-). auto.
      * apply some3 in H as (<- & <- & <-). auto.
    + apply some3 in H as (<- & <- & <-). auto.
  - apply some3 in H as (<- & <- & <-). auto.
  - congruence.
Qed.

Lemma message_ok uid k c m w c1 o res : umsg_ok m -> u_message uid k c m w = Some (c1, o, res) ->
  t_st c1 = t_st c /\ t_timer c1 = t_timer c /\ t_link c1 = t_link c /\ t_rx c1 = t_rx c /\
  t_chan c1 = (match k with KOpn => Some (um_chan m) | _ => t_chan c end) /\
  ((res = UrDone /\ t_chan c1 = Some (um_chan m) /\ exists n, (n <= length (packet_of k m))%nat /\ o = [UTx uid (packet_of k m) n]) \/
   (res = UrError /\ o = [])).
Proof.
  intros Hm H. unfold u_message in H. rewrite message_packet in H by auto.
  set (c2 := match k with KOpn => z_chan c (Some (um_chan m)) | _ => c end) in *.
  assert (E : t_st c2 = t_st c /\ t_timer c2 = t_timer c /\ t_link c2 = t_link c /\ t_rx c2 = t_rx c /\
    t_chan c2 = (match k with KOpn => Some (um_chan m) | _ => t_chan c end)) by (unfold c2; destruct k; auto).
  destruct E as (E1 & E2 & E3 & E4 & E5).
  destruct (t_chan c2) as [a|] eqn:Ec; [destruct (Z.eqb_spec a (um_chan m)) as [->|]|].
  - destruct (negb (um_len m <=? Z.of_nat (length (um_data m)))); [discriminate H|].
    destruct (u_write uid c2 (packet_of k m) w) as [[o' ok]|] eqn:Ew; [|discriminate H].
    apply some3 in H as (<- & <- & <-). repeat split; auto; try congruence.
    apply write_cases in Ew as [(-> & n & Hn & ->)|(-> & ->)]; [left|right]; eauto.
  - apply some3 in H as (<- & <- & <-). repeat split; auto; try congruence.
  - apply some3 in H as (<- & <- & <-). repeat split; auto; try congruence.
Qed.

(** * Steps of a connection preserve the invariant *)

Ltac usimp := unfold uview_next, ucount, closing; cbn [app filter fold_left uarm_next is_uarm is_ufree is_uack existsb length orb andb
   g_armed g_starts g_frees g_acked g_chan g_rx]; rewrite ?Z.eqb_refl, ?orb_false_r, ?orb_true_r, ?Nat.add_0_r; cbn [filter length andb orb].

Definition plain (o : uout) : Prop :=
  match o with UFwd _ _ _ _ _ _ | URelInd _ _ | UTx _ _ _ | UThrow => True | _ => False end.

Lemma plain_facts uid o : Forall plain o ->
  filter is_ufree_any o = [] /\ filter (is_ufree uid) o = [] /\ filter (is_uarm uid) o = [] /\ existsb (is_uarm uid) o = false /\
  existsb (is_ufree uid) o = false /\ (forall a, fold_left (uarm_next uid) o a = a).
Proof.
  induction 1 as [|x o Hx Ho (A & B & C & D & E & F)]; [repeat split; auto|].
  destruct x; try contradiction; cbn; repeat split; auto.
Qed.

(** Ending in the initial state. *)
Lemma end_ok uid c w e o c1 : TOK uid c w -> t_st c <> UInit -> Forall plain o -> Forall (uabout uid) o ->
  match e with EvAccept _ _ _ => False | _ => True end ->
  length (k_pkt (t_rx c1)) = pktLen -> bytes_ok (k_pkt (t_rx c1)) -> c1 = mkT UInit None None (t_rx c1) None ->
  TOK uid c1 (uview_next uid w (e, o ++ [UDisarm uid; UFree uid])) /\ UQ uid c c1 (o ++ [UDisarm uid; UFree uid]).
Proof.
  intros [HL HB HS HR] Hn Hp Ha He L1 B1 ->. destruct (plain_facts uid o Hp) as (P1 & P2 & P3 & P4 & P5 & P6).
  assert (Hst : g_starts w = S (g_frees w)) by (destruct (t_st c); [congruence|tauto|tauto]).
  split.
  - constructor; tcbn; auto; [|congruence].
    unfold uview_next, ucount. cbn [g_armed g_starts g_frees g_acked g_chan]. rewrite fold_left_app, P6, existsb_app, P5, !filter_app, P2, P3.
    cbn [app filter fold_left uarm_next is_ufree is_uarm existsb orb length]. rewrite !Z.eqb_refl. cbn [orb length].
    repeat split; auto. destruct e; try contradiction; lia.
  - constructor; tcbn; auto.
    + apply Forall_app. split; auto. repeat constructor.
    + rewrite filter_app, P1. destruct (t_st c); [congruence| |]; reflexivity.
Qed.

Lemma closing_app uid ch : closing uid ch = match ch with Some a => [URelInd uid a] | None => [] end ++ [UDisarm uid; UFree uid].
Proof. reflexivity. Qed.

Lemma plain_relind uid ch : Forall plain (match ch with Some a => [URelInd uid a] | None => [] end) /\
  Forall (uabout uid) (match ch with Some a => [URelInd uid a] | None => [] end).
Proof. destruct ch; split; repeat constructor. Qed.

Lemma fail_ok uid c w e o c0 : TOK uid c w -> t_st c <> UInit -> Forall plain o -> Forall (uabout uid) o ->
  match e with EvAccept _ _ _ => False | _ => True end ->
  length (k_pkt (t_rx c0)) = pktLen -> bytes_ok (k_pkt (t_rx c0)) ->
  let c1 := mkT UInit None None (t_rx c0) None in
  TOK uid c1 (uview_next uid w (e, o ++ closing uid (t_chan c0))) /\ UQ uid c c1 (o ++ closing uid (t_chan c0)).
Proof.
  intros HT Hn Hp Ha He L B c1. rewrite closing_app, app_assoc.
  destruct (plain_relind uid (t_chan c0)) as [R1 R2].
  apply end_ok; auto; apply Forall_app; auto.
Qed.

Lemma data_step uid c w r wr c' os : TOK uid c w -> t_link c = Some true -> lrx_ok r ->
  u_data uid c r wr = Some (c', os) -> TOK uid c' (uview_next uid w (EvData uid r wr, os)) /\ UQ uid c c' os.
Proof.
  intros HT Hk Hr H. pose proof HT as [HL HB HS HR]. unfold u_data in H.
  destruct (t_st c) eqn:Est.
  - apply some2 in H as (<- & <-). split.
    + constructor; auto; [|congruence]. rewrite Est. usimp. destruct r; cbn; tauto.
    + constructor; auto. rewrite Est. reflexivity.
  - destruct HS as (A1 & A2 & A3 & A4 & A5 & A6 & A7). specialize (HR ltac:(congruence)).
    destruct (u_hello uid c r wr) as [[[c1 o] res]|] eqn:Eh; [|discriminate H].
    destruct (hello_ok _ _ _ _ _ _ _ _ HL HB HR Hk Hr Eh) as ([S1 S2 S3 S4 S5 S6] & Hc).
    destruct Hc as [(-> & n & ->)|[(-> & ->)|[(-> & -> & R)|(-> & -> & R)]]]; cbn [u_then] in H.
    + rewrite (tr_conn uid c1 _ (eq_trans S1 Est) (eq_trans S2 A2)) in H. apply some2 in H as (<- & <-). split.
      * constructor; tcbn; auto; usimp.
        -- repeat split; auto; try congruence. exists true. congruence.
        -- intros _. repeat split; auto.
      * constructor; tcbn; rewrite ?Est; first [discriminate|reflexivity|repeat constructor].
    + rewrite (tr_init uid c1 _ ltac:(congruence) (eq_trans S2 A2)) in H. apply some2 in H as (<- & <-).
      apply (end_ok uid c w _ []); auto; congruence.
    + apply some2 in H as (<- & <-). split.
      * constructor; auto; [|intros _; usimp; destruct r; rewrite ?Z.eqb_refl; exact R].
        rewrite S1, Est. usimp. rewrite S2, S3, S4, A6. repeat split; auto.
      * constructor; auto; rewrite ?S1, ?Est; first [reflexivity|discriminate].
    + apply some2 in H as (<- & <-). split.
      * constructor; auto; [|intros _; usimp; destruct r; rewrite ?Z.eqb_refl; exact R].
        rewrite S1, Est. usimp. rewrite S2, S3, S4, A6. repeat split; auto.
      * constructor; rewrite ?S1, ?Est; first [discriminate|reflexivity|repeat constructor].
  - destruct HS as (A1 & A2 & A3 & A4 & A5 & A6 & A7). specialize (HR ltac:(congruence)).
    destruct (u_secured uid c r) as [[[c1 o] res]|] eqn:Eh; [|discriminate H].
    destruct (secured_ok _ _ _ _ _ _ _ HL HB HR Hk Hr Eh) as ([S1 S2 S3 S4 S5 S6] & Hc).
    destruct Hc as [(-> & k & ch & ck & len & d & -> & _)|[(-> & ->)|(-> & -> & R & Rt)]]; cbn [u_then] in H.
    + unfold u_arm in H. rewrite (eq_trans S2 A2) in H. tcbn_in H. apply some2 in H as (<- & <-). split.
      * constructor; tcbn; auto; usimp.
        -- rewrite S1, Est. repeat split; auto; try congruence. exists true. congruence.
        -- intros _. repeat split; auto.
      * constructor; tcbn; rewrite ?S1, ?Est; first [discriminate|reflexivity|repeat constructor].
    + rewrite (fail_eq uid c1 _ ltac:(congruence) (eq_trans S2 A2)) in H. apply some2 in H as (<- & <-).
      apply (fail_ok uid c w _ [] c1); auto; congruence.
    + apply some2 in H as (<- & <-). split.
      * constructor; auto; [|intros _; usimp; destruct r; rewrite ?Z.eqb_refl; exact R].
        rewrite S1, Est. usimp. rewrite S2, S3, S4, A5, Rt. repeat split; auto.
      * constructor; auto; rewrite ?S1, ?Est; first [reflexivity|discriminate].
Qed.

Lemma msg_step uid k c w m wr c' os : TOK uid c w -> umsg_ok m -> um_conn m = uid ->
  u_msg uid k c m wr = Some (c', os) -> TOK uid c' (uview_next uid w (EvMsg k m wr, os)) /\ UQ uid c c' os.
Proof.
  intros HT Hm Hu H. pose proof HT as [HL HB HS HR]. unfold u_msg in H.
  assert (Hnop : t_st c <> UConn -> Some (c, @nil uout) = Some (c', os) ->
    TOK uid c' (uview_next uid w (EvMsg k m wr, os)) /\ UQ uid c c' os).
  { intros Hn E. apply some2 in E as (<- & <-). split.
    - assert (Ha : g_acked w = false) by (destruct (t_st c); tauto).
      constructor; try exact HR; auto. usimp. rewrite Ha, andb_false_r. destruct (t_st c), k; tauto.
    - constructor; auto. rewrite andb_negb_r. reflexivity. }
  destruct (t_st c) eqn:Est; [apply Hnop; [congruence|auto]|apply Hnop; [congruence|auto]|].
  destruct HS as (A1 & A2 & A3 & A4 & A5 & A6 & A7). specialize (HR ltac:(congruence)).
  destruct (u_message uid k c m wr) as [[[c1 o] res]|] eqn:Eh; [|discriminate H].
  destruct (message_ok _ _ _ _ _ _ _ _ Hm Eh) as (S1 & S2 & S3 & S4 & S5 & [(-> & Sc & n & _ & ->)|(-> & ->)]).
  - apply some2 in H as (<- & <-). split.
    + constructor; rewrite ?S4; auto; usimp.
      rewrite S1, Est, S2, S3, S5, A5, A7, Hu, Z.eqb_refl. cbn [orb andb]. destruct k; repeat split; auto.
    + constructor; rewrite ?S1, ?Est; first [discriminate|reflexivity|repeat constructor].
  - cbn [u_then] in H. rewrite (fail_eq uid c1 _ ltac:(congruence) (eq_trans S2 A2)) in H. apply some2 in H as (<- & <-).
    apply (fail_ok uid c w _ [] c1); rewrite ?S4; auto; congruence.
Qed.

Lemma release_step uid c w c' os : TOK uid c w -> u_release uid c = Some (c', os) ->
  TOK uid c' (uview_next uid w (EvRelease uid, os)) /\ UQ uid c c' os.
Proof.
  intros HT H. pose proof HT as [HL HB HS HR]. unfold u_release in H.
  destruct (t_st c) eqn:Est.
  1, 2: apply some2 in H as (<- & <-); split;
    [constructor; auto; usimp; rewrite ?Est; auto; congruence|constructor; auto; rewrite Est; reflexivity].
  destruct HS as (A1 & A2 & A3 & A4 & A5 & A6 & A7).
  rewrite (tr_init uid c _ ltac:(congruence) A2) in H. apply some2 in H as (<- & <-).
  apply (end_ok uid c w _ []); auto; congruence.
Qed.

Lemma timer_step uid c w c' os : TOK uid c w -> (exists us, t_timer c = Some (Some us)) -> u_timer uid c = Some (c', os) ->
  TOK uid c' (uview_next uid w (EvTimer uid, os)) /\ UQ uid c c' os /\ t_st c <> UInit /\ t_st c' = UInit.
Proof.
  intros HT [us Hen] H. pose proof HT as [HL HB HS HR]. unfold u_timer in H. rewrite Hen in H. tcbn_in H.
  assert (Hn : t_st c <> UInit) by (intros E; rewrite E in HS; destruct HS as (_ & X & _); congruence).
  destruct (t_st c) eqn:Est; [congruence| |].
  - rewrite (tr_init uid _ None) in H; tcbn; [|congruence|auto]. apply some2 in H as (<- & <-).
    destruct (end_ok uid c w (EvTimer uid) [] (mkT UInit None None (t_rx c) None)) as [X Y]; auto; congruence.
  - rewrite (fail_eq uid _ None) in H; tcbn; [|congruence|auto]. apply some2 in H as (<- & <-).
    destruct (fail_ok uid c w (EvTimer uid) [] c) as [X Y]; auto; try congruence.
Qed.

Lemma error_step uid c w : TOK uid c w -> TOK uid (u_error c) (uview_next uid w (EvError uid, [])) /\ UQ uid c (u_error c) [].
Proof.
  intros [HL HB HS HR]. split.
  - constructor; unfold u_error; tcbn; auto; usimp; auto.
    destruct (t_st c); auto; destruct HS as (A1 & A2 & [fd A3] & HS); rewrite A3; eauto.
  - constructor; unfold u_error; tcbn; auto. rewrite andb_negb_r. reflexivity.
Qed.

Lemma accept_step uid c w b1 b2 tok c' os : TOK uid c w -> t_st c = UInit -> u_accept uid c tok = Some (c', os) ->
  TOK uid c' (uview_next uid w (EvAccept b1 b2 tok, os)) /\
  ((tok = true /\ os = [UArm uid uaTimeout] /\ t_st c' <> UInit) \/ (tok = false /\ os = [UThrow] /\ t_st c' = UInit)).
Proof.
  intros [HL HB HS HR] Est H. unfold u_accept in H. rewrite Est in H, HS. destruct HS as (A1 & A2 & A3 & A4 & A5 & A6).
  destruct tok; cbn [negb] in H.
  - rewrite tr_hello in H by (tcbn; auto). tcbn_in H. apply some2 in H as (<- & <-). split; [|left; repeat split; tcbn; discriminate].
    constructor; tcbn; auto; usimp.
    + repeat split; eauto; try congruence; rewrite ?A5; try reflexivity; lia.
    + intros _. repeat split; auto.
  - apply some2 in H as (<- & <-). split; [|right; auto].
    constructor; tcbn; auto; usimp; rewrite ?Est; try congruence. rewrite A5. repeat split; auto.
Qed.
