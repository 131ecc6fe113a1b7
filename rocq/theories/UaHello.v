(** What the transport does with the first frame of a client, exactly. *)
From Verif Require Import Base ModbusCodecSpec ModbusClientModel UaCodecModel UaCodecSpec UaCodecProofs UaTcpModel UaTcpSpec UaTcpProofs UaTcpFacts UaTcpRuns
  ModbusClientProofs UaChanModel UaChanSpec UaSystemModel UaSystemSpec UaSystemProofs UaSystemFacts.
Local Open Scope Z_scope.

Lemma le_back a b c d : is_byte a -> is_byte b -> is_byte c -> is_byte d -> le_bytes 4 (le_val [a; b; c; d]) = [a; b; c; d].
Proof.
  unfold is_byte. intros. rewrite le4. cbn [le_val]. rewrite !Z.shiftr_div_pow2 by lia. unfold u8.
  change (2 ^ 8) with 256. change (2 ^ 16) with 65536. change (2 ^ 24) with 16777216. repeat f_equal; lia.
Qed.
Lemma rdn_in n : forall b, (k_tail b + n <= length (k_pkt b))%nat -> exists x b', rdn n b = DOk x b'.
Proof.
  induction n as [|n IH]; intros b H; [eexists _, _; reflexivity|]. cbn [rdn]. unfold bind at 1. unfold read.
  destruct (nth_error (k_pkt b) (k_tail b)) as [v|] eqn:E; [|apply nth_error_None in E; lia].
  destruct (IH (mkSdu (S (k_tail b)) (k_head b) (k_pkt b))) as (x & b' & E'); [cbn [k_tail k_pkt]; lia|]. unfold bind. rewrite E'. eexists _, _. reflexivity.
Qed.
Lemma rdn_outside n : forall b, (0 < n)%nat -> (length (k_pkt b) < k_tail b + n)%nat -> rdn n b = DOob.
Proof.
  induction n as [|n IH]; intros b N H; [lia|]. cbn [rdn]. unfold bind at 1. unfold read. destruct (nth_error (k_pkt b) (k_tail b)) as [v|] eqn:E; [|reflexivity].
  assert (L : (k_tail b < length (k_pkt b))%nat) by (apply nth_error_Some; congruence).
  unfold bind. rewrite IH; [reflexivity|lia|cbn [k_pkt k_tail]; lia].
Qed.

(** The length of the url as the server reads it: a signed number. *)
Definition url_len (p : list Z) : Z := if le_at 28 p <? 2147483648 then le_at 28 p else le_at 28 p - 4294967296.

Lemma split32 (p : list Z) : (32 <= length p)%nat -> exists t0 t1 t2 f s0 s1 s2 s3 a0 a1 a2 a3 b0 b1 b2 b3 c0 c1 c2 c3 d0 d1 d2 d3 e0 e1 e2 e3 l0 l1 l2 l3 r,
  p = [t0; t1; t2; f; s0; s1; s2; s3; a0; a1; a2; a3; b0; b1; b2; b3; c0; c1; c2; c3; d0; d1; d2; d3; e0; e1; e2; e3; l0; l1; l2; l3] ++ r.
Proof.
  intros H. do 32 (destruct p as [|? p]; [cbn [length] in H; exfalso; lia|]). do 33 eexists. cbn [app]. reflexivity.
Qed.
Lemma hello_at p h : bytes_ok p -> (32 <= length p)%nat ->
  match dec_hello_msg (mkSdu 0 h p) with
  | DOk _ b => url_len p = -1 \/ 0 <= url_len p <= Z.of_nat (length p) - 32
  | DThrow => url_len p < -1
  | DOob => Z.of_nat (length p) - 32 < url_len p
  | DAbort => False
  end.
Proof.
  intros HB HL. destruct (split32 p HL) as (t0 & t1 & t2 & f & s0 & s1 & s2 & s3 & a0 & a1 & a2 & a3 & b0 & b1 & b2 & b3 & c0 & c1 & c2 & c3 &
    d0 & d1 & d2 & d3 & e0 & e1 & e2 & e3 & l0 & l1 & l2 & l3 & r & E).
  assert (EL : le_at 28 p = le_val [l0; l1; l2; l3]) by (rewrite E; reflexivity).
  assert (HS : skipn 28 p = [l0; l1; l2; l3] ++ r) by (rewrite E; reflexivity).
  assert (B4 : Forall is_byte [l0; l1; l2; l3]).
  { unfold bytes_ok in HB. rewrite <- (firstn_skipn 28 p), HS in HB. apply Forall_app in HB as [_ HB]. apply Forall_app in HB as [HB _]. exact HB. }
  assert (RB : 0 <= le_val [l0; l1; l2; l3] < 4294967296).
  { repeat match goal with X : Forall is_byte (_ :: _) |- _ => inversion X; subst; clear X end. unfold is_byte in *. cbn [le_val]. lia. }
  assert (D : dec_hello_msg (mkSdu 0 h p) = (do u <- dec_string []; fun b => DOk (mkHello (u32 (or32 a0 a1 a2 a3)) (u32 (or32 b0 b1 b2 b3)) (u32 (or32 c0 c1 c2 c3))
     (u32 (or32 d0 d1 d2 d3)) (u32 (or32 e0 e1 e2 e3)) u) b) (mkSdu 28 h p)).
  { rewrite E. reflexivity. }
  rewrite D. clear D. unfold bind at 1. unfold dec_string. unfold bind at 1.
  assert (I : is_i32 (url_len p)) by (unfold is_i32, url_len; rewrite EL; destruct (Z.ltb_spec (le_val [l0; l1; l2; l3]) 2147483648); lia).
  assert (HI : holds (mkSdu 28 h p) 28 (s_4 (url_len p))).
  { apply holds_iff. exists r. cbn [k_pkt]. rewrite HS. f_equal. unfold s_4, url_len. rewrite EL.
    inversion B4 as [|? ? X0 B3]; inversion B3 as [|? ? X1 B2]; inversion B2 as [|? ? X2 B1]; inversion B1 as [|? ? X3 B0]; subst.
    destruct (Z.ltb_spec (le_val [l0; l1; l2; l3]) 2147483648); [symmetry; apply le_back; assumption|].
    rewrite <- (le_back l0 l1 l2 l3) at 1 by assumption. rewrite !le4. generalize (le_val [l0; l1; l2; l3]). clear. intros z.
    rewrite !Z.shiftr_div_pow2 by lia. unfold u8. change (2 ^ 8) with 256. change (2 ^ 16) with 65536. change (2 ^ 24) with 16777216.
    assert (Q : forall k, 0 < k -> k * 256 <= 4294967296 -> (4294967296 mod (k * 256)) = 0 -> (z / k) mod 256 = ((z - 4294967296) / k) mod 256).
    { intros k K1 K2 K3. rewrite (Z.div_mod 4294967296 (k * 256)), K3 by lia. replace (z - (k * 256 * (4294967296 / (k * 256)) + 0)) with (z + (- (256 * (4294967296 / (k * 256)))) * k) by ring.
      rewrite Z.div_add by lia. replace (- (256 * (4294967296 / (k * 256)))) with ((- (4294967296 / (k * 256))) * 256) by ring. rewrite Z.mod_add by lia. reflexivity. }
    rewrite <- (Q 256), <- (Q 65536), <- (Q 16777216) by (reflexivity || lia). pose proof (Q 1 ltac:(lia) ltac:(lia) eq_refl) as Q1. rewrite !Z.div_1_r in Q1. rewrite <- Q1. reflexivity. }
  rewrite (R_i32 (url_len p) I (mkSdu 28 h p) HI). cbn [k_tail k_head k_pkt].
  assert (L4 : length (s_4 (url_len p)) = 4%nat) by (unfold s_4; rewrite le4; reflexivity). rewrite L4.
  destruct (Z.eqb_spec (url_len p) (-1)); [cbn [ret]; auto|]. destruct (Z.ltb_spec (url_len p) 0); [lia|].
  destruct (Z_le_gt_dec (url_len p) (Z.of_nat (length p) - 32)) as [Hl|Hg].
  - destruct (rdn_in (Z.to_nat (url_len p)) (mkSdu (28 + 4) h p)) as (x & b' & ->); [cbn [k_tail k_pkt]; lia|]. right. lia.
  - rewrite (rdn_outside (Z.to_nat (url_len p)) (mkSdu (28 + 4) h p)); [lia|lia|cbn [k_tail k_pkt]; lia].
Qed.

(** The octets from 28 on after [bs] was read into a buffer that held [mem]. *)
Definition url_after (mem bs : list Z) : Z := url_len (bs ++ skipn (length bs) mem).
Lemma url_own mem bs : (32 <= length bs)%nat -> url_after mem bs = url_len bs.
Proof.
  intros H. unfold url_after, url_len. replace (le_at 28 (bs ++ skipn (length bs) mem)) with (le_at 28 bs); [reflexivity|]. unfold le_at. rewrite skipn_app.
  replace (28 - length bs)%nat with 0%nat by lia. rewrite firstn_app, skipn_length. replace (4 - (length bs - 28))%nat with 0%nat by lia. now rewrite firstn_O, app_nil_r.
Qed.
(** The first read of a client that has not been acknowledged yet. *)
Lemma first_read uid c w bs wr : TOK uid c w -> t_st c = UHello -> t_link c = Some true -> g_rx w = [] -> bytes_ok bs -> (8 <= length bs <= pktLen)%nat ->
  (u_data uid c (RxBytes bs) wr = None <-> sized bs /\ 4064 < url_after (k_pkt (t_rx c)) bs).
Proof.
  intros HT Est Hk HB Hbs HL. pose proof HT as [TL TB S Rx]. rewrite Est in S. destruct S as (_ & S2 & _). specialize (Rx ltac:(congruence)).
  rewrite HB in Rx. destruct Rx as (R1 & _ & R3). rewrite firstn_nil in R1. cbn [length] in R1. specialize (R3 eq_refl). pose proof pktLen_Z as PZ.
  unfold u_data. rewrite Est. unfold u_hello.
  assert (RM : u_receive c (RxBytes bs) = let c1 := z_rx c (mkSdu 0 (length bs) (buf_write (k_pkt (t_rx c)) 0 bs)) in
     if Z.of_nat (length bs) <? le_at 4 bs then Some (c1, UrNoerror) else if negb (Z.of_nat (length bs) =? le_at 4 bs) then Some (c1, UrError) else Some (c1, UrDone)).
  { erewrite (read_more c (RxBytes bs)); [|reflexivity|auto|lia|lia|reflexivity|reflexivity]. cbv zeta. cbn [k_tail k_head k_pkt]. rewrite R1, R3. cbn [Nat.add].
    destruct (Z.ltb_spec (Z.of_nat (length bs)) 8); [lia|]. rewrite size_prefix by (auto; lia).
    destruct (Z.of_nat (length bs) <? le_at 4 bs); [reflexivity|]. destruct (Z.of_nat (length bs) =? le_at 4 bs); reflexivity. }
  cbv zeta in RM. rewrite RM. clear RM.
  destruct (Z.ltb_spec (Z.of_nat (length bs)) (le_at 4 bs)) as [H1|H1]; [split; [discriminate|intros ((_ & _ & X) & _); lia]|].
  destruct (Z.eqb_spec (Z.of_nat (length bs)) (le_at 4 bs)) as [H2|H2]; cbn [negb].
  2:{ split; [|intros ((_ & _ & X) & _); lia]. cbn [u_then]. rewrite (tr_init uid (z_rx c _) (Some uaTimeout)); [discriminate|tcbn; congruence|exact S2]. }
  set (m := buf_write (k_pkt (t_rx c)) 0 bs).
  assert (Em : m = bs ++ skipn (length bs) (k_pkt (t_rx c))) by (unfold m; rewrite bw_put; reflexivity).
  assert (Lm : Z.of_nat (length m) = 4096) by (rewrite Em, app_length, skipn_length; lia).
  assert (Bm : bytes_ok m) by (unfold m; apply bw_bytes; assumption).
  unfold url_after. rewrite <- Em.
  pose proof (hello_at m (length bs) Bm ltac:(lia)) as HA. rewrite Lm in HA. tcbn.
  destruct (dec_hello_msg (mkSdu 0 (length bs) m)) as [x b| | |].
  - unfold u_ack. rewrite ack_packet_eq. unfold u_write. tcbn. rewrite Hk. split; [|intros (_ & X); lia].
    destruct wr as [n|]; cbn [u_then].
    + rewrite (tr_conn uid (z_rx (z_rx c _) b) (Some uaTimeout)); [discriminate|exact Est|exact S2].
    + rewrite (tr_init uid (z_rx (z_rx c _) b) (Some uaTimeout)); [discriminate|tcbn; congruence|exact S2].
  - split; [discriminate|intros (_ & X); lia].
  - contradiction.
  - split; [|reflexivity]. intros _. split; [split; [exact Hbs|split; [lia|auto]]|lia].
Qed.

Lemma hello_exact b0 ini y tr uid c bs w keep : yreach b0 ini y tr -> ulive uid (tproj tr) -> ~ uacked uid (tproj tr) -> uboundary uid (tproj tr) -> conn_of (y_t y) uid = Some c ->
  bytes_ok bs -> 8 <= Z.of_nat (length bs) <= 4096 -> y_enabled y (YNet (EvData uid (RxBytes bs) w) keep) = true ->
  (y_step y (YNet (EvData uid (RxBytes bs) w) keep) = None <-> sized bs /\ 4064 < url_after (k_pkt (t_rx c)) bs).
Proof.
  intros HR HL HA HB Hc Hbs Hn Hen. apply y_reach_inv in HR. destruct HR as [HT _ _ _ _ _ _]. destruct (net_ok _ _ _ Hen) as (B & _ & _). pose proof pktLen_Z as PZ.
  destruct (live_boundary _ _ _ _ HT HL HB) as (Hu & c' & Hc' & HK & Hnth & Hp & Hst & _). rewrite Hc in Hc'. injection Hc' as <-.
  pose proof (enabled_link _ _ _ _ _ Hc B) as Hk. pose proof (acked_st _ _ _ HK) as HS.
  assert (Est : t_st c = UHello) by (destruct (t_st c); [congruence|reflexivity|]; exfalso; apply HA; now apply HS).
  rewrite <- (first_read uid c _ bs w HK Est Hk HB Hbs) by lia.
  cbn [y_step]. unfold y_tsrv. cbn [tsrv_step]. split.
  - intros H. destruct (u_data uid c (RxBytes bs) w) as [[c' os]|] eqn:Ed; [exfalso|reflexivity].
    destruct (data_step uid c _ (RxBytes bs) w c' os HK Hk Hbs Ed) as (_ & HQ).
    destruct (on_total _ _ uid (fun c => u_data uid c (RxBytes bs) w) c _ _ (UaTcpRuns.reach_inv _ _ _ HT) Hu Hc Ed HQ) as (p' & E & _). rewrite E in H. discriminate H.
  - intros H. unfold tsrv_on. rewrite Hp, Hnth, H. reflexivity.
Qed.
Lemma hello_conn b0 ini y tr uid : yreach b0 ini y tr -> ulive uid (tproj tr) -> uboundary uid (tproj tr) -> exists c, conn_of (y_t y) uid = Some c.
Proof.
  intros HR HL HB. apply y_reach_inv in HR. destruct HR as [HT _ _ _ _ _ _]. destruct (live_boundary _ _ _ _ HT HL HB) as (_ & c & Hc & _). eauto.
Qed.
