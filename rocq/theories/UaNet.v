(** Which octets from the network the transport cannot handle, exactly. *)
From Verif Require Import Base QueueModel PoolModel PoolProofs EntProofs ModbusCodecSpec ModbusClientModel ModbusClientProofs UaCodecModel UaCodecSpec UaCodecProofs UaTcpModel UaTcpSpec UaTcpProofs UaTcpRuns UaTcpFacts
  OverloadModel OverloadProofs UaHello UaChanProofs.
Local Open Scope Z_scope.

Lemma le_at_prefix i n p : (i + 4 <= n)%nat -> le_at i (firstn n p) = le_at i p.
Proof. intros H. unfold le_at. rewrite skipn_firstn_comm, firstn_firstn. now replace (Nat.min 4 (n - i)) with 4%nat by lia. Qed.

Lemma skipn_skip {A} i t : forall l : list A, skipn i (skipn t l) = skipn (t + i) l.
Proof. induction t as [|t IH]; intros [|a l]; cbn [skipn Nat.add]; auto. apply skipn_nil. Qed.
Lemma le_at_skip i t p : le_at i (skipn t p) = le_at (t + i) p.
Proof. unfold le_at. now rewrite skipn_skip. Qed.
Lemma size_at q : bytes_ok q -> (8 <= length q)%nat -> getMsgSizeFromHdr q = Some (le_at 4 q).
Proof.
  intros B L. rewrite <- (skipn_O q) at 1. replace q with (buf_write q 0 q) at 1; [apply size_prefix; [lia|exact B]|].
  rewrite bw_put. cbn [firstn app Nat.add]. rewrite skipn_all. apply app_nil_r.
Qed.
Lemma skipn_ok n p : bytes_ok p -> bytes_ok (skipn n p).
Proof. unfold bytes_ok. intros B. rewrite <- (firstn_skipn n p) in B. apply Forall_app in B. apply B. Qed.

(** A read of octets, exactly, when the read cursor is at [t]. *)
Lemma read_at t c bs w : length (k_pkt (t_rx c)) = pktLen -> bytes_ok (k_pkt (t_rx c)) -> rx_ok (t_rx c) w -> k_tail (t_rx c) = t ->
  t_link c = Some true -> bytes_ok bs -> (t + 8 <= length (firstn pktLen (w ++ bs)))%nat -> (length w <= 1024)%nat ->
  exists p, length p = pktLen /\ bytes_ok p /\ firstn (length (firstn pktLen (w ++ bs))) p = firstn pktLen (w ++ bs) /\
  u_receive c (RxBytes bs) = Some (z_rx c (mkSdu t (length (firstn pktLen (w ++ bs))) p),
    let n := Z.of_nat (length (firstn pktLen (w ++ bs))) in
    let s := le_at (t + 4) (firstn pktLen (w ++ bs)) in
    if n <? s then UrNoerror else if n =? s then UrDone else UrError).
Proof.
  intros HL HB (R1 & R2 & _) Ht Hk Hbs H8 Hw. pose proof pktLen_Z as PZ.
  assert (Ew : firstn pktLen w = w) by (apply firstn_all2; lia). rewrite Ew in R1, R2.
  set (bs' := firstn (pktLen - length w) bs).
  assert (Em : firstn pktLen (w ++ bs) = w ++ bs') by (rewrite firstn_app, Ew; reflexivity).
  rewrite Em in *. set (m := w ++ bs') in *.
  assert (Hl' : (length bs' <= pktLen - length w)%nat) by (unfold bs'; rewrite firstn_length; lia).
  assert (Lm : length m = (length w + length bs')%nat) by (unfold m; apply app_length).
  set (p := buf_write (k_pkt (t_rx c)) (length w) bs').
  assert (Lp : length p = pktLen) by (unfold p; rewrite bw_length; lia).
  assert (Bp : bytes_ok p) by (unfold p; apply bw_bytes; [assumption|now apply firstn_bytes]).
  assert (Pp : firstn (length m) p = m) by (rewrite Lm; unfold p, m; rewrite bw_prefix by lia; rewrite R1 in R2; now rewrite R2).
  exists p. split; [exact Lp|]. split; [exact Bp|]. split; [exact Pp|].
  unfold u_receive. rewrite Hk, HL, Ht, R1. destruct (Z.ltb_spec 1024 (Z.of_nat (length w))); [lia|].
  fold bs'. fold p. rewrite <- Lm. destruct (Z.ltb_spec (Z.of_nat (length m)) 8); [lia|].
  assert (G : getMsgSizeFromHdr (skipn t p) = Some (le_at (t + 4) m)).
  { rewrite size_at, le_at_skip; [|now apply skipn_ok|rewrite skipn_length; lia]. rewrite <- Pp at 1. rewrite le_at_prefix by lia. reflexivity. }
  rewrite G. cbv zeta. destruct (Z.of_nat (length m) <? le_at (t + 4) m); [reflexivity|]. destruct (Z.of_nat (length m) =? le_at (t + 4) m); reflexivity.
Qed.
Lemma read_exact c bs w : length (k_pkt (t_rx c)) = pktLen -> bytes_ok (k_pkt (t_rx c)) -> rx_ok (t_rx c) w -> k_tail (t_rx c) = 0%nat ->
  t_link c = Some true -> bytes_ok bs -> (8 <= length (firstn pktLen (w ++ bs)))%nat -> (length w <= 1024)%nat ->
  exists p, length p = pktLen /\ bytes_ok p /\ firstn (length (firstn pktLen (w ++ bs))) p = firstn pktLen (w ++ bs) /\
  u_receive c (RxBytes bs) = Some (z_rx c (mkSdu 0 (length (firstn pktLen (w ++ bs))) p),
    let n := Z.of_nat (length (firstn pktLen (w ++ bs))) in
    let s := le_at 4 (firstn pktLen (w ++ bs)) in
    if n <? s then UrNoerror else if n =? s then UrDone else UrError).
Proof. apply (read_at 0). Qed.

(** ** Past the handshake *)
Definition forwarded (m : list Z) (chan : option Z) : Prop := has_type m KOpn \/ exists k, has_type m k /\ chan = Some (le_at 8 m).

Lemma uhdr_chan p h : bytes_ok p -> (12 <= length p)%nat -> exists hd, dec_uhdr uhdr0 (mkSdu 0 h p) = DOk hd (mkSdu 12 h p) /\ uh_chan hd = le_at 8 p.
Proof.
  intros Hp HL. destruct (wire_parts p Hp HL) as (a & b & c & f & rest & Em & _ & A & B & C & F & S & Ch & N & T).
  assert (W : wf_uhdr (mkUh (firstn 3 p) (nth 3 p 0) (le_at 4 p) (le_at 8 p))).
  { unfold wf_uhdr. cbn [uh_type uh_final uh_size uh_chan]. rewrite T, N.
    split; [split; [fb|reflexivity]|]. repeat split; auto; unfold is_u32, is_byte in *; lia. }
  apply R_uhdr in W.
  assert (E : s_uhdr (mkUh (firstn 3 p) (nth 3 p 0) (le_at 4 p) (le_at 8 p)) = firstn 12 p).
  { unfold s_uhdr, s_1, s_4. cbn [uh_type uh_final uh_size uh_chan]. rewrite T, N.
    assert (E1 : le_bytes 1 f = [f]) by (cbn; f_equal; unfold is_byte in F; lia). rewrite E1.
    rewrite Em at 3. reflexivity. }
  rewrite E in W. specialize (W (mkSdu 0 h p)). cbn [k_tail k_head k_pkt Nat.add] in W.
  rewrite firstn_length, Nat.min_l in W by lia. eexists. split; [apply W|reflexivity]. apply holds_iff. exists (skipn 12 p).
  cbn [k_pkt]. rewrite skipn_O, firstn_skipn. reflexivity.
Qed.
Lemma read_small c bs w : length (k_pkt (t_rx c)) = pktLen -> rx_ok (t_rx c) w -> t_link c = Some true ->
  (length (firstn pktLen (w ++ bs)) < 8)%nat -> exists c1, u_receive c (RxBytes bs) = Some (c1, UrNoerror).
Proof.
  intros HL (R1 & _) Hk H8. pose proof pktLen_Z as PZ. rewrite firstn_length, app_length in H8. rewrite firstn_length in R1.
  eexists. erewrite (read_more c _ _ (Some UrNoerror) bs eq_refl Hk); [reflexivity|lia|lia|reflexivity|].
  cbv zeta. cbn [k_head]. destruct (Z.ltb_spec (Z.of_nat (k_head (t_rx c) + length bs)) 8); [reflexivity|lia].
Qed.
Lemma read_much c r w : rx_ok (t_rx c) w -> (1024 < length w)%nat -> u_receive c r = Some (c, UrError).
Proof.
  intros (R1 & _) H. pose proof pktLen_Z as PZ. rewrite firstn_length in R1. unfold u_receive. destruct (Z.ltb_spec 1024 (Z.of_nat (k_head (t_rx c)))); [reflexivity|lia].
Qed.
Lemma rx_bytes c w bs : bytes_ok (k_pkt (t_rx c)) -> rx_ok (t_rx c) w -> bytes_ok bs -> bytes_ok (firstn pktLen (w ++ bs)).
Proof.
  intros HB (_ & R2 & _) Hbs. rewrite firstn_app. unfold bytes_ok. apply Forall_app. split; [|now apply firstn_bytes]. rewrite <- R2. now apply firstn_bytes.
Qed.

Lemma conn_read uid c w bs wr m : TOK uid c w -> t_st c = UConn -> t_link c = Some true -> bytes_ok bs -> m = firstn pktLen (g_rx w ++ bs) ->
  (u_data uid c (RxBytes bs) wr = None <-> (length (g_rx w) <= 1024)%nat /\ sized m /\ 4072 < Z.of_nat (length m) /\ forwarded m (g_chan w)).
Proof.
  intros HT Est Hk Hbs Hm. pose proof HT as [TL TB S Rx]. rewrite Est in S. destruct S as (_ & S2 & _ & S4 & _ & _ & S7). specialize (Rx ltac:(congruence)). pose proof pktLen_Z as PZ.
  assert (F : forall c1, t_st c1 = UConn -> t_timer c1 = t_timer c -> u_then (Some (c1, [])) (u_fail uid) <> None).
  { intros c1 E1 E2. cbn [u_then]. rewrite (fail_eq uid c1 (Some uaTimeout)); [discriminate|congruence|congruence]. }
  unfold u_data. rewrite Est. unfold u_secured.
  destruct (le_lt_dec (length (g_rx w)) 1024) as [Hw|Hw].
  2:{ rewrite (read_much c _ _ Rx Hw). split; [intros X; exfalso; now apply (F c)|intros (X & _); lia]. }
  destruct (le_lt_dec 8 (length m)) as [H8|H8].
  2:{ rewrite Hm in H8. destruct (read_small c bs _ TL Rx Hk H8) as [c1 ->]. rewrite <- Hm in H8. split; [discriminate|intros (_ & (_ & X & _) & _); lia]. }
  assert (Bm : bytes_ok m) by (rewrite Hm; eapply rx_bytes; eauto).
  destruct (read_exact c bs (g_rx w) TL TB Rx S7 Hk Hbs) as (p & Lp & Bp & Pp & ->); [congruence|exact Hw|]. rewrite <- Hm in *. cbv zeta.
  set (c1 := z_rx c (mkSdu 0 (length m) p)).
  destruct (Z.ltb_spec (Z.of_nat (length m)) (le_at 4 m)) as [H1|H1]; [split; [discriminate|intros (_ & (_ & _ & X) & _); lia]|].
  destruct (Z.eqb_spec (Z.of_nat (length m)) (le_at 4 m)) as [H2|H2].
  2:{ split; [intros X; exfalso; now apply (F c1)|intros (_ & (_ & _ & X) & _); lia]. }
  assert (SZ : sized m) by (split; [exact Bm|split; [exact H8|auto]]).
  unfold c1 at 1 2 3. cbn [z_rx t_rx k_tail k_pkt k_head]. rewrite skipn_O.
  destruct (uhdr_chan p (length m) Bp ltac:(lia)) as (hd & -> & Eh). cbn [k_head k_tail k_pkt]. fold c1.
  set (c2 := z_rx c1 (mkSdu 12 (length m) p)).
  assert (D : forall o, u_then (Some (c2, o)) (fun c => match u_arm uid c with Some (c2, o2) => Some (z_rx c2 (sdu_reset (t_rx c2)), o2) | None => None end) <> None).
  { intros o. cbn [u_then]. unfold u_arm, c2, c1. tcbn. rewrite S2. discriminate. }
  assert (F2 : u_then (Some (c2, [])) (u_fail uid) <> None) by (apply F; reflexivity || exact Est).
  assert (Hty : forall k, has_type m k <-> kind_of p = Some k).
  { intros k. unfold has_type. rewrite <- Pp, firstn_firstn. replace (Nat.min 3 (length m)) with 3%nat by lia.
    destruct p as [|a [|b [|d p]]]; cbn [length] in Lp; try lia. cbn [firstn]. symmetry. apply kind_of_spec. }
  destruct (Z.ltb_spec msgRoom (Z.of_nat (length m))) as [Hb|Hb]; unfold msgRoom in Hb.
  2:{ split; [|intros (_ & _ & X & _); lia]. destruct (kind_of p) as [[| |]|]; [destruct (t_chan c) as [a|]; [destruct (a =? uh_chan hd)|]| |destruct (t_chan c) as [a|]; [destruct (a =? uh_chan hd)|]|];
      intros X; exfalso; [exact (D _ X)|exact (F2 X)|exact (F2 X)|exact (D _ X)|exact (D _ X)|exact (F2 X)|exact (F2 X)|exact (F2 X)]. }
  assert (E8 : uh_chan hd = le_at 8 m) by (rewrite Eh, <- Pp; symmetry; apply le_at_prefix; lia). rewrite E8, S4.
  assert (Iff : forwarded m (g_chan w) <-> kind_of p = Some KOpn \/ kind_of p <> None /\ g_chan w = Some (le_at 8 m)).
  { unfold forwarded. rewrite Hty. split; (intros [X|X]; [now left|right]).
    - destruct X as (k & X & Y). apply Hty in X. split; [congruence|exact Y].
    - destruct X as (X & Y). destruct (kind_of p) as [k|] eqn:Ek; [|congruence]. exists k. split; [now apply Hty|exact Y]. }
  destruct (kind_of p) as [k|].
  2:{ split; [intros X; exfalso; now apply F2|intros (_ & _ & _ & X); apply Iff in X; intuition congruence]. }
  destruct k.
  2:{ split; [intros _|reflexivity]. split; [exact Hw|]. split; [exact SZ|]. split; [exact Hb|]. apply Iff. auto. }
  all: destruct (g_chan w) as [a|]; [destruct (Z.eqb_spec a (le_at 8 m)) as [->|Ne]|].
  all: try (split; [intros _|reflexivity]; split; [exact Hw|]; split; [exact SZ|]; split; [exact Hb|]; apply Iff; right; split; [discriminate|reflexivity]).
  all: split; [intros X; exfalso; now apply F2|intros (_ & _ & _ & X); apply Iff in X; intuition congruence].
Qed.

Lemma acked_read b0 v tr uid bs wr m : ureach b0 v tr -> uacked uid tr -> bytes_ok bs -> tsrv_enabled v (EvData uid (RxBytes bs) wr) = true ->
  m = firstn (Z.to_nat 4096) (g_rx (uview_of uid tr) ++ bs) ->
  (tsrv_step v (EvData uid (RxBytes bs) wr) = None <->
   (length (g_rx (uview_of uid tr)) <= 1024)%nat /\ sized m /\ 4072 < Z.of_nat (length m) /\ forwarded m (uchan uid tr)).
Proof.
  intros HR HA Hbs Hen Hm. pose proof (acked_live _ _ _ _ HR HA) as HL. pose proof (live_range _ _ _ _ HR HL) as Hu.
  destruct (conn_inv _ _ uid (UaTcpRuns.reach_inv _ _ _ HR) Hu) as (c & Hc & HT & En & Eg).
  assert (Est : t_st c = UConn) by (apply (acked_st _ _ _ HT); exact HA). pose proof (enabled_link _ _ _ _ _ Hc Hen) as Hk.
  rewrite <- (conn_read uid c _ bs wr m HT Est Hk Hbs Hm). cbn [tsrv_step]. split.
  - intros H. destruct (u_data uid c (RxBytes bs) wr) as [[c' os]|] eqn:Ed; [exfalso|reflexivity].
    destruct (data_step uid c _ (RxBytes bs) wr c' os HT Hk Hbs Ed) as (_ & HQ).
    destruct (on_total _ _ uid (fun c => u_data uid c (RxBytes bs) wr) c _ _ (UaTcpRuns.reach_inv _ _ _ HR) Hu Hc Ed HQ) as (p' & E & _). rewrite E in H. discriminate H.
  - intros H. unfold tsrv_on. rewrite Eg, En, H. reflexivity.
Qed.

(** ** The handshake *)
Lemma hello_tail b0 v tr u : ureach b0 v tr -> forall c, conn_at v u = Some c -> t_st c = UHello -> k_tail (t_rx c) = (32 * uthrows u tr)%nat.
Proof.
  induction 1 as [v Hm Hn|v tr e v' os HR IH Hev Hen Hs]; intros c' Ec Est.
  { apply conn_at_inv in Ec as [Hu Ec]. pose proof (UaTcpRuns.reach_inv _ _ _ (ur_new b0 v Hm Hn)) as I. destruct (conn_inv _ _ u I Hu) as (c & Hc & HT & _).
    rewrite Ec in Hc. injection Hc as <-. destruct HT as [_ _ _ Rx]. specialize (Rx ltac:(congruence)). destruct Rx as (_ & _ & R3). apply R3. reflexivity. }
  assert (Hw : uthrows u (tr ++ [(e, os)]) = throws_next u (uthrows u tr) (e, os)) by (unfold uthrows; rewrite fold_left_app; reflexivity). rewrite Hw. clear Hw.
  pose proof (step_kept b0 v tr e v' os u c' HR Hev Hen Hs Ec ltac:(congruence)) as K.
  pose proof (UaTcpRuns.reach_inv _ _ _ HR) as I. destruct (step_inv _ _ _ _ _ I Hev Hen Hs) as [I' T]. apply conn_at_inv in Ec as [Hu Ec].
  destruct (conn_inv _ _ u I' Hu) as (c1 & Hc1 & HT' & _). rewrite Ec in Hc1. injection Hc1 as <-.
  destruct K as [K1 K2 K3|c K1 K2 K3 K4 K5 K6|K1 K2 K3 K4].
  - specialize (IH c' K2 Est). unfold throws_next. cbn [fst snd]. destruct e as [? ? ?|t r w|t|t|k m w|t]; cbn [target] in K1; try exact IH.
    + destruct (existsb (is_uarm u) os) eqn:Ea; [exfalso|exact IH]. apply existsb_exists in Ea as (o & Hi & Ho). rewrite Forall_forall in K3. specialize (K3 o Hi).
      destruct o; try discriminate Ho. cbn in Ho, K3. apply Z.eqb_eq in Ho. destruct K3 as [K3|K3]; [now apply K3|discriminate].
    + destruct (Z.eqb_spec t u) as [->|Ne]; [congruence|exact IH].
  - rewrite conn_at_of in K2 by auto.
    assert (Cc : t_st c = UHello).
    { destruct (conn_inv _ _ u I Hu) as (c2 & Hc2 & HT & _). rewrite K2 in Hc2. injection Hc2 as <-. destruct (t_st c) eqn:Es; [congruence|reflexivity|exfalso].
      destruct HT as [_ _ S _]. rewrite Es in S. destruct S as (_ & _ & _ & _ & S & _). destruct HT' as [_ _ S' _]. rewrite Est in S'. destruct S' as (_ & _ & _ & _ & _ & S' & _).
      rewrite uview_snoc in S'. cbn [uview_next g_acked] in S'. rewrite K4, S in S'. discriminate S'. }
    assert (IHc : k_tail (t_rx c) = (32 * uthrows u tr)%nat) by (apply IH; [now rewrite conn_at_of|exact Cc]).
    destruct T as [e t k d d' v' os Et Ht Ed Ed' HT HQ Ek Ek'|b1 b2 tok v' os Hb -> ->|tok v' os Hl ->|t v' os Hl Ht Hnl ->|t v' os Hl Ht Hnl ->]; try discriminate K1.
    assert (t = u) by congruence. subst t. assert (d = c) by congruence. subst d. assert (d' = c') by congruence. subst d'.
    destruct HT as [TL TB TS TR]. specialize (TR ltac:(congruence)).
    subst k. destruct e as [? ? ?|x r w|x|x|kd m w|x]; cbn [target] in Et; try discriminate; cbn beta in Ek.
    + injection Et as ->. destruct K6 as (Kl & _). unfold u_data in Ek. rewrite Cc in Ek. rewrite Cc in TS. destruct TS as (_ & S2 & _).
      assert (Hb : throws_next u (uthrows u tr) (EvData u r w, os) = if existsb is_uthrow os then S (uthrows u tr) else uthrows u tr) by (unfold throws_next; cbn [fst snd]; now rewrite Z.eqb_refl).
      rewrite Hb. clear Hb.
      destruct (u_hello u c r w) as [[[c1 o] res]|] eqn:Eh; [|discriminate Ek].
      destruct (hello_ok u c _ r w c1 o res TL TB TR Kl Hev Eh) as ([A1 A2 A3 A4 A5 A6] & HC).
      destruct res.
      * apply some2 in Ek as (<- & <-). assert (o = []) by (destruct HC as [(X & _)|[(X & _)|[(_ & X & _)|(X & _)]]]; [discriminate X|discriminate X|exact X|discriminate X]). subst o. cbn [existsb].
        unfold u_hello in Eh. destruct (u_receive c r) as [[c2 res2]|] eqn:Er; [|discriminate Eh].
        destruct (receive_ok c _ r c2 res2 TL TB TR Kl Hev Er) as (_ & Etl & _ & _). destruct res2.
        -- apply some3 in Eh as (<- & _). now rewrite Etl.
        -- exfalso. destruct (dec_hello_msg (t_rx c2)) as [x b| | |]; [|discriminate Eh..]. unfold u_ack in Eh. rewrite ack_packet_eq in Eh. destruct (u_write u c2 ack_packet w) as [[? []]|]; discriminate Eh.
        -- discriminate Eh.
        -- discriminate Eh.
      * exfalso. cbn [u_then] in Ek. rewrite (tr_conn u c1 (Some uaTimeout)) in Ek by congruence. apply some2 in Ek as (<- & _). discriminate Est.
      * exfalso. cbn [u_then] in Ek. rewrite (tr_init u c1 (Some uaTimeout)) in Ek by congruence. apply some2 in Ek as (<- & _). discriminate Est.
      * apply some2 in Ek as (<- & <-). assert (o = [UThrow]) by (destruct HC as [(X & _)|[(X & _)|[(X & _)|(_ & X & _)]]]; [discriminate X|discriminate X|discriminate X|exact X]). subst o. cbn [existsb is_uthrow orb].
        unfold u_hello in Eh. destruct (u_receive c r) as [[c2 res2]|] eqn:Er; [|discriminate Eh].
        destruct (receive_ok c _ r c2 res2 TL TB TR Kl Hev Er) as (_ & Etl & _ & _). destruct res2; [discriminate Eh| |discriminate Eh|discriminate Eh].
        destruct (dec_hello_msg (t_rx c2)) as [x b| | |]; [exfalso| |discriminate Eh..].
        -- unfold u_ack in Eh. rewrite ack_packet_eq in Eh. destruct (u_write u c2 ack_packet w) as [[? []]|]; discriminate Eh.
        -- apply some3 in Eh as (<- & _). tcbn. lia.
    + apply some2 in Ek as (<- & _). unfold u_error. cbn [z_link t_rx]. exact IHc.
    + contradiction.
    + unfold u_msg in Ek. rewrite Cc in Ek. apply some2 in Ek as (<- & _). exact IHc.
    + unfold u_release in Ek. rewrite Cc in Ek. apply some2 in Ek as (<- & _). exact IHc.
  - subst e os. unfold throws_next. cbn [fst snd existsb is_uarm]. rewrite Z.eqb_refl. cbn [orb].
    destruct HT' as [_ _ _ Rx]. specialize (Rx ltac:(congruence)). destruct Rx as (_ & _ & R3). apply R3. rewrite uview_snoc. cbn [uview_next g_rx existsb is_uarm]. now rewrite Z.eqb_refl.
Qed.

(** Decoding from the read cursor is decoding what is behind it. *)
Definition Sh {A} (d : rd A) : Prop := forall t i h p,
  match d (mkSdu i h (skipn t p)) with
  | DOk x b => b = mkSdu (k_tail b) h (skipn t p) /\ d (mkSdu (t + i) h p) = DOk x (mkSdu (t + k_tail b) h p)
  | DThrow => d (mkSdu (t + i) h p) = DThrow
  | DAbort => d (mkSdu (t + i) h p) = DAbort
  | DOob => d (mkSdu (t + i) h p) = DOob
  end.
Lemma Sh_ret {A} (x : A) : Sh (ret x).
Proof. intros t i h p. unfold ret. auto. Qed.
Lemma Sh_bind {A B} (m : rd A) (k : A -> rd B) : Sh m -> (forall a, Sh (k a)) -> Sh (bind m k).
Proof.
  intros Hm Hk t i h p. unfold bind. specialize (Hm t i h p). destruct (m (mkSdu i h (skipn t p))) as [a b| | |]; [|now rewrite Hm..].
  destruct Hm as [Hb ->]. rewrite Hb. apply Hk.
Qed.
Lemma nth_error_skip {A} (l : list A) t : forall i, nth_error (skipn t l) i = nth_error l (t + i).
Proof. revert l. induction t as [|t IH]; intros l i; [reflexivity|]. destruct l as [|a l]; [now destruct i|]. cbn [skipn Nat.add nth_error]. apply IH. Qed.
Lemma Sh_read : Sh read.
Proof. intros t i h p. unfold read. cbn [k_pkt k_tail k_head]. rewrite nth_error_skip. destruct (nth_error p (t + i)); [|reflexivity]. split; [reflexivity|]. cbn [k_tail]. now rewrite Nat.add_succ_r. Qed.
Lemma Sh_if {A} (c : bool) (x y : rd A) : Sh x -> Sh y -> Sh (if c then x else y).
Proof. now destruct c. Qed.
Lemma Sh_throw {A} : Sh (fun _ => @DThrow A). Proof. intros t i h p. reflexivity. Qed.
Lemma Sh_rdn n : Sh (rdn n).
Proof. induction n as [|n IH]; cbn [rdn]; [apply Sh_ret|]. apply Sh_bind; [apply Sh_read|intros]. apply Sh_bind; [exact IH|intros; apply Sh_ret]. Qed.
Lemma Sh_hello : Sh dec_hello_msg.
Proof.
  assert (S4 : Sh dec_u32) by (unfold dec_u32, rd32; repeat (apply Sh_bind; [apply Sh_read|intros]); apply Sh_ret).
  unfold dec_hello_msg. apply Sh_bind; [|intros].
  - unfold dec_mhdr. apply Sh_bind; [|intros; apply Sh_bind; [apply Sh_read|intros; apply Sh_bind; [exact S4|intros; apply Sh_ret]]].
    cbn. repeat (apply Sh_bind; [apply Sh_read|intros]). all: repeat first [apply Sh_ret|apply Sh_bind; [|intros]|apply Sh_read].
  - unfold dec_hello. do 5 (apply Sh_bind; [exact S4|intros]). apply Sh_bind; [|intros; apply Sh_ret].
    unfold dec_string. apply Sh_bind; [unfold dec_i32; apply Sh_bind; [exact S4|intros; apply Sh_ret]|intros]. apply Sh_if; [apply Sh_ret|]. apply Sh_if; [apply Sh_throw|apply Sh_rdn].
Qed.

Lemma wait_read uid c w bs wr m t : TOK uid c w -> t_st c = UHello -> t_link c = Some true -> k_tail (t_rx c) = t -> bytes_ok bs -> m = firstn pktLen (g_rx w ++ bs) ->
  ((1024 < length (g_rx w))%nat \/ (length m < 8)%nat \/ ((t + 8 <= length m)%nat /\ le_at (t + 4) m <> Z.of_nat (length m)) -> u_data uid c (RxBytes bs) wr <> None) /\
  ((t + 32 <= length m)%nat -> (u_data uid c (RxBytes bs) wr = None <-> (length (g_rx w) <= 1024)%nat /\ le_at (t + 4) m = Z.of_nat (length m) /\ 4064 - Z.of_nat t < le_at (t + 28) m < 2147483648)).
Proof.
  intros HT Est Hk Ht Hbs Hm. pose proof HT as [TL TB S Rx]. rewrite Est in S. destruct S as (_ & S2 & _). specialize (Rx ltac:(congruence)). pose proof pktLen_Z as PZ.
  assert (F : forall c1, t_st c1 = UHello -> t_timer c1 = t_timer c -> u_then (Some (c1, [])) (fun c => u_transit uid c UInit) <> None).
  { intros c1 E1 E2. cbn [u_then]. rewrite (tr_init uid c1 (Some uaTimeout)); [discriminate|congruence|congruence]. }
  unfold u_data. rewrite Est. unfold u_hello.
  destruct (le_lt_dec (length (g_rx w)) 1024) as [Hw|Hw].
  2:{ rewrite (read_much c _ _ Rx Hw). split; [intros _; now apply (F c)|]. intros _. split; [intros X; exfalso; now apply (F c)|intros (X & _); lia]. }
  destruct (le_lt_dec 8 (length m)) as [H8|H8].
  2:{ rewrite Hm in H8. destruct (read_small c bs _ TL Rx Hk H8) as [c1 ->]. rewrite <- Hm in H8. split; [discriminate|]. intros; lia. }
  destruct (le_lt_dec (t + 8) (length m)) as [H9|H9].
  2:{ split; [intros [X|[X|(X & _)]]; lia|intros; lia]. }
  assert (Bm : bytes_ok m) by (rewrite Hm; eapply rx_bytes; eauto).
  destruct (read_at t c bs (g_rx w) TL TB Rx Ht Hk Hbs) as (p & Lp & Bp & Pp & ->); [congruence|exact Hw|]. rewrite <- Hm in *. cbv zeta.
  set (c1 := z_rx c (mkSdu t (length m) p)).
  destruct (Z.ltb_spec (Z.of_nat (length m)) (le_at (t + 4) m)) as [H1|H1].
  { split; [discriminate|]. intros _. split; [discriminate|intros (_ & X & _); lia]. }
  destruct (Z.eqb_spec (Z.of_nat (length m)) (le_at (t + 4) m)) as [H2|H2].
  2:{ split; [intros _; now apply (F c1)|]. intros _. split; [intros X; exfalso; now apply (F c1)|intros (_ & X & _); lia]. }
  split; [intros [X|[X|(_ & X)]]; [lia|lia|congruence]|]. intros H32. assert (Lm : (length m <= pktLen)%nat) by (rewrite Hm, firstn_length; lia).
  pose proof (hello_at (skipn t p) (length m) (skipn_ok t p Bp) ltac:(rewrite skipn_length; lia)) as HA. pose proof (Sh_hello t 0%nat (length m) p) as HS. rewrite Nat.add_0_r in HS.
  change (t_rx c1) with (mkSdu t (length m) p).
  assert (E28 : le_at 28 (skipn t p) = le_at (t + 28) m) by (rewrite le_at_skip; rewrite <- Pp; symmetry; apply le_at_prefix; lia). unfold url_len in HA. rewrite E28, skipn_length, Lp in HA.
  pose proof (UaChanProofs.le_at_bound (t + 28) m Bm) as U. unfold is_u32 in U.
  destruct (dec_hello_msg (mkSdu 0 (length m) (skipn t p))) as [x b| | |].
  - destruct HS as [_ ->]. split; [|intros (_ & _ & X); destruct (Z.ltb_spec (le_at (t + 28) m) 2147483648); lia]. intros X. exfalso. unfold u_ack in X. rewrite ack_packet_eq in X. unfold u_write in X.
    change (t_link c1) with (t_link c) in X. rewrite Hk in X. destruct wr as [n|]; cbn [u_then] in X.
    + rewrite (tr_conn uid (z_rx c1 _) (Some uaTimeout)) in X; [discriminate X|exact Est|exact S2].
    + rewrite (tr_init uid (z_rx c1 _) (Some uaTimeout)) in X; [discriminate X|change (t_st c <> UInit); congruence|exact S2].
  - rewrite HS. split; [discriminate|]. intros (_ & _ & X). destruct (Z.ltb_spec (le_at (t + 28) m) 2147483648); lia.
  - contradiction.
  - rewrite HS. split; [|reflexivity]. intros _. split; [exact Hw|]. split; [auto|]. destruct (Z.ltb_spec (le_at (t + 28) m) 2147483648); lia.
Qed.
Lemma waiting_read b0 v tr uid bs wr m t : ureach b0 v tr -> ulive uid tr -> ~ uacked uid tr -> t = (32 * uthrows uid tr)%nat -> bytes_ok bs -> tsrv_enabled v (EvData uid (RxBytes bs) wr) = true ->
  m = firstn (Z.to_nat 4096) (g_rx (uview_of uid tr) ++ bs) ->
  ((1024 < length (g_rx (uview_of uid tr)))%nat \/ (length m < 8)%nat \/ ((t + 8 <= length m)%nat /\ le_at (t + 4) m <> Z.of_nat (length m)) ->
    tsrv_step v (EvData uid (RxBytes bs) wr) <> None) /\
  ((t + 32 <= length m)%nat -> (tsrv_step v (EvData uid (RxBytes bs) wr) = None <->
     (length (g_rx (uview_of uid tr)) <= 1024)%nat /\ le_at (t + 4) m = Z.of_nat (length m) /\ 4064 - Z.of_nat t < le_at (t + 28) m < 2147483648)).
Proof.
  intros HR HL HA Hth Hbs Hen Hm. pose proof (live_range _ _ _ _ HR HL) as Hu.
  destruct (conn_inv _ _ uid (UaTcpRuns.reach_inv _ _ _ HR) Hu) as (c & Hc & HT & En & Eg). pose proof (acked_st _ _ _ HT) as HS. apply (live_iff _ _ _ HT) in HL.
  assert (Est : t_st c = UHello) by (destruct (t_st c); [congruence|reflexivity|]; exfalso; apply HA; now apply HS). pose proof (enabled_link _ _ _ _ _ Hc Hen) as Hk.
  assert (Ht : k_tail (t_rx c) = t) by (rewrite Hth; apply (hello_tail b0 v tr uid HR); [now rewrite conn_at_of|exact Est]).
  assert (Iff : tsrv_step v (EvData uid (RxBytes bs) wr) = None <-> u_data uid c (RxBytes bs) wr = None).
  { cbn [tsrv_step]. split.
    - intros H. destruct (u_data uid c (RxBytes bs) wr) as [[c' os]|] eqn:Ed; [exfalso|reflexivity].
      destruct (data_step uid c _ (RxBytes bs) wr c' os HT Hk Hbs Ed) as (_ & HQ).
      destruct (on_total _ _ uid (fun c => u_data uid c (RxBytes bs) wr) c _ _ (UaTcpRuns.reach_inv _ _ _ HR) Hu Hc Ed HQ) as (p' & E & _). rewrite E in H. discriminate H.
    - intros H. unfold tsrv_on. rewrite Eg, En, H. reflexivity. }
  destruct (wait_read uid c _ bs wr m t HT Est Hk Ht Hbs Hm) as [W1 W2]. rewrite Iff. split; [exact W1|exact W2].
Qed.
