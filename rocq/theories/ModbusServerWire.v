(** What the Modbus server forwards and transmits. *)
From Verif Require Import Base QueueModel QueueSpec QueueProofs PoolModel PoolSpec PoolProofs ModbusCodecModel ModbusCodecSpec ModbusCodecProofs
  ModbusClientModel ModbusClientSpec ModbusClientProofs ModbusClientRuns ModbusServerModel ModbusServerSpec ModbusServerProofs
  ModbusServerRuns ModbusServerFacts.
Local Open Scope Z_scope.

Lemma u16_id z : is_u16 z -> u16 z = z.
Proof. unfold is_u16, u16. intros. now apply Z.mod_small. Qed.

Lemma decode_carried uid fr junk q q' rest : bytes_ok (fr ++ junk) -> adu_ok q ->
  aduPktLen (fr ++ junk) + 6 = Z.of_nat (length fr) -> Z.of_nat (length fr) < 260 -> (6 <= length fr)%nat ->
  decode_into (fr ++ junk) q = IOk q' rest -> carried fr (req_msg uid q').
Proof.
  intros Hb Ha Hp Hl H6 H.
  destruct fr as [|z fr]; [cbn in H6; lia|]. destruct fr as [|z0 fr]; [cbn in H6; lia|].
  destruct fr as [|z1 fr]; [cbn in H6; lia|]. destruct fr as [|z2 fr]; [cbn in H6; lia|].
  destruct fr as [|z3 fr]; [cbn in H6; lia|]. destruct fr as [|z4 fr]; [cbn in H6; lia|].
  cbn [app] in Hb, H. unfold bytes_ok in Hb.
  repeat match type of Hb with Forall _ (_ :: _) => apply Forall_cons_iff in Hb as [? Hb] end.
  unfold aduPktLen in Hp. cbn [app nth length] in Hp, Hl.
  unfold decode_into, irdBe, ird in H.
  destruct (Z.eqb_spec (z1 * 256 + z2) modbusProtocolId) as [Hpr|]; cbn [negb] in H; [|discriminate].
  assert (z1 = 0 /\ z2 = 0) as [-> ->] by (unfold is_byte, modbusProtocolId in *; lia).
  assert (Hw : forall b, bytes_ok b -> length b = length fr -> (2 <= length fr)%nat -> wf_frame (z :: z0 :: 0 :: 0 :: z3 :: z4 :: b)).
  { intros b Hbb Hbl Hb2. split; [unfold bytes_ok; repeat (apply Forall_cons; [first [assumption|unfold is_byte; lia]|]); exact Hbb|]. split; [cbn [length]; lia|].
    exists z, z0, z3, z4, b. split; [reflexivity|]. lia. }
  apply Forall_app in Hb as [Hbf Hbj].
  assert (G : forall n, (n <= length fr)%nat -> exists a b, fr = a ++ b /\ length a = n).
  { intros n Hn. exists (firstn n fr), (skipn n fr). rewrite firstn_skipn, firstn_length. split; auto. lia. }
  destruct (fr ++ junk) as [|a r] eqn:E1; [discriminate|].
  destruct (Z.leb_spec a maxAddr) as [Had|]; cbn [negb] in H; [|discriminate].
  destruct r as [|f r]; [discriminate|].
  destruct (is_read_bits f || is_read_regs f) eqn:F1.
  { destruct (Z.eqb_spec (z3 * 256 + z4) 6) as [H66|]; cbn [negb] in H; [|discriminate].
    destruct fr as [|c0 fr]; [cbn [length] in Hp; lia|]. destruct fr as [|c1 fr]; [cbn [length] in Hp; lia|].
    destruct fr as [|c2 fr]; [cbn [length] in Hp; lia|]. destruct fr as [|c3 fr]; [cbn [length] in Hp; lia|].
    destruct fr as [|c4 fr]; [cbn [length] in Hp; lia|]. destruct fr as [|c5 fr]; [cbn [length] in Hp; lia|]. destruct fr; [|cbn [length] in Hp; lia].
    cbn [app] in E1. injection E1 as -> -> <-. wcbn_in H.
    destruct (maxPduLen <? pduLen f (c4 * 256 + c5)); [discriminate|]. injection H as <- <-.
    unfold carried, req_msg. wcbn. unfold frame_tid, frame_unit, frame_func; cbn [nth].
    unfold bytes_ok in Hbf. repeat match type of Hbf with Forall _ (_ :: _) => apply Forall_cons_iff in Hbf as [? Hbf] end.
    rewrite u16_id by (apply be_u16; auto).
    assert (Hf : In f [1; 2; 3; 4]) by (unfold is_read_bits, is_read_regs, readCoilStatus, readDiscreteInputs, readHoldingRegisters, readInputRegisters in F1; cbn; lia).
    split; [apply Hw; [unfold bytes_ok; repeat (apply Forall_cons; [assumption|]); auto; constructor|reflexivity|cbn [length]; lia]|]. do 4 (split; [reflexivity|]).
    split; [cbn in Hf |- *; tauto|]. split; [reflexivity|]. split; intros X; cbn in Hf, X; exfalso; lia. }
  destruct (is_single f) eqn:F2.
  { destruct (Z.eqb_spec (z3 * 256 + z4) 6) as [H66|]; cbn [negb] in H; [|discriminate].
    destruct fr as [|c0 fr]; [cbn [length] in Hp; lia|]. destruct fr as [|c1 fr]; [cbn [length] in Hp; lia|].
    destruct fr as [|c2 fr]; [cbn [length] in Hp; lia|]. destruct fr as [|c3 fr]; [cbn [length] in Hp; lia|].
    destruct fr as [|c4 fr]; [cbn [length] in Hp; lia|]. destruct fr as [|c5 fr]; [cbn [length] in Hp; lia|]. destruct fr; [|cbn [length] in Hp; lia].
    cbn [app] in E1. injection E1 as -> -> <-. wcbn_in H.
    destruct (Nat.ltb_spec 1 (length (q_data q))) as [Hd|]; [|discriminate]. injection H as <- <-.
    unfold carried, req_msg. wcbn. unfold frame_tid, frame_unit, frame_func; cbn [nth].
    unfold bytes_ok in Hbf. repeat match type of Hbf with Forall _ (_ :: _) => apply Forall_cons_iff in Hbf as [? Hbf] end.
    rewrite u16_id by (apply be_u16; auto).
    assert (Hf : In f [5; 6]) by (unfold is_single, forceSingleCoil, presetSingleRegister in F2; cbn; lia).
    split; [apply Hw; [unfold bytes_ok; repeat (apply Forall_cons; [assumption|]); auto; constructor|reflexivity|cbn [length]; lia]|]. do 4 (split; [reflexivity|]).
    split; [cbn in Hf |- *; tauto|]. split; [intros X; cbn in Hf, X; exfalso; lia|].
    split; [|intros X; cbn in Hf; exfalso; lia]. intros _. split; [reflexivity|].
    change (Z.to_nat 2) with 2%nat. now apply firstn_upd2. }
  destruct (is_multi f) eqn:F3; [|discriminate].
  assert (f = 16) as -> by (unfold is_multi, presetMultipleRegisters in F3; lia).
  destruct r as [|s1 r]; [discriminate|]. destruct r as [|s0 r]; [discriminate|].
  destruct r as [|n1 r]; [discriminate|]. destruct r as [|n0 r]; [discriminate|]. destruct r as [|nb r]; [discriminate|].
  destruct (Z.eqb_spec nb ((n1 * 256 + n0) * 2)) as [Hnb|]; cbn [negb] in H; [|discriminate].
  assert (is_byte nb /\ is_byte n1 /\ is_byte n0) as (B1 & B2 & B3).
  { assert (B : bytes_ok (a :: 16 :: s1 :: s0 :: n1 :: n0 :: nb :: r)) by (rewrite <- E1; apply Forall_app; auto).
    unfold bytes_ok in B. repeat match type of B with Forall _ (_ :: _) => apply Forall_cons_iff in B as [? B] end. auto. }
  unfold is_byte in B1, B2, B3.
  destruct (Z.eqb_spec (z3 * 256 + z4) (7 + nb)) as [Hpk|]; cbn [negb] in H; [|discriminate].
  destruct fr as [|c0 fr]; [cbn [length] in Hp; lia|]. destruct fr as [|c1 fr]; [cbn [length] in Hp; lia|].
  destruct fr as [|c2 fr]; [cbn [length] in Hp; lia|]. destruct fr as [|c3 fr]; [cbn [length] in Hp; lia|].
  destruct fr as [|c4 fr]; [cbn [length] in Hp; lia|]. destruct fr as [|c5 fr]; [cbn [length] in Hp; lia|].
  destruct fr as [|c6 fr]; [cbn [length] in Hp; lia|].
  cbn [app] in E1. injection E1 as -> -> -> -> -> -> -> <-. wcbn_in H.
  destruct (rd_pairs (pairs nb) 0 (q_data q) (fr ++ junk)) as [[d r]|] eqn:Er; [|discriminate]. injection H as <- <-.
  unfold carried, req_msg. wcbn. unfold frame_tid, frame_unit, frame_func; cbn [nth].
  unfold bytes_ok in Hbf. repeat match type of Hbf with Forall _ (_ :: _) => apply Forall_cons_iff in Hbf as [? Hbf] end.
  rewrite u16_id by (apply be_u16; auto).
  split; [apply Hw; [unfold bytes_ok; repeat (apply Forall_cons; [assumption|]); auto; constructor|reflexivity|cbn [length]; lia]|]. do 4 (split; [reflexivity|]).
  split; [cbn; tauto|]. split; [reflexivity|]. split; [intros X; cbn in X; exfalso; lia|].
  intros _. pose proof (rd_pairs_rest _ _ _ _ _ _ Er) as (_ & Hdl & _).
  apply rd_pairs_swap in Er as [E _]; [|lia].
  assert (Hev : (2 * pairs nb)%nat = Z.to_nat nb) by (apply pairs_even; lia).
  rewrite Hev in E. cbn [Nat.add firstn app] in E. cbn [length] in Hp.
  assert (Hfl : length fr = Z.to_nat nb) by lia.
  rewrite E. cbn [skipn]. rewrite firstn_app, Hfl, Nat.sub_diag, firstn_O, app_nil_r, <- Hfl, firstn_all.
  split; [|reflexivity]. rewrite Hfl in *. 
  assert (L : length (firstn (Z.to_nat nb) d) = Z.to_nat nb) by (rewrite firstn_length; destruct Ha as (_ & Ha & _); lia).
  rewrite E, firstn_app, Hfl, Nat.sub_diag, firstn_O, app_nil_r, <- Hfl, firstn_all in L. lia.
Qed.

(** * Requests *)

(** A complete frame that arrives with at least one new octet is decoded from
    its beginning, and it is what has been received. *)
Lemma receive_request uid s w bs s1 o res x : SOK uid s w -> x_st s <> SInit -> x_link s = Some true -> bytes_ok bs -> bs <> [] ->
  s_receive uid s (RxBytes bs) = Some (s1, o, res) -> In x o -> carried (w_rx w ++ bs) x.
Proof.
  intros HS Hst Hk Hev Hne H Hx. pose proof HS as [Hb Hby [Hl _] Hp Ha _ Hrx _].
  pose proof (receive_rcv uid s w (RxBytes bs) s1 o res HS Hst Hk Hev H) as R. pose proof (proj2 (rc_rx _ _ _ _ _ _ _ R)) as Hr9. cbv beta iota in Hr9.
  clear R. unfold s_receive, maxAduLen in H.
  destruct (Z.ltb_spec 260 (x_len s)) as [H260|H260]; [apply some3 in H as (_ & <- & _); contradiction|].
  rewrite Hk in H. unfold bufMaxLen in H.
  set (bs' := firstn (Z.to_nat (512 - x_len s)) bs) in *.
  assert (Hbs' : (length bs' <= Z.to_nat (512 - x_len s))%nat) by (unfold bs'; rewrite firstn_length; lia).
  assert (Hbs1 : (0 < length bs')%nat).
  { unfold bs'. rewrite firstn_length. destruct bs; [congruence|]. cbn [length]. lia. }
  set (b := buf_write (x_buf s) (Z.to_nat (x_len s)) bs') in *.
  assert (Hbl : length b = 512%nat) by (unfold b; rewrite bw_length; lia).
  assert (Hbb : bytes_ok b) by (apply bw_bytes; [auto|apply firstn_bytes; auto]).
  assert (Hpk : 6 <= x_len s -> aduPktLen b = aduPktLen (x_buf s)) by (intros; unfold b; apply bw_pkt; lia).
  destruct (frame_check b (x_len s + Z.of_nat (length bs'))) eqn:Efc in H;
    try (apply some3 in H as (_ & <- & _); contradiction).
  pose proof (complete_hdr _ _ Efc) as (Hc1 & Hc2 & Hc3).
  assert (Hpos : x_pos s = 0%nat) by (destruct Hp as [Hp|[Hp1 Hp2]]; [auto|rewrite Hpk in Hc2 by lia; lia]).
  rewrite Hpos in H. cbn [skipn] in H.
  destruct (decode_into b (x_adu s)) as [q rest|q rest|] eqn:Ed in H; [| |discriminate H].
  2:{ apply some3 in H as (_ & <- & _). contradiction. }
  destruct (negb (q_nbytes q <=? Z.of_nat (length (q_data q)))) in H; [discriminate H|].
  apply some3 in H as (<- & <- & _). scbn_in Hr9. destruct Hx as [<-|[]].
  rewrite <- Hr9 by lia.
  set (n := Z.to_nat (x_len s + Z.of_nat (length bs'))) in *.
  assert (Hn : length (firstn n b) = n) by (rewrite firstn_length; lia).
  apply (decode_carried uid (firstn n b) (skipn n b) (x_adu s) q rest); rewrite ?firstn_skipn, ?Hn; auto; lia.
Qed.

Lemma transit_quiet uid s1 st s2 o2 : s_transit uid s1 st = Some (s2, o2) ->
  forall x, In x o2 -> match x with TReq _ _ _ _ _ _ _ _ | TTx _ _ => False | _ => True end.
Proof.
  intros E. unfold s_transit in E. destruct (sst_eqb (x_st s1) st); [apply some2 in E as (_ & <-); intros ? []|].
  destruct (s_exit uid s1) as [[s3 o3]|] eqn:Ex in E; [|discriminate].
  destruct (s_enter uid (y_st s3 st)) as [[s4 o4]|] eqn:En in E; [|discriminate].
  apply some2 in E as (_ & <-).
  assert (H3 : o3 = [] \/ o3 = [TDisarm uid]).
  { unfold s_exit, s_disarm in Ex. destruct (x_st s1); [|destruct (x_timer s1); [|discriminate]..];
    apply some2 in Ex as (_ & <-); auto. }
  assert (H4 : o4 = [TFree uid] \/ exists us, o4 = [TArm uid us]).
  { unfold s_enter, s_arm in En. destruct (x_st (y_st s3 st)); [|destruct (x_timer (y_st s3 st)); [|discriminate]..];
    apply some2 in En as (_ & <-); eauto. }
  intros x Hx. apply in_app_or in Hx. destruct H3 as [->| ->], H4 as [->|[us ->]]; cbn in Hx;
  intuition subst; auto.
Qed.

Lemma data_inv uid s r s' os : s_data uid s r = Some (s', os) -> x_timer s <> None ->
  exists s1 o res, (x_st s = SInit /\ os = []) \/
    (x_st s <> SInit /\ s_receive uid s r = Some (s1, o, res) /\ forall x, In x os -> In x o \/ match x with TReq _ _ _ _ _ _ _ _ | TTx _ _ => False | _ => True end).
Proof.
  intros H Ht. unfold s_data in H. destruct (x_st s) eqn:Est.
  - apply some2 in H as (<- & <-). exists s, [], SrDone. left. auto.
  - destruct (s_receive uid s r) as [[[s1 o] res]|] eqn:Er in H; [|discriminate H]. exists s1, o, res. right.
    split; [congruence|]. split; [auto|].
    pose proof (transit_quiet uid s1) as Htr.
    destruct res; cbn [s_then] in H.
    + apply some2 in H as (_ & <-). auto.
    + destruct (s_transit uid s1 SWait) as [[s2 o2]|] eqn:Et in H; [|discriminate]. apply some2 in H as (_ & <-).
      intros x Hx. apply in_app_or in Hx as [Hx|Hx]; [auto|right; eapply Htr; eauto].
    + destruct (s_transit uid s1 SInit) as [[s2 o2]|] eqn:Et in H; [|discriminate]. apply some2 in H as (_ & <-).
      intros x Hx. apply in_app_or in Hx as [Hx|Hx]; [auto|right; eapply Htr; eauto].
  - destruct (s_receive uid s r) as [[[s1 o] res]|] eqn:Er in H; [|discriminate H]. exists s1, o, res. right.
    split; [congruence|]. split; [auto|].
    pose proof (transit_quiet uid s1) as Htr.
    destruct res; cbn [s_then] in H.
    + apply some2 in H as (_ & <-). auto.
    + apply some2 in H as (_ & <-). auto.
    + destruct (s_transit uid s1 SInit) as [[s2 o2]|] eqn:Et in H; [|discriminate]. apply some2 in H as (_ & <-).
      intros x Hx. apply in_app_or in Hx as [Hx|Hx]; [auto|right; eapply Htr; eauto].
Qed.

(** * Replies *)

Lemma wr_pairs_swap k : forall i data ps, bytes_ok data -> wr_pairs k i data = Some ps ->
  ps = swap16 (firstn (2 * k) (skipn i data)).
Proof.
  induction k as [|k IH]; intros i data ps Hb H; cbn [wr_pairs] in H.
  - injection H as <-. reflexivity.
  - destruct (nth_error data (S i)) as [d1|] eqn:E1; [|discriminate]. destruct (nth_error data i) as [d0|] eqn:E0; [|discriminate].
    destruct (wr_pairs k (S (S i)) data) as [l|] eqn:E; [|discriminate]. injection H as <-.
    apply IH in E; [|auto].
    assert (Hsk : skipn i data = d0 :: d1 :: skipn (S (S i)) data).
    { clear - E0 E1. revert i E0 E1. induction data as [|x data IHd]; intros [|i] E0 E1; cbn in *; try discriminate.
      - injection E0 as ->. destruct data; [discriminate|]. cbn in *. now injection E1 as ->.
      - now apply IHd. }
    rewrite Hsk. replace (2 * S k)%nat with (S (S (2 * k))) by lia. cbn [firstn swap16]. rewrite E.
    assert (is_byte d1 /\ is_byte d0) as [B1 B0] by (split; eapply Forall_forall; eauto using nth_error_In).
    unfold wr. now rewrite !u8_id.
Qed.

Lemma u8_div z : is_u16 z -> u8 (z / 256) = z / 256.
Proof. unfold is_u16, u8. intros. lia. Qed.
Lemma u8_mod z : u8 z = z mod 256.
Proof. reflexivity. Qed.

Lemma wrBe_head z : is_u16 z -> wrBe z = [z / 256; z mod 256].
Proof. intros H. unfold wrBe. now rewrite u8_div, u8_mod. Qed.

Lemma reply_answers q p bs : adu_ok q -> reply_ok p -> fwd_ok q -> p_tid p = q_tid q -> p_nbytes p <= 260 ->
  encode_rsp (reply_adu q p) = EncOk bs ->
  answers (q_tid q) (q_func q) (q_addr q) (q_start q) (q_nitems q) p bs.
Proof.
  intros ((Q1 & Q2 & Q3 & Q4 & Q5 & _) & _) (P1 & P2 & P3 & P4 & P5 & P6) (Ha & Hfs & Hq) Ht Hn H.
  unfold is_u16 in Q3.
  assert (Hadr : wr (q_addr q) = [q_addr q]) by (unfold wr; rewrite u8_id by (unfold is_byte; lia); reflexivity).
  apply encode_rsp_cases in H as [H Hsz]. unfold answers, reply_adu in *. cbn [a_tid a_func a_addr a_error a_start a_nitems a_nbytes a_data] in H.
  rewrite <- Ht in *. destruct (Z.eqb_spec (p_error p) 0) as [He|He]; cbn [negb] in H.
  2:{ destruct H as [(_ & ->)|[(X & _)|[(X & _)|(X & _)]]]; [|cbn in X; unfold modbusErrorFn in X; lia..].
      exists (u8 (error_to_u8 (p_error p))). split.
      - rewrite (wrBe_head _ P2), Hadr. reflexivity.
      - intros Hin. assert (Hin' : p_error p = 1 \/ p_error p = 2 \/ p_error p = 3 \/ p_error p = 4 \/ p_error p = 5 \/ p_error p = 6 \/ p_error p = 7 \/ p_error p = 8 \/ p_error p = 10 \/ p_error p = 11 \/ p_error p = 255) by (cbn in Hin; lia).
        decompose [or] Hin'; clear Hin' Hin; match goal with E : p_error p = _ |- _ => rewrite E end; reflexivity. }
  assert (Hf : wr (q_func q) = [q_func q]) by (unfold wr; rewrite u8_id by auto; reflexivity).
  destruct H as [(X & Hb)|[(Hin & Hev2 & ps & Ep & ->)|[(Hin & Hnb & d0 & d1 & tl & Ed & _ & ->)|(Hfn & ->)]]].
  - cbn in Hfs. lia.
  - assert (Hev : (2 * pairs (p_nbytes p))%nat = Z.to_nat (p_nbytes p)) by (apply pairs_even; unfold is_u16 in *; lia).
    assert (Hln : length ps = Z.to_nat (p_nbytes p)) by (rewrite (wr_pairs_length _ _ _ _ Ep); lia).
    apply wr_pairs_swap in Ep; [|apply bytes_app; [now apply firstn_bytes|apply Forall_forall; intros x Hx; apply repeat_spec in Hx; subst; unfold is_byte; lia]].
    cbn [skipn] in Ep. rewrite Hev, firstn_app, firstn_firstn, Nat.min_id, firstn_length, Nat.min_l, Nat.sub_diag, firstn_O, app_nil_r in Ep by lia.
    assert (Hnb : is_u16 (3 + p_nbytes p) /\ is_byte (p_nbytes p)).
    { rewrite !app_length in Hsz. cbn [wrBe wr length] in Hsz. unfold is_u16, is_byte in *. lia. }
    destruct Hnb as [Hnb1 Hnb2].
    assert (Hwn : wr (p_nbytes p) = [p_nbytes p]) by (unfold wr; rewrite u8_id by auto; reflexivity).
    assert (E : wrBe (p_tid p) ++ wrBe 0 ++ wrBe (3 + p_nbytes p) ++ wr (q_addr q) ++ wr (q_func q) ++ wr (p_nbytes p) ++ ps =
      [p_tid p / 256; p_tid p mod 256; 0; 0; (3 + p_nbytes p) / 256; (3 + p_nbytes p) mod 256; q_addr q] ++
      [q_func q; p_nbytes p] ++ swap16 (firstn (Z.to_nat (p_nbytes p)) (p_data p))).
    { rewrite (wrBe_head _ P2), (wrBe_head _ Hnb1), Hadr, Hf, Hwn, Ep. reflexivity. }
    destruct Hin as [Hin|[Hin|[]]]; rewrite <- Hin in E |- *; (split; [exact Hev2|exact E]).
  - assert (Hdd : exists r, p_data p = d0 :: d1 :: r).
    { rewrite Hnb in Ed. change (Z.to_nat 2) with 2%nat in Ed.
      destruct (p_data p) as [|y0 [|y1 r]]; [cbn in P6; lia|cbn in P6; lia|]. cbn in Ed. injection Ed as -> -> _. eauto. }
    destruct Hdd as [r Hdd]. assert (is_byte d0 /\ is_byte d1) as [B0 B1].
    { rewrite Hdd in P5. unfold bytes_ok in P5. apply Forall_cons_iff in P5 as [? P5]. apply Forall_cons_iff in P5 as [? P5]. auto. }
    assert (E : wrBe (p_tid p) ++ wrBe 0 ++ wrBe 6 ++ wr (q_addr q) ++ wr (q_func q) ++ wrBe (q_start q) ++ wr d1 ++ wr d0 =
      [p_tid p / 256; p_tid p mod 256; 0; 0; 6 / 256; 6 mod 256; q_addr q] ++ [q_func q; q_start q / 256; q_start q mod 256; d1; d0]).
    { rewrite (wrBe_head _ P2), (wrBe_head _ Q4), Hadr, Hf. unfold wr. rewrite !u8_id by auto. reflexivity. }
    destruct Hin as [Hin|[Hin|[]]]; rewrite <- Hin in E |- *; (split; [exact Hnb|exists d0, d1, r; split; [exact Hdd|exact E]]).
  - rewrite Hfn in *. rewrite (wrBe_head _ P2), (wrBe_head _ Q4), (wrBe_head _ Q5), Hadr. reflexivity.
Qed.

Lemma reply_adu_ok q p : adu_ok q -> reply_ok p -> p_nbytes p <= 260 -> rsp_ok (reply_adu q p).
Proof.
  intros ((Q1 & Q2 & Q3 & Q4 & Q5 & Q6) & _) (P1 & P2 & P3 & P4 & P5 & P6) Hn.
  unfold rsp_ok, reply_adu. cbn [a_tid a_func a_addr a_error a_start a_nitems a_nbytes a_data].
  assert (is_byte (if negb (p_error p =? 0) then modbusErrorFn else q_func q)) by
    (destruct (negb (p_error p =? 0)); [unfold modbusErrorFn, is_byte; lia|auto]).
  unfold is_u32, is_u16 in *. do 7 (split; [auto; lia|]). split.
  - apply bytes_app; [now apply firstn_bytes|apply Forall_forall; intros x Hx; apply repeat_spec in Hx; subst; unfold is_byte; lia].
  - rewrite app_length, repeat_length, firstn_length. unfold maxAduLen. lia.
Qed.

Lemma finish_le bs : Z.of_nat (length bs) <= 260 -> finish (Some bs) = EncOk bs.
Proof.
  intros H. unfold finish, bufMaxLen, maxAduLen.
  destruct (Z.ltb_spec 512 (Z.of_nat (length bs))); [lia|]. destruct (Z.ltb_spec 260 (Z.of_nat (length bs))); [lia|]. reflexivity.
Qed.
Lemma finish_gt bs : 260 < Z.of_nat (length bs) <= 512 -> finish (Some bs) = EncFail bs.
Proof.
  intros H. unfold finish, bufMaxLen, maxAduLen.
  destruct (Z.ltb_spec 512 (Z.of_nat (length bs))); [lia|]. destruct (Z.ltb_spec 260 (Z.of_nat (length bs))); [|lia]. reflexivity.
Qed.

(** The encoder accepts exactly the expressible replies. *)
Lemma reply_encodable q p : adu_ok q -> reply_ok p -> fwd_ok q -> p_nbytes p <= 260 ->
  if expressible (q_func q) p
  then exists bs, encode_rsp (reply_adu q p) = EncOk bs /\ isAduValid bs (Z.of_nat (length bs)) = true
  else exists bs, encode_rsp (reply_adu q p) = EncFail bs.
Proof.
  intros Ha Hp Hw Hn. pose proof (reply_adu_ok q p Ha Hp Hn) as Hr.
  assert (Hval : forall bs, encode_rsp (reply_adu q p) = EncOk bs -> isAduValid bs (Z.of_nat (length bs)) = true).
  { intros bs E. destruct (encode_rsp_wf _ _ Hr E) as [W L]. pose proof (wf_frame_accepted bs [] W L) as F.
    rewrite app_nil_r in F. now apply complete_valid. }
  assert (K : if expressible (q_func q) p then exists bs, encode_rsp (reply_adu q p) = EncOk bs
              else exists bs, encode_rsp (reply_adu q p) = EncFail bs).
  { clear Hval. destruct Hw as (_ & Hf & _). destruct Hp as (P1 & P2 & P3 & P4 & P5 & P6). unfold is_u16 in P4.
    unfold expressible. destruct (Z.eqb_spec (p_error p) 0) as [He|He]; cbn [negb orb].
    2:{ unfold encode_rsp, reply_adu. cbn [a_tid a_func a_addr a_error a_start a_nitems a_nbytes a_data].
        destruct (Z.eqb_spec (p_error p) 0); [contradiction|]. cbn [negb]. change (modbusErrorFn =? modbusErrorFn) with true.
        cbv iota. eexists. apply finish_le. cbn. lia. }
    assert (Ef : a_func (reply_adu q p) = q_func q) by (unfold reply_adu; cbn [a_func]; rewrite He; reflexivity).
    assert (En : a_nbytes (reply_adu q p) = p_nbytes p) by reflexivity.
    assert (E0 : (2 <= Z.to_nat (p_nbytes p))%nat -> forall i, (i < 2)%nat -> nth_error (a_data (reply_adu q p)) i = Some (nth i (p_data p) 0)).
    { intros H2 i Hi. unfold reply_adu. cbn [a_data]. rewrite nth_error_app1 by (rewrite firstn_length; lia).
      destruct (p_data p) as [|y0 [|y1 r]]; [cbn in P6; lia|cbn in P6; lia|].
      destruct (Z.to_nat (p_nbytes p)) as [|[|k]]; [lia|lia|]. destruct i as [|[|i]]; [reflexivity|reflexivity|lia]. }
    cbn [In] in Hf. destruct Hf as [Hf|[Hf|[Hf|[Hf|[Hf|[Hf|[Hf|[]]]]]]]]; rewrite <- Hf in Ef |- *; cbn [Z.eqb Pos.eqb orb andb].
    1,2: unfold encode_rsp; rewrite Ef; eexists; reflexivity.
    1,2: destruct (Z.eqb_spec (p_nbytes p mod 2) 0) as [Hm|Hm]; cbn [andb orb];
      [ destruct (encode_rsp_regs _ Hr ltac:(rewrite Ef; cbn; auto) Hm) as (bs & -> & Hl); rewrite En in Hl;
        destruct (Z.leb_spec (p_nbytes p) 250); cbn [orb]; eexists; [apply finish_le; lia|apply finish_gt; lia]
      | unfold encode_rsp; rewrite Ef, En; replace (p_nbytes p mod 2 =? 0) with false by lia; cbn; eexists; reflexivity ].
    - unfold encode_rsp. rewrite Ef, En. change (5 =? modbusErrorFn) with false. change (is_read_regs 5) with false. change (is_single 5) with true. cbv iota.
      destruct (Z.eqb_spec (p_nbytes p) 2) as [H2|H2]; cbn [negb andb orb]; [|eexists; reflexivity].
      rewrite !E0 by lia. unfold coil_ok. change (5 =? forceSingleCoil) with true. cbn [negb orb].
      destruct (nth 1 (p_data p) 0 =? 0); cbn [andb]; [|eexists; reflexivity].
      destruct ((nth 0 (p_data p) 0 =? 0) || (nth 0 (p_data p) 0 =? 255)); cbn [orb]; eexists; [|reflexivity].
      apply finish_le. cbn. lia.
    - unfold encode_rsp. rewrite Ef, En. change (6 =? modbusErrorFn) with false. change (is_read_regs 6) with false. change (is_single 6) with true. cbv iota.
      destruct (Z.eqb_spec (p_nbytes p) 2) as [H2|H2]; cbn [negb andb orb]; [|eexists; reflexivity].
      rewrite !E0 by lia. change (coil_ok 6 (nth 0 (p_data p) 0) (nth 1 (p_data p) 0)) with true. cbv iota.
      eexists. apply finish_le. cbn. lia.
    - unfold encode_rsp. rewrite Ef. change (16 =? modbusErrorFn) with false. change (is_read_regs 16) with false. change (is_single 16) with false.
      change (is_multi 16) with true. cbv iota. eexists. apply finish_le. cbn. lia. }
  destruct (expressible (q_func q) p); [|exact K]. destruct K as [bs K]. eauto.
Qed.

Section Wire.
Context (b0 : list Z) (q0 : adu_req).
Notation reach := (reach b0 q0).

Lemma on_range v tr uid k r : reach v tr -> is_u32 uid -> srv_on v uid k = Some r -> 0 <= uid < 256.
Proof.
  intros HR Hu H. destruct (reach_inv _ _ _ _ HR) as [L S (owned & O1 & O2 & O3) T].
  unfold srv_on in H. rewrite (hist_get _ _ _ O1 Hu) in H. unfold is_u32 in Hu.
  destruct (Z.ltb_spec uid 256); [lia|discriminate].
Qed.

Lemma enabled_open v tr uid r : reach v tr -> srv_enabled v (VData uid r) = true ->
  0 <= uid < 256 /\ exists s, session_of v uid = Some s /\ SOK uid s (view_of uid tr) /\ x_link s = Some true /\ x_st s <> SInit.
Proof.
  intros HR H. cbn [srv_enabled] in H. assert (Hu : 0 <= uid < 256) by lia. split; [auto|].
  destruct (lookup b0 q0 v tr uid HR Hu) as (s & Hs & HS & _ & _). rewrite Hs in H. exists s. split; [auto|]. split; [auto|].
  pose proof (so_st _ _ _ HS) as X.
  destruct (x_link s) as [[|]|]; [|lia..]. split; [reflexivity|].
  destruct (x_st s); [|discriminate..]. destruct X as (_ & _ & [X|X] & _); discriminate.
Qed.

Lemma timer_set uid s w : SOK uid s w -> x_st s <> SInit -> x_timer s <> None.
Proof. intros [_ _ _ _ _ X _ _] H. destruct (x_st s); [congruence| |]; destruct X as (_ & -> & _); discriminate. Qed.

(** What each event can cause. *)
Lemma req_sound v tr e v' os uid t f a st n nb d : reach v tr -> vev_ok e -> srv_enabled v e = true ->
  srv_step v e = Some (v', os) -> In (TReq uid t f a st n nb d) os ->
  0 <= uid < 256 /\ live uid tr /\
  exists bs, e = VData uid (RxBytes bs) /\ (bs <> [] -> carried (w_rx (view_of uid tr) ++ bs) (TReq uid t f a st n nb d)).
Proof.
  intros HR Hev Hen H Hin. destruct e as [tok lok aok|u r|u|u|p sok|]; cbn [srv_step] in H.
  - exfalso. destruct (v_acc v) eqn:Ha; cbn [negb] in H; [|apply some2 in H as (_ & <-); contradiction].
    destruct (capacity b0 q0 v tr tok lok aok HR Ha) as (_ & _ & v2 & os2 & E & Ho).
    cbn [srv_step] in E. rewrite Ha in E. cbn [negb] in E. rewrite E in H. apply some2 in H as (_ & <-).
    destruct (total starts_of tr - total frees_of tr + total throws_of tr <? 256)%nat; [|subst; contradiction].
    destruct (tok && lok && aok); [destruct Ho as (x & _ & _ & ->)|subst]; cbn in Hin; intuition discriminate.
  - destruct (enabled_open v tr u r HR Hen) as (Hu & s & Hs & HS & Hk & Hst).
    destruct (on_inv b0 q0 v tr u _ v' os HR Hu H) as (s2 & s' & Hs2 & _ & E & _). rewrite Hs in Hs2. injection Hs2 as <-.
    destruct (data_inv u s r s' os E (timer_set _ _ _ HS Hst)) as (s1 & o & res & [(X & _)|(_ & Er & Hx)]); [congruence|].
    destruct (Hx _ Hin) as [Hino|[]].
    pose proof (rc_out _ _ _ _ _ _ _ (receive_rcv u s _ r s1 o res HS Hst Hk Hev Er)) as [->|(Eo & _)]; [contradiction|].
    assert (u = uid) as ->. { rewrite Eo in Hino. destruct Hino as [Hino|[]]. unfold req_msg in Hino. now injection Hino. }
    split; [auto|]. split; [now apply (live_iff uid s tr HS)|].
    destruct r as [| |bs].
    + exfalso. unfold s_receive in Er. rewrite Hk in Er. destruct (maxAduLen <? x_len s); apply some3 in Er as (_ & <- & _); contradiction.
    + exfalso. unfold s_receive in Er. rewrite Hk in Er. destruct (maxAduLen <? x_len s); apply some3 in Er as (_ & <- & _); contradiction.
    + exists bs. split; [reflexivity|]. intros Hne. eapply receive_request; eauto.
  - exfalso. assert (Hu : 0 <= u < 256) by (cbn [srv_enabled] in Hen; lia).
    destruct (on_inv b0 q0 v tr u _ v' os HR Hu H) as (s2 & s' & _ & _ & E & _). apply some2 in E as (_ & <-). contradiction.
  - exfalso. assert (Hu : 0 <= u < 256) by (cbn [srv_enabled] in Hen; lia).
    destruct (on_inv b0 q0 v tr u _ v' os HR Hu H) as (s2 & s' & _ & HS & E & _). unfold s_timer in E.
    destruct (x_st _) in E; [apply some2 in E as (_ & <-); contradiction| |]; apply (transit_quiet _ _ _ _ _ E _ Hin).
  - exfalso. destruct Hev as (P1 & Hev). assert (Hu : 0 <= p_session p < 256) by (eapply on_range; eauto).
    destruct (on_inv b0 q0 v tr _ _ v' os HR Hu H) as (s2 & s' & _ & HS & E & _). unfold s_reply in E.
    destruct (x_st s2); [apply some2 in E as (_ & <-); contradiction..|].
    destruct (s_send (p_session p) s2 p sok) as [[[s1 o] res]|] eqn:Er in E; [|discriminate E].
    apply send_spec in Er as (-> & Hres & Ho).
    assert (Ho' : ~ In (TReq uid t f a st n nb d) o) by (destruct Ho as [->|(bs & -> & _)]; cbn; intuition discriminate).
    destruct res; cbn [s_then] in E; [congruence| |];
    [destruct (s_transit (p_session p) s2 SConn) as [[s3 o3]|] eqn:Et in E|destruct (s_transit (p_session p) s2 SInit) as [[s3 o3]|] eqn:Et in E];
    try discriminate E; apply some2 in E as (_ & <-); (apply in_app_or in Hin as [Hin|Hin]; [contradiction|]); apply (transit_quiet _ _ _ _ _ Et _ Hin).
  - exfalso. apply some2 in H as (_ & <-). contradiction.
Qed.

Lemma tx_sound v tr e v' os uid bs : reach v tr -> vev_ok e -> srv_enabled v e = true ->
  srv_step v e = Some (v', os) -> In (TTx uid bs) os ->
  0 <= uid < 256 /\ waiting uid tr /\
  exists p, e = VReply p true /\ p_session p = uid /\ p_ok p = true /\ wf_frame bs /\ frame_tid bs = p_tid p /\
    forall os0 t f a st n nb d, w_last (view_of uid tr) = Some os0 -> In (TReq uid t f a st n nb d) os0 ->
      p_tid p = t /\ answers t f a st n p bs.
Proof.
  intros HR Hev Hen H Hin. destruct e as [tok lok aok|u r|u|u|p sok|]; cbn [srv_step] in H.
  - exfalso. destruct (v_acc v) eqn:Ha; cbn [negb] in H; [|apply some2 in H as (_ & <-); contradiction].
    destruct (capacity b0 q0 v tr tok lok aok HR Ha) as (_ & _ & v2 & os2 & E & Ho).
    cbn [srv_step] in E. rewrite Ha in E. cbn [negb] in E. rewrite E in H. apply some2 in H as (_ & <-).
    destruct (total starts_of tr - total frees_of tr + total throws_of tr <? 256)%nat; [|subst; contradiction].
    destruct (tok && lok && aok); [destruct Ho as (x & _ & _ & ->)|subst]; cbn in Hin; intuition discriminate.
  - exfalso. destruct (enabled_open v tr u r HR Hen) as (Hu & s & Hs & HS & Hk & Hst).
    destruct (on_inv b0 q0 v tr u _ v' os HR Hu H) as (s2 & s' & Hs2 & _ & E & _). rewrite Hs in Hs2. injection Hs2 as <-.
    destruct (data_inv u s r s' os E (timer_set _ _ _ HS Hst)) as (s1 & o & res & [(X & _)|(_ & Er & Hx)]); [congruence|].
    destruct (Hx _ Hin) as [Hino|[]].
    pose proof (rc_out _ _ _ _ _ _ _ (receive_rcv u s _ r s1 o res HS Hst Hk Hev Er)) as [->|(Eo & _)]; [contradiction|].
    rewrite Eo in Hino. destruct Hino as [Hino|[]]. discriminate Hino.
  - exfalso. assert (Hu : 0 <= u < 256) by (cbn [srv_enabled] in Hen; lia).
    destruct (on_inv b0 q0 v tr u _ v' os HR Hu H) as (s2 & s' & _ & _ & E & _). apply some2 in E as (_ & <-). contradiction.
  - exfalso. assert (Hu : 0 <= u < 256) by (cbn [srv_enabled] in Hen; lia).
    destruct (on_inv b0 q0 v tr u _ v' os HR Hu H) as (s2 & s' & _ & HS & E & _). unfold s_timer in E.
    destruct (x_st _) in E; [apply some2 in E as (_ & <-); contradiction| |]; apply (transit_quiet _ _ _ _ _ E _ Hin).
  - destruct Hev as (P1 & Hev). assert (Hu : 0 <= p_session p < 256) by (eapply on_range; eauto).
    destruct (on_inv b0 q0 v tr _ _ v' os HR Hu H) as (s & s' & Hs & HS & E & _). unfold s_reply in E.
    destruct (x_st s) eqn:Est; [apply some2 in E as (_ & <-); contradiction..|].
    destruct (s_send (p_session p) s p sok) as [[[s1 o] res]|] eqn:Er in E; [|discriminate E].
    assert (Hok : o <> [] -> sok = true).
    { intros Ho. destruct sok; [auto|]. exfalso. apply Ho. clear - Er. unfold s_send in Er.
      destruct (negb _) in Er; [now apply some3 in Er as (_ & <- & _)|]. destruct (negb _) in Er; [now apply some3 in Er as (_ & <- & _)|].
      destruct (negb _) in Er; [discriminate|]. destruct (maxAduLen <? p_nbytes p); [discriminate|].
      fold (reply_adu (x_adu s) p) in Er. destruct (encode_rsp (reply_adu (x_adu s) p)) in Er; try discriminate; [|now apply some3 in Er as (_ & <- & _)].
      destruct (negb _) in Er; [now apply some3 in Er as (_ & <- & _)|]. destruct (x_link s) in Er; [|discriminate].
      rewrite andb_false_r in Er. now apply some3 in Er as (_ & <- & _). }
    apply send_spec in Er as (-> & Hres & Ho).
    assert (Hino : In (TTx uid bs) o).
    { destruct res; cbn [s_then] in E; [congruence| |];
      [destruct (s_transit (p_session p) s SConn) as [[s3 o3]|] eqn:Et in E|destruct (s_transit (p_session p) s SInit) as [[s3 o3]|] eqn:Et in E];
      try discriminate E; apply some2 in E as (_ & <-); (apply in_app_or in Hin as [Hin|Hin]; [exact Hin|]); destruct (transit_quiet _ _ _ _ _ Et _ Hin). }
    destruct Ho as [->|(bs' & -> & -> & Hp & Ht & Hn & Ee)]; [contradiction|].
    destruct Hino as [Hino|[]]. injection Hino as <- ->. rewrite (Hok ltac:(discriminate)).
    split; [auto|]. split; [now apply (waiting_iff _ s tr HS)|]. exists p. split; [auto|]. split; [auto|]. split; [auto|].
    assert (Hrep : reply_ok p) by (split; auto). pose proof (so_adu _ _ _ HS) as Ha.
    pose proof (reply_adu_ok _ _ Ha Hrep Hn) as Hro. destruct (encode_rsp_wf _ _ Hro Ee) as [Hwf _].
    split; [exact Hwf|]. split.
    + apply encode_rsp_cases in Ee as [Ee _].
      destruct Hev as (P2 & _).
      destruct Ee as [(_ & ->)|[(_ & _ & ps & _ & ->)|[(_ & _ & d0 & d1 & tl & _ & _ & ->)|(_ & ->)]]];
      unfold frame_tid; cbn [wrBe app nth a_tid reply_adu]; apply wrBe_u16; auto.
    + intros os0 t f a st n nb d Hl Hreq. pose proof (so_last _ _ _ HS _ _ Hl Hreq) as [Eq Hw]. unfold req_msg in Eq.
      injection Eq as -> -> -> -> -> _ _. rewrite u16_id by apply Hw. split; [auto|].
      apply reply_answers; auto.
  - exfalso. apply some2 in H as (_ & <-). contradiction.
Qed.

(** The fate of a reply for the request a session waits for. *)
Lemma reply_outcome v tr uid os0 t f a st n nb d p :
  reach v tr -> 0 <= uid < 256 -> waiting uid tr -> srv_enabled v (VError uid) = true ->
  w_last (view_of uid tr) = Some os0 -> In (TReq uid t f a st n nb d) os0 ->
  reply_ok p -> p_session p = uid -> p_tid p = t -> p_ok p = true ->
  if 260 <? p_nbytes p then srv_step v (VReply p true) = None
  else exists v' os, srv_step v (VReply p true) = Some (v', os ++ [TDisarm uid; TArm uid 30000000]) /\
    if expressible f p then exists bs, os = [TTx uid bs] /\ answers t f a st n p bs else os = [].
Proof.
  intros HR Hu Hw Hen Hl Hreq Hp <- <- Hok.
  destruct (lookup b0 q0 v tr _ HR Hu) as (s & Hs & HS & _ & _).
  apply (waiting_iff _ s tr HS) in Hw.
  pose proof (so_last _ _ _ HS _ _ Hl Hreq) as [Eq Hw2]. unfold req_msg in Eq. injection Eq as Et -> -> -> -> _ _.
  rewrite u16_id in Et by apply Hw2.
  pose proof (so_st _ _ _ HS) as X. rewrite Hw in X. destruct X as (_ & Xt & _ & _).
  assert (Hk : x_link s = Some true).
  { cbn [srv_enabled] in Hen. rewrite Hs in Hen. destruct (x_link s) as [[|]|]; [auto|lia..]. }
  cbn [srv_step]. pose proof (so_adu _ _ _ HS) as Ha. pose proof Hp as (P1 & P2 & P3 & P4 & P5 & P6).
  destruct (Z.ltb_spec 260 (p_nbytes p)) as [Hn|Hn].
  - apply (on_none b0 q0 v tr _ _ s); auto. unfold s_reply. rewrite Hw. unfold s_send.
    rewrite Et, Z.eqb_refl, Hok. cbn [negb]. destruct (Z.leb_spec (p_nbytes p) (Z.of_nat (length (p_data p)))); [|lia]. cbn [negb].
    destruct (Z.ltb_spec maxAduLen (p_nbytes p)); [reflexivity|unfold maxAduLen in *; lia].
  - pose proof (reply_encodable _ _ Ha Hp Hw2 Hn) as Hx.
    assert (Hk' : exists s' os, s_reply (p_session p) s p true = Some (s', os ++ [TDisarm (p_session p); TArm (p_session p) 30000000]) /\
      if expressible (q_func (x_adu s)) p then exists bs, os = [TTx (p_session p) bs] /\ answers (p_tid p) (q_func (x_adu s)) (q_addr (x_adu s)) (q_start (x_adu s)) (q_nitems (x_adu s)) p bs else os = []).
    { unfold s_reply. rewrite Hw. unfold s_send. rewrite Et, Z.eqb_refl, Hok. cbn [negb].
      destruct (Z.leb_spec (p_nbytes p) (Z.of_nat (length (p_data p)))); [|lia]. cbn [negb].
      destruct (Z.ltb_spec maxAduLen (p_nbytes p)); [unfold maxAduLen in *; lia|].
      rewrite <- Et. fold (reply_adu (x_adu s) p).
      destruct (expressible (q_func (x_adu s)) p).
      - destruct Hx as (bs & Ee & Hv). rewrite Ee, Hv, Hk. cbn [negb andb s_then]. rewrite (tr_conn _ s _ Hw Xt).
        eexists. exists [TTx (p_session p) bs]. split; [reflexivity|]. exists bs. split; [reflexivity|].
        rewrite Et. apply reply_answers; auto.
      - destruct Hx as (bs & Ee). rewrite Ee. cbn [s_then]. rewrite (tr_conn _ s _ Hw Xt). eexists. exists []. split; reflexivity. }
    destruct Hk' as (s' & os & Hk' & Ho). destruct (reply_step_ok _ _ _ _ _ _ _ HS Hk') as [_ Q].
    destruct (on_some b0 q0 v tr _ (fun s => s_reply (p_session p) s p true) s s' _ HR Hu Hs Hk' Q) as [v' Hv].
    exists v', os. split; [exact Hv|exact Ho].
Qed.

(** Definedness. *)
Lemma step_defined v tr e : reach v tr -> vev_ok e -> srv_enabled v e = true ->
  match e with
  | VData _ r => r <> RxBytes []
  | VReply p _ => p_session p < 256 /\ p_nbytes p <= 260
  | _ => True
  end -> exists v' os, srv_step v e = Some (v', os).
Proof.
  intros HR Hev Hen Hs. destruct e as [tok lok aok|u r|u|u|p sok|].
  - destruct (v_acc v) eqn:Ha.
    + destruct (capacity b0 q0 v tr tok lok aok HR Ha) as (_ & _ & v2 & os2 & E & _). eauto.
    + cbn [srv_step]. rewrite Ha. cbn [negb]. eauto.
  - destruct (enabled_open v tr u r HR Hen) as (Hu & s & Hss & HS & Hk & Hst).
    destruct (receive_defined_s u s _ r HS Hst Hk Hev Hs) as [[[s1 o] res] Er].
    pose proof (receive_rcv u s _ r s1 o res HS Hst Hk Hev Er) as R.
    assert (exists t, x_timer s1 = Some t) as [t Ht].
    { rewrite (rc_timer _ _ _ _ _ _ _ R). pose proof (timer_set _ _ _ HS Hst). destruct (x_timer s); [eauto|congruence]. }
    assert (Hst1 := rc_st _ _ _ _ _ _ _ R).
    assert (exists s' os, s_data u s r = Some (s', os)) as (s' & os & E).
    { unfold s_data. destruct (x_st s) eqn:Est; [congruence| |]; rewrite Er; destruct res; cbn [s_then]; eauto;
      rewrite ?(tr_wait u s1 t Hst1 Ht), ?(tr_free u s1 t ltac:(congruence) Ht); eauto. }
    destruct (data_ok u s _ r s' os HS Hk Hev E) as [_ Q].
    destruct (on_some b0 q0 v tr u (fun s => s_data u s r) s s' os HR Hu Hss E Q) as [v' Hv]. exists v', os. exact Hv.
  - assert (Hu : 0 <= u < 256) by (cbn [srv_enabled] in Hen; lia). destruct (lookup b0 q0 v tr u HR Hu) as (s & Hss & HS & _ & _).
    destruct (error_step_ok u s _ HS) as [_ Q].
    destruct (on_some b0 q0 v tr u (fun s => Some (s_error s, [])) s _ [] HR Hu Hss eq_refl Q) as [v' Hv]. exists v', []. exact Hv.
  - assert (Hu : 0 <= u < 256) by (cbn [srv_enabled] in Hen; lia). destruct (lookup b0 q0 v tr u HR Hu) as (s & Hss & HS & _ & _).
    assert (HL : live u tr).
    { apply (live_iff u s tr HS). pose proof (so_st _ _ _ HS) as X. cbn [srv_enabled] in Hen. rewrite Hss in Hen.
      destruct (x_st s); [|discriminate..]. destruct X as (_ & [X|X] & _); rewrite X in Hen; lia. }
    destruct (expiry b0 q0 v tr u HR Hu HL) as (v' & _ & E). eauto.
  - destruct Hs as [Hs Hn]. cbn in Hev. pose proof Hev as (P1 & P2 & P3 & P4 & P5 & P6). unfold is_u32 in P1.
    assert (Hu : 0 <= p_session p < 256) by lia. destruct (lookup b0 q0 v tr _ HR Hu) as (s & Hss & HS & _ & _).
    assert (exists s' os, s_reply (p_session p) s p sok = Some (s', os)) as (s' & os & E).
    { unfold s_reply. destruct (x_st s) eqn:Est; [eauto..|].
      pose proof (so_st _ _ _ HS) as X. rewrite Est in X. destruct X as (_ & Xt & (fd & Xk) & _).
      assert (exists o res, s_send (p_session p) s p sok = Some (s, o, res) /\ res <> SrNoerror) as (o & res & -> & Hres).
      { unfold s_send. destruct (negb _); [eexists _, _; split; [reflexivity|discriminate]|]. destruct (negb _); [eexists _, _; split; [reflexivity|discriminate]|].
        destruct (Z.leb_spec (p_nbytes p) (Z.of_nat (length (p_data p)))); [|lia]. cbn [negb].
        destruct (Z.ltb_spec maxAduLen (p_nbytes p)); [unfold maxAduLen in *; lia|].
        fold (reply_adu (x_adu s) p). pose proof (encode_rsp_safe _ (reply_adu_ok _ _ (so_adu _ _ _ HS) Hev Hn) Hn) as [G1 G2].
        destruct (encode_rsp (reply_adu (x_adu s) p)) as [bs|bs| |]; [|eexists _, _; split; [reflexivity|discriminate]|congruence..].
        destruct (negb _); [eexists _, _; split; [reflexivity|discriminate]|]. rewrite Xk.
        destruct (fd && sok); eexists _, _; (split; [reflexivity|discriminate]). }
      destruct res; cbn [s_then]; [congruence| |]; rewrite ?(tr_conn _ s _ Est Xt), ?(tr_free _ s _ ltac:(congruence) Xt); eauto. }
    destruct (reply_step_ok _ _ _ _ _ _ _ HS E) as [_ Q].
    destruct (on_some b0 q0 v tr _ (fun s => s_reply (p_session p) s p sok) s s' os HR Hu Hss E Q) as [v' Hv]. exists v', os. exact Hv.
  - cbn [srv_step]. eauto.
Qed.

(** ** Requests under segmentation *)

Lemma waitingb_iff uid s tr : SOK uid s (view_of uid tr) -> waitingb uid tr = sst_eqb (x_st s) SWait.
Proof.
  intros [_ _ _ _ _ X _ _]. unfold waitingb. destruct (x_st s); destruct X as (-> & _); reflexivity.
Qed.

Lemma forward v tr uid q fr bs more : reach v tr -> srv_enabled v (VData uid (RxBytes bs)) = true ->
  req_ok q -> encode_req q = EncOk fr -> bs <> [] -> w_rx (view_of uid tr) ++ bs ++ more = fr ->
  exists v' os, srv_step v (VData uid (RxBytes bs)) = Some (v', os) /\
    (forall r, srv_enabled v' (VData uid r) = true) /\
    existsb (is_ready uid) os = false /\
    if (length more =? 0)%nat
    then exists m, forwards uid q m /\ os = m :: (if waitingb uid tr then [] else [TDisarm uid; TArm uid 5000000])
    else os = [] \/ os = [TDisarm uid; TArm uid 5000000].
Proof.
  intros HR Hen Hq He Hne Hfr.
  destruct (encode_req_wf _ _ Hq He) as [Hwf Hlen].
  destruct (enabled_open v tr uid _ HR Hen) as (Hu & s & Hs & HS & Hk & Hst).
  pose proof HS as [Hb Hby [Hl Hlc] Hp Ha Xst Hrx _]. destruct (Hrx Hst) as [Hrl Hrx']. clear Hrx. rename Hrx' into Hrx.
  set (rx := w_rx (view_of uid tr)) in *.
  assert (Hlf : (length rx + length bs + length more = length fr)%nat) by (rewrite <- Hfr, !app_length; lia).
  assert (Hbs0 : (0 < length bs)%nat) by (destruct bs; [congruence|cbn; lia]).
  assert (H260 : x_len s <= 260) by lia. specialize (Hrx H260).
  assert (Hxl : Z.of_nat (length rx) = x_len s) by (rewrite Hrx, firstn_length; lia).
  assert (Hbok : bytes_ok bs).
  { destruct Hwf as (W & _). rewrite <- Hfr in W. apply Forall_app in W as [_ W]. now apply Forall_app in W as [W _]. }
  set (b := buf_write (x_buf s) (Z.to_nat (x_len s)) bs).
  assert (Hbl : length b = 512%nat) by (unfold b; rewrite bw_length; lia).
  assert (Hbb : bytes_ok b) by (apply bw_bytes; auto).
  set (k := (Z.to_nat (x_len s) + length bs)%nat).
  assert (Hpre : firstn k b = firstn k fr).
  { unfold k, b. rewrite bw_prefix by lia. rewrite <- Hrx, <- Hfr, app_assoc, firstn_app.
    replace (Z.to_nat (x_len s) + length bs - length (rx ++ bs))%nat with 0%nat by (rewrite app_length; lia).
    rewrite firstn_O, app_nil_r, firstn_all2; [auto|rewrite app_length; lia]. }
  assert (Hb2 : b = firstn k fr ++ skipn k b) by (rewrite <- Hpre; symmetry; apply firstn_skipn).
  assert (Hpkt : forall l n, firstn n l = firstn n fr -> (6 <= n)%nat -> aduPktLen l + 6 = Z.of_nat (length fr)).
  { intros l n E Hn. destruct Hwf as (_ & _ & t1 & t2 & l1 & l2 & body & Ef & El).
    assert (X : forall i, (i < 6)%nat -> nth i l 0 = nth i fr 0).
    { intros i Hi. transitivity (nth i (firstn n l) 0); [symmetry; apply nth_firstn_lt; lia|rewrite E; apply nth_firstn_lt; lia]. }
    unfold aduPktLen. rewrite !X by lia. rewrite Ef. cbn [nth length]. lia. }
  assert (Hpos : x_pos s = 0%nat).
  { destruct Hp as [Hp|[Hp1 Hp2]]; [auto|]. exfalso.
    rewrite (Hpkt (x_buf s) (Z.to_nat (x_len s))) in Hp2; [lia| |lia].
    rewrite <- Hrx, <- Hfr, firstn_app. replace (Z.to_nat (x_len s) - length rx)%nat with 0%nat by lia.
    rewrite firstn_O, app_nil_r, firstn_all2; [auto|lia]. }
  assert (Htrunc : firstn (Z.to_nat (bufMaxLen - x_len s)) bs = bs) by (apply firstn_all2; unfold bufMaxLen; lia).
  assert (Hlk : x_len s + Z.of_nat (length bs) = Z.of_nat k) by (unfold k; lia).
  pose proof (prefix_status fr (skipn k b) k Hwf Hlen ltac:(unfold k; lia)) as Hst2. rewrite <- Hb2 in Hst2.
  assert (Hrcv : exists s1 o res, s_receive uid s (RxBytes bs) = Some (s1, o, res) /\ res <> SrError /\
    x_st s1 = x_st s /\ x_timer s1 = x_timer s /\ x_link s1 = x_link s /\
    if (length more =? 0)%nat then exists m, forwards uid q m /\ o = [m] /\ res = SrDone else o = []).
  { unfold s_receive. destruct (Z.ltb_spec maxAduLen (x_len s)); [unfold maxAduLen in *; lia|]. rewrite Hk, Htrunc. fold b. rewrite Hlk, Hst2.
    destruct (Nat.eqb_spec (length more) 0) as [Hm|Hm].
    - replace (k =? length fr)%nat with true by (symmetry; apply Nat.eqb_eq; unfold k; lia).
      rewrite Hpos. cbn [skipn].
      assert (Hkf : firstn k fr = fr) by (apply firstn_all2; unfold k; lia).
      destruct Ha as (Ha1 & Ha2 & Ha3).
      destruct (req_roundtrip q fr (skipn k b) (x_adu s) Hq He ltac:(lia)) as (q' & Ed & Hrec).
      rewrite <- Hkf, <- Hb2, decode_into_erase in Ed.
      destruct (decode_into b (x_adu s)) as [q2 rest|q2 rest|] eqn:Ei; [|discriminate Ed|discriminate Ed].
      injection Ed as <- _.
      assert (Ho : adu_ok q2) by (eapply (decode_into_ok b (x_adu s)); [auto|split; auto|rewrite Ei; reflexivity]).
      pose proof Ho as (Ho1 & Ho2 & Ho3). pose proof (decode_into_addr _ _ _ _ Hbb Ei) as (_ & _ & Hw).
      destruct (Z.leb_spec (q_nbytes q2) (Z.of_nat (length (q_data q2)))) as [|X]; [|destruct Ho1 as (_ & _ & _ & _ & _ & _ & _ & G); lia].
      cbn [negb]. do 3 eexists. split; [reflexivity|]. scbn. split; [discriminate|]. do 3 (split; [first [reflexivity|exact Hk]|]).
      exists (req_msg uid q2). split; [|split; reflexivity].
      destruct Hrec as (R1 & R2 & R3 & R4 & R5 & R6). unfold req_msg, forwards. rewrite u16_id by auto.
      split; [reflexivity|]. split; [exact R1|]. split; [exact R2|]. split; [exact R3|]. split; [exact R4|]. rewrite R2. split; [exact R5|].
      intros Hf. destruct (R6 Hf) as [R7 R8]. split; [exact R7|]. rewrite R7. exact R8.
    - replace (k =? length fr)%nat with false by (symmetry; apply Nat.eqb_neq; unfold k; lia).
      destruct ((k <? 6)%nat || (k <? length fr - 6)%nat); do 3 eexists; (split; [reflexivity|]); scbn; (split; [discriminate|]); repeat split; first [reflexivity|exact Hk]. }
  destruct Hrcv as (s1 & o & res & Er & Hres & Hs1 & Ht1 & Hk1 & Ho).
  assert (exists t, x_timer s1 = Some t) as [t Ht].
  { rewrite Ht1. pose proof (timer_set _ _ _ HS Hst). destruct (x_timer s); [eauto|congruence]. }
  assert (Hd : exists s' os, s_data uid s (RxBytes bs) = Some (s', os) /\ x_link s' = Some true /\ existsb (is_ready uid) os = false /\
    if (length more =? 0)%nat
    then exists m, forwards uid q m /\ os = m :: (if waitingb uid tr then [] else [TDisarm uid; TArm uid 5000000])
    else os = [] \/ os = [TDisarm uid; TArm uid 5000000]).
  { rewrite (waitingb_iff _ s tr HS). unfold s_data. destruct (x_st s) eqn:Est; [congruence| |]; rewrite Er.
    - destruct (Nat.eqb_spec (length more) 0).
      + destruct Ho as (m & Hm & -> & ->). cbn [s_then]. rewrite (tr_wait uid s1 t Hs1 Ht). do 2 eexists. split; [reflexivity|].
        cbn [x_link]. split; [congruence|]. destruct m; try contradiction. split; [cbn; rewrite Z.eqb_refl; reflexivity|].
        eexists. split; [exact Hm|reflexivity].
      + subst o. destruct res; [| |congruence]; cbn [s_then].
        * do 2 eexists. split; [reflexivity|]. split; [congruence|]. split; [reflexivity|]. now left.
        * rewrite (tr_wait uid s1 t Hs1 Ht). do 2 eexists. split; [reflexivity|].
          cbn [x_link]. split; [congruence|]. split; [cbn; rewrite Z.eqb_refl; reflexivity|]. right. reflexivity.
    - destruct (Nat.eqb_spec (length more) 0).
      + destruct Ho as (m & Hm & -> & ->). do 2 eexists. split; [reflexivity|]. split; [congruence|].
        destruct m; try contradiction. split; [reflexivity|]. eexists. split; [exact Hm|reflexivity].
      + subst o. destruct res; [| |congruence]; do 2 eexists; (split; [reflexivity|]); (split; [congruence|]); (split; [reflexivity|]); now left. }
  destruct Hd as (s' & os & Ed & Hk' & Hr & Hos).
  destruct (data_ok uid s _ (RxBytes bs) s' os HS Hk Hbok Ed) as [_ Q].
  destruct (on_some b0 q0 v tr uid (fun s => s_data uid s (RxBytes bs)) s s' os HR Hu Hs Ed Q) as [v' Hv].
  exists v', os. split; [exact Hv|]. split; [|split; [exact Hr|exact Hos]].
  intros r. destruct (on_inv b0 q0 v tr uid _ v' os HR Hu Hv) as (s2 & s3 & Hs2 & _ & E2 & Hs3 & _).
  rewrite Hs in Hs2. injection Hs2 as <-. cbv beta in E2. rewrite Ed in E2. injection E2 as <-.
  cbn [srv_enabled]. rewrite Hs3, Hk'. lia.
Qed.

Lemma segmented uid q fr : req_ok q -> encode_req q = EncOk fr -> forall segs v tr,
  reach v tr -> (forall r, srv_enabled v (VData uid r) = true) -> Forall (fun bs => bs <> []) segs -> segs <> [] ->
  w_rx (view_of uid tr) ++ concat segs = fr ->
  exists v' tr', reach v' (tr ++ tr') /\ map fst tr' = map (fun bs => VData uid (RxBytes bs)) segs /\
    exists m, forwards uid q m /\ filter (is_req uid) (concat (map snd tr')) = [m] /\
    waiting uid (tr ++ tr').
Proof.
  intros Hq He. induction segs as [|bs segs IH]; intros v tr HR Hen Hne Hn0 Hfr; [congruence|].
  apply Forall_cons_iff in Hne as [Hbs Hne]. cbn [concat] in Hfr.
  destruct (forward v tr uid q fr bs (concat segs) HR (Hen _) Hq He Hbs Hfr) as (v' & os & Hst & Hen' & Hr & Ho).
  assert (Hbok : bytes_ok bs).
  { destruct (encode_req_wf _ _ Hq He) as [(W & _) _]. rewrite <- Hfr in W. apply Forall_app in W as [_ W]. now apply Forall_app in W as [W _]. }
  assert (HR' : reach v' (tr ++ [(VData uid (RxBytes bs), os)])) by (eapply re_step; eauto).
  destruct segs as [|bs2 segs].
  - cbn [concat length Nat.eqb] in Ho. destruct Ho as (m & Hm & ->).
    exists v'. eexists. split; [exact HR'|]. split; [reflexivity|]. exists m. split; [exact Hm|].
    split.
    + cbn [map concat snd fst]. rewrite app_nil_r. destruct m; try contradiction. cbn [forwards] in Hm. destruct Hm as (-> & _).
      cbn [filter is_req]. rewrite Z.eqb_refl. destruct (waitingb uid tr); reflexivity.
    + unfold waiting. rewrite view_snoc. destruct m; try contradiction. unfold waitingb, view_next.
      cbn [w_armed fold_left arm_next]. destruct (w_armed (view_of uid tr)) as [t'|] eqn:Ew.
      * destruct (Z.eqb_spec t' 5000000) as [->|]; cbn; rewrite ?Z.eqb_refl; reflexivity.
      * cbn. rewrite Z.eqb_refl. reflexivity.
  - assert (Hcn : (length (concat (bs2 :: segs)) =? 0)%nat = false).
    { cbn [concat]. apply Forall_cons_iff in Hne as [Hb2 _]. destruct bs2; [congruence|]. reflexivity. }
    rewrite Hcn in Ho.
    destruct (IH v' _ HR' Hen' Hne ltac:(discriminate)) as (v2 & tr2 & R2 & E2 & m & Hm & Hf & Hw).
    { rewrite view_snoc. unfold view_next. cbn [w_rx]. rewrite Hr, Z.eqb_refl, <- app_assoc. exact Hfr. }
    exists v2. eexists. rewrite <- app_assoc in R2, Hw. split; [exact R2|]. cbn [app map fst snd concat]. split; [now rewrite E2|].
    exists m. split; [exact Hm|]. split; [|exact Hw]. rewrite filter_app, Hf.
    destruct Ho as [->| ->]; reflexivity.
Qed.
End Wire.

(** A checked run is a history. *)
Fixpoint vrun (v : server) (es : list vev) : option (server * strace) :=
  match es with
  | [] => Some (v, [])
  | e :: r =>
      if srv_enabled v e then
        match srv_step v e with
        | None => None
        | Some (v1, os) => match vrun v1 r with
                           | None => None
                           | Some (v2, tr) => Some (v2, (e, os) :: tr)
                           end
        end
      else None
  end.
Lemma vrun_reach b0 q0 es : forall v tr v' tr', reach b0 q0 v tr -> Forall vev_ok es -> vrun v es = Some (v', tr') ->
  reach b0 q0 v' (tr ++ tr').
Proof.
  induction es as [|e es IH]; intros v tr v' tr' HR Hok H; cbn [vrun] in H.
  - apply some2 in H as (<- & <-). now rewrite app_nil_r.
  - apply Forall_cons_iff in Hok as [He Hok]. destruct (srv_enabled v e) eqn:Ee; [|discriminate].
    destruct (srv_step v e) as [[v1 os]|] eqn:Es; [|discriminate].
    destruct (vrun v1 es) as [[v2 tr2]|] eqn:Er; [|discriminate]. apply some2 in H as (<- & <-).
    change ((e, os) :: tr2) with ([(e, os)] ++ tr2). rewrite app_assoc. eapply IH; eauto. eapply re_step; eauto.
Qed.

(** Running a freshly started server. *)
Definition vstart (o : option server) (es : list vev) : option (server * strace) :=
  match o with Some v => vrun v es | None => None end.
Lemma vstart_reach b0 q0 o es v tr : mem_ok b0 q0 -> Forall vev_ok es -> srv_new maxNumSession b0 q0 = o ->
  vstart o es = Some (v, tr) -> reach b0 q0 v tr.
Proof.
  intros Hm Hok E H. destruct o as [v0|]; [|discriminate]. cbn [vstart] in H.
  change tr with ([] ++ tr). eapply vrun_reach; eauto. now apply re_new.
Qed.
Definition rx_ok (r : lrx) : bool := match r with RxBytes bs => forallb (fun b => (0 <=? b) && (b <? 256)) bs | _ => true end.
Definition vev_okb (e : vev) : bool :=
  match e with
  | VData _ r => rx_ok r
  | VReply p _ => (0 <=? p_session p) && (p_session p <? 4294967296) && (0 <=? p_tid p) && (p_tid p <? 65536) &&
      (0 <=? p_error p) && (p_error p <? 256) && (0 <=? p_nbytes p) && (p_nbytes p <? 65536) &&
      forallb (fun b => (0 <=? b) && (b <? 256)) (p_data p) && (p_nbytes p <=? Z.of_nat (length (p_data p)))
  | _ => true
  end.
Lemma forallb_bytes bs : forallb (fun b => (0 <=? b) && (b <? 256)) bs = true -> bytes_ok bs.
Proof.
  intros H. apply Forall_forall. intros x Hx. eapply forallb_forall in H; eauto. unfold is_byte. lia.
Qed.
Lemma vev_okb_ok es : forallb vev_okb es = true -> Forall vev_ok es.
Proof.
  intros H. apply Forall_forall. intros e He. eapply forallb_forall in H; eauto. destruct e as [| u [| |bs] | | | p sok |]; cbn in *; auto.
  - now apply forallb_bytes.
  - repeat (apply andb_prop in H as [H ?]). unfold reply_ok, is_u32, is_u16, is_byte.
    repeat match goal with |- _ /\ _ => split end; try lia. now apply forallb_bytes.
Qed.

(** Runs whose effects have been computed. *)
Lemma vrun_combine es : forall v v' tr, vrun v es = Some (v', tr) -> tr = combine es (map snd tr).
Proof.
  induction es as [|e es IH]; intros v v' tr H; cbn [vrun] in H.
  - apply some2 in H as (<- & <-). reflexivity.
  - destruct (srv_enabled v e); [|discriminate]. destruct (srv_step v e) as [[v1 os]|]; [|discriminate].
    destruct (vrun v1 es) as [[v2 tr2]|] eqn:Er; [|discriminate]. apply some2 in H as (_ & <-).
    cbn [map snd combine]. f_equal. eapply IH; eauto.
Qed.
Definition outs_of (o : option (server * strace)) : option (list (list sout)) :=
  match o with Some (_, tr) => Some (map snd tr) | None => None end.
Notation souts b0 q0 es := (outs_of (vstart (srv_new maxNumSession b0 q0) es)).
Lemma outs_inv o es oss : outs_of (vstart o es) = Some oss ->
  exists v tr, vstart o es = Some (v, tr) /\ tr = combine es oss.
Proof.
  destruct o as [v0|]; [|discriminate]. cbn [vstart]. destruct (vrun v0 es) as [[v tr]|] eqn:E; [|discriminate].
  cbn [outs_of]. intros H. injection H as <-. exists v, tr. split; [reflexivity|]. eapply vrun_combine; eauto.
Qed.
Lemma outs_reach b0 q0 o es oss : mem_ok b0 q0 -> forallb vev_okb es = true -> srv_new maxNumSession b0 q0 = o ->
  outs_of (vstart o es) = Some oss -> exists v, reach b0 q0 v (combine es oss).
Proof.
  intros Hm Hok Eo H. apply outs_inv in H as (v & tr & E & ->). exists v.
  apply (vstart_reach b0 q0 o es v _ Hm (vev_okb_ok es Hok)); auto.
Qed.
Lemma souts_reach b0 q0 es oss : mem_ok b0 q0 -> forallb vev_okb es = true -> souts b0 q0 es = Some oss ->
  exists v, reach b0 q0 v (combine es oss).
Proof. intros Hm Hok H. exact (outs_reach b0 q0 _ es oss Hm Hok eq_refl H). Qed.
Lemma reach_snoc b0 q0 v tr e os : reach b0 q0 v (tr ++ [(e, os)]) ->
  exists v0, reach b0 q0 v0 tr /\ vev_ok e /\ srv_enabled v0 e = true /\ srv_step v0 e = Some (v, os).
Proof.
  intros H. inversion H as [v0 _ _ E|v0 tr0 e0 v1 os0 R He Hen Hs E1 E2].
  - destruct tr; discriminate.
  - apply app_inj_tail in E2 as [-> E2]. injection E2 as -> ->. eauto.
Qed.
Lemma souts_last b0 q0 es oss e os : mem_ok b0 q0 -> forallb vev_okb (es ++ [e]) = true -> length es = length oss ->
  souts b0 q0 (es ++ [e]) = Some (oss ++ [os]) ->
  exists v v', reach b0 q0 v (combine es oss) /\ vev_ok e /\ srv_enabled v e = true /\ srv_step v e = Some (v', os).
Proof.
  intros Hm Hok Hl H. apply souts_reach in H as [v' R]; [|auto|auto].
  assert (E : combine (es ++ [e]) (oss ++ [os]) = combine es oss ++ [(e, os)]).
  { clear - Hl. revert oss Hl. induction es as [|x es IH]; intros [|y oss] Hl; try discriminate; [reflexivity|].
    cbn. f_equal. apply IH. now injection Hl. }
  rewrite E in R. apply reach_snoc in R as (v & R & A & B & C). eauto 6.
Qed.
