(** The self-test: a request on its way to the server and its response. *)
From Verif Require Import Base QueueModel QueueSpec QueueProofs PoolModel PoolSpec PoolProofs MsgStorageModel ModbusCodecModel ModbusCodecSpec ModbusCodecProofs
  ModbusClientModel ModbusClientSpec ModbusStoreProofs ModbusClientProofs ModbusClientRuns ModbusClientFacts
  ModbusServerModel ModbusServerSpec ModbusServerProofs ModbusServerRuns ModbusServerFacts ModbusServerWire ModbusCompModel ModbusCompSpec ModbusCompRuns ModbusNetModel ModbusNetSpec
  ModbusNetProofs ModbusNetRuns ModbusNetFacts ControllerModel AppModel SelfTestModel SelfTestSpec SelfTestTable SelfTestCore SelfTestLink SelfTestRound.
Local Open Scope Z_scope.

Section Wire.
Context (g : list Z) (Hg : octets g).

Lemma itm_ok i : (i < 16)%nat -> req_ok (i_req (itm g i)).
Proof. intros H. apply (item_fine g Hg i H). Qed.
Lemma enc_stored i : (i < 16)%nat -> encode_req (i_req (stored (itm g i))) = encode_req (i_req (itm g i)).
Proof. intros H. apply encode_stored. now apply itm_ok. Qed.

(** * The timer of the client *)
Lemma timer_defined d : c_st d = CSend -> c_fd d = true -> (forall it rest, c_store d = it :: rest -> exists x, encode_req (i_req it) = EncOk x \/ encode_req (i_req it) = EncFail x) ->
  exists d' os, lc_step d (ETimer true true) = Some (d', os).
Proof.
  intros Hst Hfd He. unfold lc_step, c_step, on_timer. destruct d as [st fd tm s b p l]. cbn [c_st c_store c_fd set_timer] in *. subst st fd.
  unfold c_send. cbn [set_timer c_st c_store c_fd]. destruct s as [|it rest]; cbn [ls_empty ls_front ls_pop]; [cbn; eauto|].
  cbv beta iota. destruct (He it rest eq_refl) as (x & [E|E]); cbn; rewrite E; cbn; eauto.
Qed.
Lemma timeout_step d it rest : c_st d = CReceive -> c_store d = it :: rest ->
  exists d', lc_step d (ETimer true true) = Some (d', [error_for it; OStop; OTimer 10000]) /\ c_st d' = CSend /\ c_store d' = rest /\ c_fd d' = c_fd d.
Proof.
  intros Hst Hs. unfold lc_step, c_step, on_timer. destruct d as [st fd tm s b p l]. cbn [c_st c_store c_fd set_timer] in *. subst st s.
  cbn. eexists. split; [reflexivity|]. auto.
Qed.

(** A step of the client keeps what the invariant says about the rest. *)
Lemma after_cli c d b1 q1 v tr u w wr a b r e d' os b' r' : running g c d b1 q1 v tr u w wr a b r -> ev_ok e -> enabled d e = true -> lc_step d e = Some (d', os) ->
  c_fd d' = true -> c_store d' = map stored (map (itm g) r') -> b ++ r = b' ++ r' -> (forall i, In i b' -> needs i = true -> wr i = true) -> (forall i, In i r' -> In i r) ->
  exists c', co_next c (QNet (MvCli 0 e)) = Some (c', flat_map c_sends os) /\ running g c' d' b1 q1 v tr u (wire_next w e os) wr a b' r' /\
    o_up c' = o_up c ++ flat_map c_sends os /\ o_down c' = o_down c /\ o_c2s c' = o_c2s c ++ cli_octets os /\
    o_s2c c' = skipn (match e with EData (RxBytes bs) => length bs | _ => 0 end) (o_s2c c).
Proof.
  intros [(cl & R1 & RCd) R2 R3 R4 R5 R6 R7 R8 R9 R10 R11 R12] Hev En Es Hfd Hst Hbr Hb' Hr'.
  destruct (ac_of_lc _ _ _ _ _ RCd Hev En Es) as (cl' & RC' & Ea).
  pose proof (sf_inv _ _ _ _ _ (step_ok _ _ _ _ _ R2 Hev En Es)) as HI'.
  rewrite (net_cli _ _ _ _ _ _ R1 Ea). eexists. split; [reflexivity|]. cbn [o_up o_down o_c2s o_s2c]. split; [|auto].
  constructor; cbn [o_mb o_mt o_sess]; auto.
  - exists cl'. auto.
  - rewrite <- Hbr. exact R5.
Qed.

Lemma cli_state c d b1 q1 v tr u w wr a b r cl : running g c d b1 q1 v tr u w wr a b r -> co_cli c = Some cl -> RC cl d.
Proof. intros [(cl' & R1 & RCd) _ _ _ _ _ _ _ _ _ _ _] H. unfold co_cli in H. rewrite R1 in H. cbn in H. injection H as <-. exact RCd. Qed.

Lemma cheap_one n n' : n' + 1 < n -> forall i, cheap n n' [rsp g i].
Proof. intros H i. split; [repeat constructor|left]. cbn. split; [lia|reflexivity]. Qed.
Lemma cheap_none n n' : n' < n -> cheap n n' [].
Proof. intros H. split; [constructor|left]. cbn. split; [lia|reflexivity]. Qed.

Lemma busy_timer c n : busy g c n -> (exists cl, co_cli c = Some cl /\ enabled cl (ETimer true true) = true /\ match c_st cl with CBackoff | CSend => True | CReceive => co_still c | _ => False end) ->
  exists c' outs n', co_next c (QNet (MvCli 0 (ETimer true true))) = Some (c', outs) /\ INV g c' n' /\ 0 <= n' /\ cheap n n' outs.
Proof.
  intros Hb (cl0 & Hcl0 & Hen & Hst0).
  destruct Hb as [d b1 q1 v tr u wr a b r HR Hne B1 B2 B3 B4 B5 B6 B7|d b1 q1 v tr u wr a b i r HR W B1 B2 B3 B4 B5|
    d b1 q1 v tr u wr a b i r os t f ad st nn nb da HR W B1 B2 B3 B4 B5 B6 B7 B8|
    d b1 q1 v tr u wr a i r os t f ad st nn nb da HR W B0 B1 B2 B3 B4 B5 B6 B7 B8|d b1 q1 v tr u wr a i r q rx HR W N15 Hw B1 B2 B3 B4 B5 B6 B7 B8 B9 B10 B11|
    d b1 q1 v tr u wr a r HR B1 B2 B3 B4 B5 B6]; pose proof (cli_state _ _ _ _ _ _ _ _ _ _ _ _ _ HR Hcl0) as HC0; pose proof HC0 as (X & _); rewrite X in Hst0; clear X;
  rewrite (enabled_sim _ _ _ HC0) in Hen;
  try (pose proof (ci_wire _ _ (rn_ci _ _ _ _ _ _ _ _ _ _ _ _ _ HR)) as [Hrc _]; rewrite Hrc in Hst0; destruct Hst0 as (S1 & S2 & S3 & S4); try congruence).
  - destruct B7 as [Hst|Hst]; [|rewrite Hst in Hst0; contradiction].
    pose proof HR as [R1 R2 R3 R4 R5 R6 R7 R8 R9 R10 R11 R12].
    assert (HX : forall i r', r = i :: r' -> (i < 16)%nat /\ i <> 12%nat).
    { intros i r' ->. split; [eapply ord_in; [exact R5|cbn; auto]|]. intros ->. apply R12. now left. }
    destruct (timer_defined d Hst R3) as (d' & os & Es).
    { intros it rest E. rewrite R4 in E. destruct r as [|i r']; [discriminate|]. cbn [map] in E. injection E as <- _. destruct (HX i r' eq_refl) as [Hi N].
      rewrite enc_stored by auto. destruct (wired i) eqn:W; [destruct (enc_wired g Hg i Hi W) as [x E]|destruct (enc_other g Hg i Hi W N) as [x E]]; exists x; auto. }
    destruct (cli_timer d _ true d' os R2 Hst R3 Es) as (K1 & _ & _ & K4). rewrite R4 in K4.
    destruct r as [|i r]; cbn [map] in K4.
    + destruct K4 as (-> & K5 & K6).
      destruct (after_cli _ _ _ _ _ _ _ _ _ _ _ _ _ _ _ b [] HR (I : ev_ok (ETimer true true)) Hen Es K1 K6 eq_refl R7 ltac:(auto)) as (c' & E & HR' & U1 & U2 & U3 & U4).
      exists c'. do 2 eexists.
      split; [exact E|]. split.
      * right. eapply bz_send; [exact HR'|..]; auto; cbn in *; rewrite ?app_nil_r in *; try congruence.
      * assert (Hs' : o_sess c' = Some u) by apply HR'. rewrite Hs', R9, Hst, K5. cbn. destruct (o_ref c); (split; [lia|]); apply cheap_none; lia.
    + destruct (HX i r eq_refl) as [Hi N]. rewrite (enc_stored i Hi) in K4. destruct (wired i) eqn:W.
      * destruct (enc_wired g Hg i Hi W) as [fr Ee]. rewrite Ee in K4. destruct K4 as (-> & K5 & K6).
        destruct (after_cli _ _ _ _ _ _ _ _ _ _ _ _ _ _ _ b (i :: r) HR (I : ev_ok (ETimer true true)) Hen Es K1 K6 eq_refl R7 ltac:(auto)) as (c' & E & HR' & U1 & U2 & U3 & U4).
        rewrite B1 in U3. cbn [cli_octets flat_map List.app] in U3. rewrite app_nil_r in U3.
        rewrite <- (enc_stored i Hi) in Ee. destruct (encode_req_wf _ _ (stored_ok _ (itm_ok i Hi)) Ee) as [(_ & Hl1 & _) Hl2].
        exists c'. do 2 eexists.
        split; [exact E|]. split.
        -- right. eapply bz_req; [exact HR'|..]; auto; cbn in *; rewrite ?app_nil_r in *; try congruence.
           ++ rewrite U3. intros ->. cbn in Hl1. lia.
           ++ rewrite B4, U3. exact Ee.
        -- rewrite U3. split; [lia|]. cbn [flat_map c_sends List.app]. pose proof (lw_pos (c_st d) (o_ref c) (o_sess c)). cbn [length]. apply cheap_none. lia.
      * destruct (enc_other g Hg i Hi W N) as [x Ee]. rewrite Ee in K4. destruct K4 as (-> & K5 & K6).
        destruct (after_cli _ _ _ _ _ _ _ _ _ _ _ _ _ _ _ (b ++ [i]) r HR (I : ev_ok (ETimer true true)) Hen Es K1 K6) as (c' & E & HR' & U1 & U2 & U3 & U4).
        { now rewrite <- app_assoc. }
        { intros j Hj Hn. apply in_app_iff in Hj as [Hj|[<-|[]]]; [auto|]. apply needs_wired in Hn. congruence. }
        { intros j Hj. now right. }
        assert (Hs : flat_map c_sends [error_for (stored (itm g i)); OTimer 10000] = [rsp g i]).
        { cbn [flat_map]. rewrite (ans_err g i Hi N (or_introl W)). reflexivity. }
        rewrite Hs in *. exists c'. do 2 eexists.
        split; [exact E|]. split.
        -- right. eapply bz_send; [exact HR'|..]; auto.
           ++ destruct b; discriminate.
           ++ now rewrite U3, B1.
           ++ now rewrite U4, B2.
           ++ rewrite U1, B5, map_app. reflexivity.
           ++ congruence.
        -- pose proof (lw_pos (c_st d') (o_ref c') (o_sess c')). pose proof (lw_pos (c_st d) (o_ref c) (o_sess c)). rewrite app_length. cbn [length].
           split; [lia|]. apply cheap_one. lia.
  - exfalso. rewrite B7 in S3. destruct b; discriminate S3.
  - pose proof HR as [R1 R2 R3 R4 R5 R6 R7 R8 R9 R10 R11 R12]. cbn [map] in R4.
    destruct (timeout_step d _ _ Hrc R4) as (d' & Es & K1 & K2 & K3).
    destruct (after_cli _ _ _ _ _ _ _ _ _ _ _ _ _ _ _ [15%nat] r HR (I : ev_ok (ETimer true true)) Hen Es ltac:(congruence) K2 eq_refl) as (c' & E & HR' & U1 & U2 & U3 & U4).
    { intros j [<-|[]]. discriminate. }
    { intros j Hj. now right. }
    assert (Hs : flat_map c_sends [error_for (stored (itm g 15)); OStop; OTimer 10000] = [rsp g 15]).
    { cbn [flat_map]. rewrite (ans_err g 15 ltac:(lia) ltac:(lia) (or_intror eq_refl)). reflexivity. }
    rewrite Hs in *. exists c'. do 2 eexists.
    split; [exact E|]. split.
    + right. eapply bz_send; [exact HR'|..]; auto; try discriminate; rewrite ?U1, ?U3, ?U4, ?B1, ?B2, ?B5; auto. congruence.
    + pose proof (lw_pos (c_st d') (o_ref c') (o_sess c')). cbn [length]. split; [lia|]. apply cheap_one. lia.
Qed.

(** * The session reads *)
(** A step of the server keeps what the invariant says about the rest. *)
Lemma after_srv c d b1 q1 v tr u w wr a b r e v' os : running g c d b1 q1 v tr u w wr a b r -> vev_ok e -> srv_enabled v e = true -> srv_step v e = Some (v', os) ->
  (forall x, srv_enabled v' (VData u x) = true) ->
  forall c', o_mb c' = match o_mb c with Some (mkMb _ cs b) => Some (mkMb [Some v'] cs b) | None => None end -> o_mt c' = o_mt c -> o_sess c' = o_sess c ->
  running g c' d b1 q1 v' (tr ++ [(e, os)]) u w wr a b r.
Proof.
  intros [(cl & R1 & RCd) R2 R3 R4 R5 R6 R7 R8 R9 R10 R11 R12] Hev En Es Ho c' M1 M2 M3. constructor; auto; try congruence.
  - exists cl. split; [rewrite M1, R1; reflexivity|auto].
  - eapply re_step; eauto.
Qed.

Lemma busy_read c n v0 u0 bs : busy g c n -> co_srv c = Some v0 -> o_sess c = Some u0 -> srv_enabled v0 (VData u0 (RxBytes bs)) = true ->
  readable bs (o_c2s c) (match session_of v0 u0 with Some x => bufMaxLen - x_len x | None => 0 end) = true ->
  exists c' outs n', co_next c (QNet (MvSrv 0 (VData u0 (RxBytes bs)))) = Some (c', outs) /\ INV g c' n' /\ 0 <= n' /\ cheap n n' outs.
Proof.
  intros Hb Hv0 Hs0 Hen Hrd. apply readable_split in Hrd as (Hne & more & Ec & Esk).
  destruct Hb as [d b1 q1 v tr u wr a b r HR Hn0 B1 B2 B3 B4 B5 B6 B7|d b1 q1 v tr u wr a b i r HR W B1 B2 B3 B4 B5|
    d b1 q1 v tr u wr a b i r os t f ad st nn nb da HR W B1 B2 B3 B4 B5 B6 B7 B8|
    d b1 q1 v tr u wr a i r os t f ad st nn nb da HR W B0 B1 B2 B3 B4 B5 B6 B7 B8|d b1 q1 v tr u wr a i r q rx HR W N15 Hw B1 B2 B3 B4 B5 B6 B7 B8 B9 B10 B11|
    d b1 q1 v tr u wr a r HR B1 B2 B3 B4 B5 B6]; try (exfalso; rewrite B1 in Ec; destruct bs; [congruence|discriminate]).
  pose proof HR as [(cl & R1 & RCd) R2 R3 R4 R5 R6 R7 R8 R9 R10 R11 R12].
  assert (v0 = v) as -> by (unfold co_srv in Hv0; rewrite R1 in Hv0; cbn in Hv0; congruence). assert (u0 = u) as -> by congruence. clear Hv0 Hs0.
  assert (Hi : (i < 16)%nat) by (eapply ord_in; [exact R5|cbn; auto]).
  rewrite Ec in B3. pose proof (stored_ok _ (itm_ok i Hi)) as Hok.
  destruct (encode_req_wf _ _ Hok B3) as [(Hby & _) _]. unfold bytes_ok in Hby. apply Forall_app in Hby as [_ Hby]. apply Forall_app in Hby as [Hby _].
  destruct (forward b1 q1 v tr u (i_req (stored (itm g i))) _ bs more R8 Hen Hok B3 Hne eq_refl) as (v2 & os & Es & Hopen & Hrdy & Hout).
  pose proof (after_srv _ _ _ _ _ _ _ _ _ _ _ _ _ _ _ HR (Hby : vev_ok (VData u (RxBytes bs))) Hen Es Hopen) as AS.
  rewrite (net_srv _ _ _ _ _ _ R1 Es). rewrite R9, Esk, B2, B5. rewrite Ec, app_length.
  assert (0 < length bs)%nat by (destruct bs; [congruence|cbn; lia]).
  destruct (Nat.eqb_spec (length more) 0) as [Hm|Hm].
  - apply length_zero_iff_nil in Hm as ->. destruct Hout as (m & Hfw & Eo).
    destruct m as [u1 t f ad st nn nb da| | | | |]; try contradiction. assert (u1 = u) as -> by apply Hfw.
    assert (Hq : flat_map (s_sends 0) os = [GFromModbus (TvReq (mkMreq 0 u t f st nn nb da))] /\ srv_octets u os = [] /\
                 fold_left (arm_next u) os (w_armed (view_of u tr)) = Some 5000000).
    { subst os. unfold waitingb. cbn. destruct (w_armed (view_of u tr)) as [t0|]; [destruct (Z.eqb_spec t0 5000000) as [->|]|];
      cbn; rewrite ?Z.eqb_refl; auto. }
    destruct Hq as (Q1 & Q2 & Q3). rewrite Q1, Q2. cbn [List.app]. do 3 eexists. split; [reflexivity|]. split.
    + right. eapply (bz_app g _ d b1 q1 v2 _ u wr a b i r os t f ad st nn nb da); cbn [o_c2s o_s2c o_up o_down]; auto.
      * apply AS; cbn [o_mb o_mt o_sess]; rewrite ?R1; auto.
      * rewrite view_snoc. exact Q3.
      * rewrite view_snoc. cbn. now rewrite Z.eqb_refl.
      * rewrite Eo. now left.
      * apply (proj1 (forwards_stored u (itm g i) _ (itm_ok i Hi))). exact Hfw.
      * now rewrite B4.
    + split; [lia|]. split; [repeat constructor|]. left. cbn [length filter is_batch]. split; [lia|reflexivity].
  - assert (Hq : flat_map (s_sends 0) os = [] /\ srv_octets u os = []) by (destruct Hout as [->| ->]; auto). destruct Hq as (Q1 & Q2).
    rewrite Q1, Q2, app_nil_r. cbn [List.app]. do 3 eexists. split; [reflexivity|]. split.
    + right. eapply (bz_req g _ d b1 q1 v2 _ u wr a b i r); cbn [o_c2s o_s2c o_up o_down]; auto.
      * apply AS; cbn [o_mb o_mt o_sess]; rewrite ?R1; auto.
      * intros ->. now apply Hm.
      * rewrite view_snoc. cbn [view_next w_rx]. rewrite Hrdy, Z.eqb_refl, <- app_assoc. exact B3.
    + cbn [o_c2s]. split; [lia|]. apply cheap_none. lia.
Qed.

(** * The session replies *)
Lemma reply_failed b1 q1 v tr u p : reach b1 q1 v tr -> 0 <= u < 256 -> waiting u tr -> (forall x, srv_enabled v (VData u x) = true) ->
  reply_ok p -> p_session p = u -> p_nbytes p <= 260 -> p_ok p = false ->
  exists v', srv_step v (VReply p true) = Some (v', [TDisarm u; TArm u 30000000]) /\ (forall x, srv_enabled v' (VData u x) = true).
Proof.
  intros HR Hu Hw Ho Hp Hs Hn Hok.
  destruct (ModbusServerWire.step_defined b1 q1 v tr (VReply p true) HR (Hp : vev_ok (VReply p true)) eq_refl ltac:(cbn; lia)) as (v' & os & Es).
  destruct (srv_reply b1 q1 v tr u p v' os HR Hu Hw Ho Hs Es) as (pre & -> & Hop & [->|(bs & q & -> & _)]); [eauto|]. exfalso.
  subst u. cbn [srv_step] in Es. destruct (on_inv b1 q1 v tr _ _ v' _ HR Hu Es) as (s & s' & Hs & HS & Ek & _).
  apply (waiting_iff _ s tr HS) in Hw. pose proof (so_st _ _ _ HS) as X. rewrite Hw in X. destruct X as (_ & Xt & _ & _).
  unfold s_reply in Ek. rewrite Hw in Ek. unfold s_send in Ek. rewrite Hok in Ek. cbn [negb] in Ek.
  destruct (negb (p_tid p =? q_tid (x_adu s))); cbn [s_then] in Ek; rewrite (tr_conn _ s _ Hw Xt) in Ek; discriminate Ek.
Qed.

Lemma busy_reply c n x m down : busy g c n -> o_down c = m :: down -> m_event m x = true -> co_fine c (QMod x) ->
  exists c' outs n', co_next c (QMod x) = Some (c', outs) /\ INV g c' n' /\ 0 <= n' /\ cheap n n' outs.
Proof.
  intros Hb Hd Hx Hf.
  destruct Hb as [d b1 q1 v tr u wr a b r HR Hn0 B1 B2 B3 B4 B5 B6 B7|d b1 q1 v tr u wr a b i r HR W B1 B2 B3 B4 B5|
    d b1 q1 v tr u wr a b i r os t f ad st nn nb da HR W B1 B2 B3 B4 B5 B6 B7 B8|
    d b1 q1 v tr u wr a i r os t f ad st nn nb da HR W B0 B1 B2 B3 B4 B5 B6 B7 B8|d b1 q1 v tr u wr a i r q rx HR W N15 Hw B1 B2 B3 B4 B5 B6 B7 B8 B9 B10 B11|
    d b1 q1 v tr u wr a r HR B1 B2 B3 B4 B5 B6]; try congruence.
  pose proof HR as [(cl & R1 & RCd) R2 R3 R4 R5 R6 R7 R8 R9 R10 R11 R12].
  assert (Hi : (i < 16)%nat) by (eapply (ord_in a [] (i :: r)); [exact R5|cbn; auto]).
  rewrite B8 in Hd. injection Hd as <- <-. destruct x as [| | | |s p sok| |]; try discriminate Hx. cbn [co_fine] in Hf. subst sok.
  assert (Ep : s = 0 /\ p = rep g u i).
  { clear - Hx. unfold reply_msg, m_event in Hx. destruct p as [s' t' o' e' nb' d'], (rep g u i) as [s'' t'' o'' e'' nb'' d''].
    cbn [p_session p_tid p_ok p_error p_nbytes p_data] in Hx. repeat (apply andb_prop in Hx as [Hx ?]).
    unfold zlist_eqb in *. destruct (list_eq_dec Z.eq_dec d'' d'); [|discriminate]. split; [lia|]. f_equal; try lia; auto. symmetry. now apply Bool.eqb_prop. }
  destruct Ep as [-> ->]. clear Hx. destruct (rep_fine g Hg u i Hi W R10) as (P1 & P2 & P3 & P4 & P5 & P6).
  assert (Hw : waiting u tr) by exact B3.
  destruct (Nat.eq_dec i 15) as [->|N15].
  - destruct (reply_failed b1 q1 v tr u _ R8 R10 Hw R11 P1 P2 P4 (P6 eq_refl)) as (v' & Es & Hopen).
    pose proof (after_srv _ _ _ _ _ _ _ _ _ _ _ _ _ _ _ HR (P1 : vev_ok (VReply (rep g u 15) true)) eq_refl Es Hopen) as AS.
    rewrite (mod_rsp _ _ _ _ _ _ _ _ _ R1 B8 Es). rewrite R9. cbn [flat_map s_sends srv_octets List.app]. rewrite !app_nil_r.
    do 3 eexists. split; [reflexivity|]. split.
    + right. eapply (bz_stall g _ d b1 q1 v' _ u wr a r); cbn [o_c2s o_s2c o_up o_down]; auto.
      * apply AS; cbn [o_mb o_mt o_sess]; rewrite ?R1; auto.
      * rewrite view_snoc. cbn. now rewrite Z.eqb_refl.
      * rewrite view_snoc. cbn. now rewrite Z.eqb_refl.
    + split; [lia|]. apply cheap_none. lia.
  - destruct (P5 N15) as [P7 P8].
    assert (Ht : t = p_tid (rep g u i)).
    { destruct B6 as (_ & E & _). rewrite E, P3. unfold itm, case_item. cbn [i_req q_tid]. apply Z.mod_small. lia. }
    assert (Hfu : f = q_func (i_req (itm g i))) by apply B6.
    pose proof (reply_outcome b1 q1 v tr u os t f ad st nn nb da (rep g u i) R8 R10 Hw (R11 RxNa) B4 B5 P1 P2 (eq_sym Ht) P7) as X4.
    destruct (Z.ltb_spec 260 (p_nbytes (rep g u i))); [lia|]. destruct X4 as (v' & os' & Es & X4). rewrite Hfu, P8 in X4. destruct X4 as (bs & -> & _). cbn [List.app] in Es.
    destruct (srv_reply b1 q1 v tr u _ v' _ R8 R10 Hw R11 P2 Es) as (pre & Epre & Hopen & Hpre).
    destruct Hpre as [->|(bs' & q & -> & Hq & Htid & Hn & He & Hlast)]; [discriminate Epre|]. cbn [List.app] in Epre. injection Epre as <-.
    destruct (Hlast _ _ _ _ _ _ _ _ B4 B5) as [Em Hfw].
    pose proof (after_srv _ _ _ _ _ _ _ _ _ _ _ _ _ _ _ HR (P1 : vev_ok (VReply (rep g u i) true)) eq_refl Es Hopen) as AS.
    destruct (encode_rsp_wf _ _ (reply_adu_ok q _ Hq P1 Hn) He) as [(_ & X & _) Xl].
    rewrite (mod_rsp _ _ _ _ _ _ _ _ _ R1 B8 Es). rewrite R9, B2. cbn [flat_map s_sends srv_octets List.app]. rewrite Z.eqb_refl, !app_nil_r.
    do 3 eexists. split; [reflexivity|]. split.
    + right. eapply (bz_back g _ d b1 q1 v' _ u wr a i r q []); cbn [o_c2s o_s2c o_up o_down]; auto.
      * apply AS; cbn [o_mb o_mt o_sess]; rewrite ?R1; auto.
      * intros ->. cbn in X. lia.
      * rewrite view_snoc. cbn. now rewrite Z.eqb_refl.
      * rewrite view_snoc. cbn. now rewrite Z.eqb_refl.
      * rewrite <- Em. exact B6.
    + cbn [o_s2c]. split; [lia|]. apply cheap_none. lia.
Qed.

(** * The client reads *)
Lemma busy_data c n cl0 bs : busy g c n -> co_cli c = Some cl0 -> enabled cl0 (EData (RxBytes bs)) = true ->
  readable bs (o_s2c c) (bufMaxLen - c_len cl0) = true -> (bs = o_s2c c \/ c_len cl0 + Z.of_nat (length bs) < 6 \/ (length bs + 6 < length (o_s2c c))%nat) ->
  exists c' outs n', co_next c (QNet (MvCli 0 (EData (RxBytes bs)))) = Some (c', outs) /\ INV g c' n' /\ 0 <= n' /\ cheap n n' outs.
Proof.
  intros Hb Hcl0 Hen Hrd Hcalm. apply readable_split in Hrd as (Hne & more & Ec & Esk).
  destruct Hb as [d b1 q1 v tr u wr a b r HR Hn0 B1 B2 B3 B4 B5 B6 B7|d b1 q1 v tr u wr a b i r HR W B1 B2 B3 B4 B5|
    d b1 q1 v tr u wr a b i r os t f ad st nn nb da HR W B1 B2 B3 B4 B5 B6 B7 B8|
    d b1 q1 v tr u wr a i r os t f ad st nn nb da HR W B0 B1 B2 B3 B4 B5 B6 B7 B8|d b1 q1 v tr u wr a i r q rx HR W N15 Hw B1 B2 B3 B4 B5 B6 B7 B8 B9 B10 B11|
    d b1 q1 v tr u wr a r HR B1 B2 B3 B4 B5 B6]; try (exfalso; rewrite B2 in Ec; destruct bs; [congruence|discriminate]).
  pose proof (cli_state _ _ _ _ _ _ _ _ _ _ _ _ _ HR Hcl0) as HC0. rewrite (enabled_sim _ _ _ HC0) in Hen. destruct HC0 as (_ & _ & _ & _ & _ & _ & HL). rewrite HL in Hcalm.
  pose proof HR as [R1 R2 R3 R4 R5 R6 R7 R8 R9 R10 R11 R12].
  assert (Hi : (i < 16)%nat) by (eapply (ord_in a [] (i :: r)); [exact R5|cbn; auto]).
  destruct (rep_fine g Hg u i Hi W R10) as (P1 & P2 & P3 & P4 & P5 & P6).
  pose proof (reply_adu_ok q _ B7 P1 P4) as Hrok. rewrite Ec in B9.
  destruct (encode_rsp_wf _ _ Hrok B9) as [(Hby & _) Hlen]. unfold bytes_ok in Hby. apply Forall_app in Hby as [_ Hby]. apply Forall_app in Hby as [Hby _].
  destruct (ci_wire _ _ R2) as (Hrc & _ & _ & Hcl & Hrx).
  assert (Hxl : Z.of_nat (length rx) = c_len d) by (pose proof (ci_len _ _ R2); rewrite <- Hrx, firstn_length, (ci_buf _ _ R2); lia).
  assert (Hcut : more = [] \/ (length rx + length bs < 6)%nat \/ (6 < length more)%nat).
  { destruct Hcalm as [Hc|[Hc|Hc]].
    - left. rewrite Ec in Hc. rewrite <- (app_nil_r bs) in Hc at 1. now apply app_inv_head in Hc.
    - right. left. lia.
    - right. right. rewrite Ec, app_length in Hc. lia. }
  cbn [map] in R4.
  destruct (cli_data d _ _ rx bs more _ R2 R4 R3 Hrok B9 Hne Hcut) as (d' & os & Es & K1 & K2 & K3 & _ & K5).
  assert (0 < length bs)%nat by (destruct bs; [congruence|cbn; lia]).
  destruct (Nat.eqb_spec (length more) 0) as [Hm|Hm].
  - apply length_zero_iff_nil in Hm as ->. destruct K5 as (o & -> & Ho & Hj & K6 & K7).
    pose proof (judged_told u (itm g i) _ q (rep g u i) o _ (itm_ok i Hi) (proj2 (forwards_stored u (itm g i) _ (itm_ok i Hi)) B5) eq_refl B6 B7 P1 B8 P4 B9 Hj) as Htold.
    assert (Hs : flat_map c_sends [o; OStop; OTimer 10000] = [rsp g i]).
    { cbn [flat_map]. rewrite (ans_told g u i o Hi W N15 Htold). reflexivity. }
    destruct (after_cli _ _ _ _ _ _ _ _ _ _ _ _ _ _ _ [i] r HR (Hby : ev_ok (EData (RxBytes bs))) Hen Es K1 K7 eq_refl) as (c' & E & HR' & U1 & U2 & U3 & U4).
    { intros j [<-|[]]. auto. }
    { intros j Hj'. now right. }
    assert (Hw' : wire_next (Some rx) (EData (RxBytes bs)) [o; OStop; OTimer 10000] = None).
    { destruct (wire_next _ _ _) eqn:Ew in HR'; [|exact Ew]. pose proof (ci_wire _ _ (rn_ci _ _ _ _ _ _ _ _ _ _ _ _ _ HR')) as [X _]. congruence. }
    rewrite Hw' in HR'. rewrite Hs in *. exists c'. do 2 eexists. split; [exact E|]. split.
    + right. eapply bz_send; [exact HR'|..]; auto; try discriminate; rewrite ?U1, ?U3, ?U4, ?B1, ?B10; auto; try congruence.
    + pose proof (lw_pos (c_st d') (o_ref c') (o_sess c')). cbn [length]. split; [lia|]. apply cheap_one. rewrite Ec, app_length. lia.
  - destruct K5 as (-> & K6 & K7). rewrite R4 in K7.
    destruct (after_cli _ _ _ _ _ _ _ _ _ _ _ _ _ _ _ [] (i :: r) HR (Hby : ev_ok (EData (RxBytes bs))) Hen Es K1 K7 eq_refl R7 ltac:(auto)) as (c' & E & HR' & U1 & U2 & U3 & U4).
    assert (Hw' : wire_next (Some rx) (EData (RxBytes bs)) [] = Some (rx ++ bs)).
    { pose proof (ci_wire _ _ (rn_ci _ _ _ _ _ _ _ _ _ _ _ _ _ HR')) as X. revert X. destruct (wire_next _ _ _) eqn:Ew; intros X; [|congruence].
      unfold wire_next in Ew. cbn [has rsps flat_map] in Ew. cbv zeta in Ew. destruct (bad_length _) in Ew; [discriminate|].
      rewrite <- Ew. f_equal. apply firstn_all2. rewrite !app_length in *. lia. }
    rewrite Hw' in HR'. cbn [flat_map cli_octets] in *. rewrite app_nil_r in U1, U3. exists c'. do 2 eexists. split; [exact E|]. split.
    + right. eapply (bz_back g c' d' b1 q1 v tr u wr a i r q (rx ++ bs)); auto; try congruence.
      * rewrite U4, Esk. intros ->. now apply Hm.
      * rewrite U4, Esk, <- app_assoc. exact B9.
    + rewrite U4, Esk, Ec, app_length. split; [lia|]. apply cheap_none. lia.
Qed.
End Wire.
