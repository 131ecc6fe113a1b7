(** The self-test runs for ever: every step keeps the invariant, some step is possible, and every round is finite. *)
From Verif Require Import Base QueueModel QueueSpec QueueProofs PoolModel PoolSpec PoolProofs MsgStorageModel ModbusCodecModel ModbusCodecSpec ModbusCodecProofs
  ModbusClientModel ModbusClientSpec ModbusStoreProofs ModbusClientProofs ModbusClientRuns ModbusClientFacts
  ModbusServerModel ModbusServerSpec ModbusServerProofs ModbusServerRuns ModbusServerFacts ModbusServerWire ModbusCompModel ModbusCompSpec ModbusCompRuns ModbusNetModel ModbusNetSpec
  ModbusNetProofs ModbusNetRuns ModbusNetFacts ControllerModel AppModel SelfTestModel SelfTestSpec SelfTestTable SelfTestCore SelfTestLink SelfTestRound SelfTestWire Props_ModbusComp.
Local Open Scope Z_scope.

Section Inv.
Context (g : list Z) (Hg : octets g).

(** * Every step *)
Lemma linked_same c cl d v c' : linked c cl d v -> o_mb c' = o_mb c -> o_c2s c' = o_c2s c -> o_s2c c' = o_s2c c -> o_sess c' = o_sess c -> o_ref c' = o_ref c -> linked c' cl d v.
Proof. intros [L1 L2 L3 L4 L5 L6 L7 L8] E1 E2 E3 E4 E5. constructor; rewrite ?E1, ?E2, ?E3, ?E4, ?E5; auto. Qed.
Lemma linked_cli c cl d v : linked c cl d v -> co_cli c = Some cl.
Proof. intros HL. unfold co_cli. rewrite (lk_mb _ _ _ _ HL). reflexivity. Qed.
Lemma linked_srv c cl d v : linked c cl d v -> co_srv c = Some v.
Proof. intros HL. unfold co_srv. rewrite (lk_mb _ _ _ _ HL). reflexivity. Qed.
Lemma cheap_nil n n' : n' < n -> cheap n n' [].
Proof. intros H. split; [constructor|]. left. cbn. split; [lia|reflexivity]. Qed.

Lemma calm_step c n e : calm_co g c n -> co_legit c e -> co_fine c e ->
  exists c' outs n', co_next c e = Some (c', outs) /\ INV g c' n' /\ 0 <= n' /\ cheap n n' outs.
Proof.
  intros Hc Hl Hf. destruct Hc as [K1 K2 K3 K4 K5 K6 K7 K8|K1 K2 K3 K4 K5 K6 K7 K8|K1 K2 K3 K4 K5 K6 K7 K8|cl d v HL K1 K2 K3|cl d v wr HL K1 K2 K3|cl d v wr k HL K1 K2 K3 K4 K5].
  - assert (Hnet : forall x, e = QNet x -> False).
    { intros x ->. destruct x; try contradiction; cbn in Hf; destruct Hf as (_ & y & Hy & _); unfold co_cli, co_srv in Hy; rewrite K2 in Hy; discriminate. }
    destruct e as [| |x|x]; [destruct Hl as (t & up & H); congruence|cbn in Hl; rewrite K1 in Hl; cbn in Hl; congruence| |now elim (Hnet x)].
    destruct Hl as (m & down & Hd & He). rewrite K4 in Hd. injection Hd as <- <-. destruct x as [a b| | | | | |]; try discriminate He.
    cbn [m_event] in He. apply andb_prop in He as [E1 E2]. apply Z.eqb_eq in E1, E2. subst a b.
    unfold co_next, co_mod. rewrite K4, K2. cbn. do 3 eexists. split; [reflexivity|]. split; [left; apply cc_inited; cbn; rewrite ?K1, ?K3, ?K5, ?K6, ?K7, ?K8; auto|].
    split; [lia|]. split; [repeat constructor|]. left. cbn. split; [lia|reflexivity].
  - assert (Hnet : forall x, e = QNet x -> False).
    { intros x ->. destruct x; try contradiction; cbn in Hf; destruct Hf as (-> & y & Hy & _); unfold co_cli, co_srv in Hy; rewrite K2 in Hy; discriminate. }
    destruct e as [| |x|x]; [|cbn in Hl; rewrite K1 in Hl; cbn in Hl; congruence|destruct Hl as (m & down & Hd & He); congruence|now elim (Hnet x)].
    unfold co_next. rewrite K3. unfold co_ctl. rewrite K1. cbn [m_step m_st m_new]. unfold m_transit. cbn [m_st m_new mst_eqb m_exit m_enter n_st flat_map k_sends List.app].
    do 3 eexists. split; [reflexivity|]. split; [left; apply cc_config; cbn [o_mt o_mb o_up o_down o_c2s o_s2c o_sess o_ref]; rewrite ?K4; auto|].
    split; [lia|]. split; [repeat constructor|]. left. cbn [length filter is_batch]. split; [lia|reflexivity].
  - assert (Hnet : forall x, e = QNet x -> False).
    { intros x ->. destruct x; try contradiction; cbn in Hf; destruct Hf as (-> & y & Hy & _); unfold co_cli, co_srv in Hy; rewrite K2 in Hy; discriminate. }
    destruct e as [| |x|x]; [destruct Hl as (t & up & H); congruence|cbn in Hl; rewrite K1 in Hl; cbn in Hl; congruence| |now elim (Hnet x)].
    destruct Hl as (m & down & Hd & He). rewrite K4 in Hd. injection Hd as <- <-. destruct x as [| |l| | | |]; try discriminate He.
    destruct (config_step c l K2 K4 K3 K5 K6 K7 K8 He Hf) as (v & cl & d & E & HL & Hst). do 3 eexists. split; [exact E|]. split.
    + left. eapply cc_configured; [exact HL|..]; auto.
    + cbn [o_ref o_sess]. pose proof (lw_pos (c_st d) false None). split; [lia|]. split; [repeat constructor|]. left. cbn [length filter is_batch]. split; [lia|reflexivity].
  - pose proof (lw_pos (c_st d) (o_ref c) (o_sess c)).
    destruct e as [| |x|x]; [|cbn in Hl; rewrite K1 in Hl; cbn in Hl; congruence|destruct Hl as (m & down & Hd & He); congruence|].
    + unfold co_next. rewrite K2. unfold co_ctl. rewrite K1. cbn [m_step m_st m_new n_st]. unfold m_transit.
      cbn [m_st m_new mst_eqb m_exit m_enter n_st n_count flat_map k_sends List.app m_cases m_timer m_count]. rewrite K3, cases_new, batch_items. cbn [List.app].
      do 3 eexists. split; [reflexivity|]. split.
      * left. eapply (cc_batch g _ cl d v (fun _ => false)); cbn [o_mt o_mb o_up o_down]; auto. eapply linked_same; eauto.
      * cbn [o_ref o_sess]. split; [lia|]. split; [repeat constructor|]. right. cbn [length filter is_batch]. split; [lia|reflexivity].
    + destruct (link_step c cl d v x HL Hf) as (c' & cl' & d' & v' & E & HL' & E1 & E2 & E3 & E4 & _). exists c', []. eexists. split; [exact E|]. split.
      * left. eapply cc_configured; [exact HL'|..]; congruence.
      * pose proof (lw_pos (c_st d') (o_ref c') (o_sess c')). split; [lia|]. apply cheap_nil. lia.
  - pose proof (lw_pos (c_st d) (o_ref c) (o_sess c)).
    destruct e as [| |x|x]; [destruct Hl as (t & up & H0); congruence|cbn in Hl; rewrite K1 in Hl; cbn in Hl; congruence| |].
    + destruct Hl as (m & down & Hd & He). rewrite K3 in Hd. injection Hd as <- <-. destruct x as [| | |m| | |]; try discriminate He.
      cbn [co_fine] in Hf. rewrite K3 in Hf. destruct Hf as ((cl0 & Hc0 & Hst) & Hs & Hm). rewrite (linked_cli _ _ _ _ HL) in Hc0. injection Hc0 as <-.
      rewrite (proj1 (lk_rc _ _ _ _ HL)) in Hst.
      destruct (batch_step g Hg c cl d v wr m HL K1 K2 K3 Hs Hst Hm) as (c' & n' & E & HB & Hn). exists c', [rsp g 12], n'. split; [exact E|]. split; [now right|].
      split; [lia|]. apply cheap_one. lia.
    + destruct (link_step c cl d v x HL Hf) as (c' & cl' & d' & v' & E & HL' & E1 & E2 & E3 & E4 & _). exists c', []. eexists. split; [exact E|]. split.
      * left. eapply cc_batch; [exact HL'|..]; try congruence. rewrite E1. exact K1.
      * pose proof (lw_pos (c_st d') (o_ref c') (o_sess c')). split; [lia|]. apply cheap_nil. lia.
  - pose proof (lw_pos (c_st d) (o_ref c) (o_sess c)).
    destruct e as [| |x|x]; [destruct Hl as (t & up & H0); congruence| |destruct Hl as (m & down & Hd & He); congruence|].
    + unfold co_next, co_ctl. rewrite K1. cbn [m_step m_st n_timer]. unfold m_transit.
      cbn [m_st mst_eqb m_exit m_enter n_st n_timer n_count flat_map k_sends List.app m_cases m_timer m_count]. rewrite K3, batch_items. cbn [List.app].
      do 3 eexists. split; [reflexivity|]. split.
      * left. eapply (cc_batch g _ cl d v wr); cbn [o_mt o_mb o_up o_down]; auto. eapply linked_same; eauto.
      * cbn [o_ref o_sess]. split; [lia|]. split; [repeat constructor|]. right. cbn [length filter is_batch]. split; [lia|reflexivity].
    + destruct (link_step c cl d v x HL Hf) as (c' & cl' & d' & v' & E & HL' & E1 & E2 & E3 & E4 & E5 & E6). exists c', []. eexists. split; [exact E|]. split.
      * left. eapply cc_setup; [exact HL'|..]; auto; try congruence. rewrite E1. exact K1.
      * pose proof (lw_pos (c_st d') (o_ref c') (o_sess c')). split; [lia|]. apply cheap_nil. lia.
Qed.

(** What holds throughout a round. *)
Lemma busy_running c n : busy g c n -> exists d b1 q1 v tr u w wr a b r, running g c d b1 q1 v tr u w wr a b r /\ c_st d <> CConnect /\ c_st d <> CBackoff.
Proof.
  assert (W : forall d b1 q1 v tr u rx wr a b r, running g c d b1 q1 v tr u (Some rx) wr a b r -> c_st d <> CConnect /\ c_st d <> CBackoff).
  { intros d b1 q1 v tr u rx wr a b r HR. destruct (ci_wire _ _ (rn_ci _ _ _ _ _ _ _ _ _ _ _ _ _ HR)) as (-> & _). split; discriminate. }
  intros [d b1 q1 v tr u wr a b r HR Hn0 B1 B2 B3 B4 B5 B6 B7|d b1 q1 v tr u wr a b i r HR _ B1 B2 B3 B4 B5|
    d b1 q1 v tr u wr a b i r os t f ad st nn nb da HR _ B1 B2 B3 B4 B5 B6 B7 B8|
    d b1 q1 v tr u wr a i r os t f ad st nn nb da HR _ B0 B1 B2 B3 B4 B5 B6 B7 B8|d b1 q1 v tr u wr a i r q rx HR _ N15 Hw B1 B2 B3 B4 B5 B6 B7 B8 B9 B10 B11|
    d b1 q1 v tr u wr a r HR B1 B2 B3 B4 B5 B6]; exists d, b1, q1, v, tr, u; do 5 eexists; (split; [exact HR|]); try (eapply W; exact HR).
  destruct B7 as [-> | ->]; split; discriminate.
Qed.

Lemma busy_step c n e : busy g c n -> co_legit c e -> co_fine c e ->
  exists c' outs n', co_next c e = Some (c', outs) /\ INV g c' n' /\ 0 <= n' /\ cheap n n' outs.
Proof.
  intros Hb Hl Hf. destruct (busy_running c n Hb) as (d & b1 & q1 & v & tr & u & w & wr & a & b & r & HR & Hs1 & Hs2).
  destruct e as [| |x|x].
  - now apply busy_ctl.
  - cbn in Hl. rewrite (rn_mt _ _ _ _ _ _ _ _ _ _ _ _ _ HR) in Hl. cbn in Hl. congruence.
  - destruct Hl as (m & down & Hd & He). eapply busy_reply; eauto.
  - destruct x as [| | | | |id x|id x]; try contradiction; destruct Hf as (-> & y & Hy & Hf).
    + pose proof (cli_state _ _ _ _ _ _ _ _ _ _ _ _ _ _ HR Hy) as (Hst & _). destruct Hf as [He Hf].
      destruct x as [| | |[| |bs]| |sok cok]; try contradiction.
      * congruence.
      * destruct Hf as [Hf1 Hf2]. eapply busy_data; eauto.
      * destruct Hf as (Hf & _). congruence.
      * destruct Hf as (-> & -> & Hf). eapply busy_timer; eauto.
    + destruct Hf as [He Hf]. destruct x as [tok lok aok|u0 [| |bs]| | | |]; try contradiction.
      * destruct Hf as (_ & _ & _ & Hf & _). rewrite (rn_sess _ _ _ _ _ _ _ _ _ _ _ _ _ HR) in Hf. discriminate.
      * destruct Hf as [Hf1 Hf2]. eapply busy_read; eauto.
Qed.

Lemma inv_step c n e : INV g c n -> co_legit c e -> co_fine c e ->
  exists c' outs n', co_next c e = Some (c', outs) /\ INV g c' n' /\ 0 <= n' /\ cheap n n' outs.
Proof. intros [Hc|Hb]; [now apply calm_step|now apply busy_step]. Qed.

(** * Some step *)
Lemma some_config : exists l, same_cfgs config_items l = true /\ Forall (fun x => cfg_ok x /\ g_pools x = true /\ g_net x = true) l.
Proof.
  assert (Z0 : forall n, bytes_ok (repeat 0 n)) by (intros n; apply Forall_forall; intros x Hx; apply repeat_spec in Hx as ->; unfold is_byte; lia).
  assert (H : exists mem adu, mem_ok mem adu).
  { exists (repeat 0 512), (mkReq 0 0 0 0 0 0 (repeat 0 260)). split; [apply repeat_length|]. split; [apply Z0|]. split; [|apply repeat_length].
    unfold req_ok. cbn [q_tid q_func q_addr q_start q_nitems q_nbytes q_data]. rewrite repeat_length. unfold is_u32, is_u16, is_byte. do 6 (split; [lia|]). split; [apply Z0|lia]. }
  destruct H as (mem & adu & H). exists [mkCfg 0 1 (fun _ => 0) mem adu true true; mkCfg 0 0 (fun _ => 0) mem adu true true]. split; [reflexivity|].
  constructor; [|constructor; [|constructor]]; (split; [|auto]); (split; [cbn; unfold is_u32; lia|exact H]).
Qed.
Lemma some_batch : exists m, read_batch m = Some (map (itm g) (seq 0 16)).
Proof.
  assert (H : Forall ModbusCompSpec.item_ok (map (itm g) (seq 0 16))).
  { apply Forall_map, Forall_forall. intros i Hi. apply in_seq in Hi. destruct (item_fine g Hg i) as (H1 & H2 & H3); [lia|]. split; [exact H3|]. split; [exact H1|]. reflexivity. }
  destruct (C54_walk (repeat 0 (ModbusCompSpec.total (map (itm g) (seq 0 16)))) _ H) as (m & _ & _ & _ & W).
  - rewrite map_length, seq_length. lia.
  - rewrite repeat_length. lia.
  - eexists. apply (W []).
Qed.

Lemma readable_whole bs room : bs <> [] -> Z.of_nat (length bs) <= room -> readable bs bs room = true.
Proof. apply readable_all. Qed.

Lemma linked_progress c cl d v : linked c cl d v -> (o_sess c <> None /\ (c_st d = CConnected \/ c_st d = CSend)) \/ exists x, co_legit c (QNet x) /\ co_fine c (QNet x).
Proof.
  intros HL. pose proof (linked_cli _ _ _ _ HL) as H1. pose proof (linked_srv _ _ _ _ HL) as H2. pose proof (lk_rc _ _ _ _ HL) as HC. pose proof HC as (Hst & Hfd & Hti & _).
  pose proof (lk_st _ _ _ _ HL) as HS. pose proof (ci_timer _ _ (lk_ci _ _ _ _ HL)) as Ht.
  assert (Hacc : o_sess c = None -> c_fd d = true -> exists x, co_legit c (QNet x) /\ co_fine c (QNet x)).
  { intros Hs Hf. exists (MvSrv 0 (VAccept true true true)). split; [exact I|]. split; [reflexivity|]. exists v. split; [exact H2|]. split; [reflexivity|].
    do 3 (split; [reflexivity|]). split; [exact Hs|]. exists cl. split; [exact H1|]. congruence. }
  destruct (c_st d) eqn:Es; try contradiction.
  - right. exists (MvCli 0 EConnected). split; [exact I|]. split; [reflexivity|]. exists cl. split; [exact H1|]. split; [cbn; congruence|congruence].
  - destruct (o_sess c) eqn:Eo; [left; split; [discriminate|auto]|]. right. now apply Hacc.
  - destruct (o_sess c) eqn:Eo; [left; split; [discriminate|auto]|]. right. now apply Hacc.
  - right. exists (MvCli 0 (ETimer true true)). split; [exact I|]. split; [reflexivity|]. exists cl. split; [exact H1|]. split; [cbn; rewrite Hti, Ht; reflexivity|].
    split; [reflexivity|]. split; [reflexivity|]. rewrite Hst. exact I.
Qed.

Lemma core_progress c n : INV g c n -> exists e, co_legit c e /\ co_fine c e.
Proof.
  intros [Hc|Hb].
  - destruct Hc as [K1 K2 K3 K4 K5 K6 K7 K8|K1 K2 K3 K4 K5 K6 K7 K8|K1 K2 K3 K4 K5 K6 K7 K8|cl d v HL K1 K2 K3|cl d v wr HL K1 K2 K3|cl d v wr k HL K1 K2 K3 K4 K5].
    + exists (QMod (MvInit 1 1)). split; [cbn; rewrite K4; eauto|exact I].
    + exists QCtl. split; [cbn; eauto|exact I].
    + destruct some_config as (l & H1 & H2). exists (QMod (MvConfig l)). split; [cbn; rewrite K4; eauto|exact H2].
    + exists QCtl. split; [cbn; eauto|exact I].
    + destruct (linked_progress _ _ _ _ HL) as [(H1 & H2)|(x & H1 & H2)]; [|eauto]. destruct some_batch as (m & Hm). exists (QMod (MvAdu m)).
      split; [cbn; rewrite K3; eauto|]. split; [exists cl; split; [eapply linked_cli; eauto|now rewrite (proj1 (lk_rc _ _ _ _ HL))]|]. split; [exact H1|]. now rewrite K3.
    + exists QTick. split; [cbn; rewrite K1; discriminate|exact I].
  - destruct Hb as [d b1 q1 v tr u wr a b r HR Hn0 B1 B2 B3 B4 B5 B6 B7|d b1 q1 v tr u wr a b i r HR W B1 B2 B3 B4 B5|
    d b1 q1 v tr u wr a b i r os t f ad st nn nb da HR W B1 B2 B3 B4 B5 B6 B7 B8|
    d b1 q1 v tr u wr a i r os t f ad st nn nb da HR W B0 B1 B2 B3 B4 B5 B6 B7 B8|d b1 q1 v tr u wr a i r q rx HR W N15 Hw B1 B2 B3 B4 B5 B6 B7 B8 B9 B10 B11|
    d b1 q1 v tr u wr a r HR B1 B2 B3 B4 B5 B6]; pose proof HR as [(cl & R1 & RCd) R2 R3 R4 R5 R6 R7 R8 R9 R10 R11 R12];
    assert (Hcl : co_cli c = Some cl) by (unfold co_cli; rewrite R1; reflexivity);
    assert (Hsv : co_srv c = Some v) by (unfold co_srv; rewrite R1; reflexivity);
    pose proof RCd as (Hst & Hfd & Hti & _ & _ & _ & Hlen); pose proof (ci_timer _ _ R2) as Ht.
    + destruct b as [|i b]; [|exists QCtl; split; [cbn; rewrite B5; do 2 eexists; reflexivity|exact I]]. cbn [List.app] in Hn0.
      exists (QNet (MvCli 0 (ETimer true true))). split; [exact I|]. split; [reflexivity|]. exists cl. split; [exact Hcl|].
      assert (Es : c_st d = CSend). { destruct B7 as [E|E]; [exact E|]. pose proof (ci_idle _ _ R2) as X. rewrite E in X. specialize (X eq_refl). rewrite R4 in X. destruct r; [congruence|discriminate]. }
      split; [cbn; rewrite Hti, Ht, Es; reflexivity|]. split; [reflexivity|]. split; [reflexivity|]. rewrite Hst, Es. exact I.
    + assert (Hi : (i < 16)%nat) by (eapply ord_in; [exact R5|cbn; auto]).
      pose proof (stored_ok _ (itm_ok g Hg i Hi)) as Hok. destruct (encode_req_wf _ _ Hok B3) as [_ Hle]. rewrite app_length in Hle.
      exists (QNet (MvSrv 0 (VData u (RxBytes (o_c2s c))))). split; [exact I|]. split; [reflexivity|]. exists v. split; [exact Hsv|]. split; [apply R11|]. split; [exact R9|].
      apply readable_whole; [exact B1|]. destruct (lookup _ _ v tr u R8 R10) as (s & Hs & HS & _). rewrite Hs.
      pose proof (R11 RxNa) as En. unfold srv_enabled in En. rewrite Hs in En.
      assert (Hns : x_st s <> SInit). { intros E. pose proof (so_st _ _ _ HS) as X. rewrite E in X. destruct X as (_ & _ & [X|X] & _); rewrite X, andb_false_r in En; discriminate. }
      pose proof (so_rx _ _ _ HS Hns) as [X _]. unfold bufMaxLen. lia.
    + exists QCtl. split; [|exact I]. cbn. rewrite B7. destruct b; do 2 eexists; reflexivity.
    + exists (QMod (MvRsp 0 (rep g u i) true)). split; [|reflexivity]. cbn [co_legit]. rewrite B8. do 2 eexists. split; [reflexivity|].
      unfold reply_msg, m_event. rewrite !Z.eqb_refl, Bool.eqb_reflx. unfold zlist_eqb. now destruct (list_eq_dec _ _ _).
    + assert (Hi : (i < 16)%nat) by (eapply (ord_in a [] (i :: r)); [exact R5|cbn; auto]). destruct (rep_fine g Hg u i Hi W R10) as (P1 & P2 & P3 & P4 & P5 & P6).
      destruct (encode_rsp_wf _ _ (reply_adu_ok q _ B7 P1 P4) B9) as [_ Hle]. rewrite app_length in Hle.
      destruct (ci_wire _ _ R2) as (Hrc & _ & _ & Hcl1 & Hrx).
      assert (Hxl : Z.of_nat (length rx) = c_len d) by (pose proof (ci_len _ _ R2); rewrite <- Hrx, firstn_length, (ci_buf _ _ R2); lia).
      exists (QNet (MvCli 0 (EData (RxBytes (o_s2c c))))). split; [exact I|]. split; [reflexivity|]. exists cl. split; [exact Hcl|]. split; [cbn; congruence|].
      split; [|left; reflexivity]. apply readable_whole; [exact B2|]. rewrite Hlen. unfold bufMaxLen. lia.
    + destruct (ci_wire _ _ R2) as (Hrc & _). exists (QNet (MvCli 0 (ETimer true true))). split; [exact I|]. split; [reflexivity|]. exists cl. split; [exact Hcl|].
      split; [cbn; rewrite Hti, Ht, Hrc; reflexivity|]. split; [reflexivity|]. split; [reflexivity|]. rewrite Hst, Hrc. unfold co_still. auto.
Qed.
End Inv.

(** * The application *)
Section Run.
Context (g : list Z) (Hg : octets g).

(** The rest of the start, and what is left of a round. *)
Definition good (w : world) (left : Z) : Prop :=
  exists mt n, WI w mt /\ INV g (proj w mt) n /\ 0 <= n /\ left = Z.of_nat (wm w) + n.

Lemma not_down_quiet l : all (fun m => negb (is_down m || is_up m)) l -> filter is_batch l = [] /\ ~ In GModbusRelease l.
Proof.
  intros H. split.
  - induction H as [|m l Hm _ IH]; cbn; [reflexivity|]. rewrite IH. destruct m; try reflexivity; discriminate Hm.
  - intros Hi. unfold all in H. rewrite Forall_forall in H. specialize (H _ Hi). discriminate H.
Qed.
Lemma not_release l : all (fun m => negb (release m)) l -> ~ In GModbusRelease l.
Proof. intros H Hi. unfold all in H. rewrite Forall_forall in H. specialize (H _ Hi). discriminate H. Qed.

Lemma good_step w left e : good w left -> fine w e -> astep g (w_app w) e = ADisabled \/
  exists s left', astep g (w_app w) e = ANext s /\ good (settle w e s) left' /\ ~ In GModbusRelease (sent_by e s) /\
    (left' < left /\ filter is_batch (sent_by e s) = [] \/ left' <= left + 17010 /\ length (filter is_batch (sent_by e s)) = 1%nat).
Proof.
  intros (mt & n & HW & HI & Hn & ->) Hf. destruct (world_step g w mt e HW Hf) as [U|[D|(ce & F & L & S)]]; [| auto |].
  - right. destruct U as (s & Ea & HW' & Ep & Hm & Hs). destruct (not_down_quiet _ Hs) as [Q1 Q2].
    exists s, (Z.of_nat (wm (settle w e s)) + n). split; [exact Ea|]. split; [exists mt, n; rewrite Ep; auto|]. split; [exact Q2|]. left. split; [lia|exact Q1].
  - right. destruct (inv_step g Hg _ n ce HI L F) as (c' & outs & n' & En & HI' & Hn' & Hr & Hc). destruct (S c' outs En) as (s & Ea & HW' & Ep & Hm & <-).
    exists s, (Z.of_nat (wm (settle w e s)) + n'). split; [exact Ea|]. split; [exists (o_mt c'), n'; rewrite Ep; auto|]. split; [now apply not_release|].
    destruct Hc as [[H1 H2]|[H1 H2]]; [left|right]; (split; [lia|assumption]).
Qed.

(** Something can happen. *)
Lemma step_next w left e s : good w left -> fine w e -> astep g (w_app w) e = ANext s -> exists e w', fine w e /\ wstep g w e = Some w'.
Proof. intros _ Hf E. exists e, (settle w e s). split; [exact Hf|]. unfold wstep. now rewrite E. Qed.

Lemma good_progress w left : good w left -> exists e w', fine w e /\ wstep g w e = Some w'.
Proof.
  intros HG. pose proof HG as (mt & n & HW & HI & Hn & _).
  assert (P : forall e, fine w e -> unseen g w mt e -> exists e w', fine w e /\ wstep g w e = Some w').
  { intros e Hf (s & Ea & _). eapply step_next; eauto. }
  destruct (x_m (p_out (w_app w))) eqn:E1; [|apply (P (APut RModbus true) eq_refl), put_step; auto; cbn [at_r]; congruence].
  destruct (x_u (p_out (w_app w))) eqn:E2; [|apply (P (APut RUa true) eq_refl), put_step; auto; cbn [at_r]; congruence].
  destruct (x_c (p_out (w_app w))) eqn:E3; [|apply (P (APut RCtrl true) eq_refl), put_step; auto; cbn [at_r]; congruence].
  destruct (x_u (p_q (w_app w))) eqn:E4; [|apply (P (ATakeU true true) (conj eq_refl eq_refl)), take_u; auto; congruence].
  assert (Q : forall e ce, fine w e -> seen g w mt e ce -> exists e w', fine w e /\ wstep g w e = Some w').
  { intros e ce Hf (F & L & S). destruct (inv_step g Hg _ n ce HI L F) as (c' & outs & n' & En & _). destruct (S c' outs En) as (s & Ea & _). eapply step_next; eauto. }
  destruct (x_c (p_q (w_app w))) as [|m rest] eqn:E5.
  2:{ pose proof (wi_cq _ _ HW) as X. rewrite E5 in X. apply all_cons in X as [X _]. destruct m; try discriminate X.
      - eapply (Q (ATakeC true)); [reflexivity|]. eapply take_up; eauto.
      - eapply (P (ATakeC true)); [reflexivity|]. eapply take_noise; eauto. }
  destruct (core_progress g Hg _ n HI) as (ce & L & F).
  assert (Hup : o_up (proj w mt) = []) by (unfold proj; cbn; now rewrite E5, E1).
  assert (Hdn : o_down (proj w mt) = x_m (p_q (w_app w))) by (unfold proj; cbn; rewrite E3; apply app_nil_r).
  destruct ce as [| |x|x].
  - destruct L as (t & up & L). congruence.
  - apply (Q ATick QTick I). apply tick; auto.
  - destruct L as (m & down & Hd & He). rewrite Hdn in Hd.
    assert (Hx : fine_take w x). { destruct x; try exact I; try exact F. cbn [co_fine] in F. rewrite Hdn in F. exact F. }
    apply (Q (ATakeM x) (QMod x) Hx). eapply take_m; eauto.
  - assert (Hx : fine w (ANet x)).
    { destruct x as [| | | | |id y|id y]; try contradiction; destruct F as (-> & z & Hz & F); (split; [reflexivity|]); exists z; (split; [exact Hz|]).
      - destruct F as [F1 F2]. split; [exact F1|]. destruct y as [| | |[]| |]; try exact F2. destruct F2 as (-> & -> & F2). split; [reflexivity|]. split; [reflexivity|].
        destruct (c_st z); auto. destruct F2 as (G1 & G2 & G3 & G4). rewrite Hdn in G4. unfold still. auto 10.
      - destruct F as [F1 F2]. split; [exact F1|]. destruct y as [|? []| | | |]; exact F2. }
    apply (Q (ANet x) (QNet x) Hx). now apply net_step.
Qed.

(** The first step: the controller starts. *)
Lemma first_step e : fine world0 e -> astep g (w_app world0) e = ADisabled \/
  exists s, astep g (w_app world0) e = ANext s /\ good (settle world0 e s) 119 /\ ~ In GModbusRelease (sent_by e s) /\ filter is_batch (sent_by e s) = [].
Proof.
  intros Hf. destruct e as [st k|r k|tok|acc lis|x| |x]; cbn [fine] in Hf.
  - contradiction.
  - left. destruct r; reflexivity.
  - subst tok. right. eexists. split; [reflexivity|]. rewrite settle_quiet by (cbn; auto). split.
    + exists (m_new g), 100. split; [constructor; cbn; try discriminate; auto; repeat constructor|]. split; [left; apply cc_init; reflexivity|]. split; [lia|reflexivity].
    + split; [|reflexivity]. cbn. intros [H|[H|[H|[H|[]]]]]; discriminate H.
  - left. reflexivity.
  - left. reflexivity.
  - left. reflexivity.
  - exfalso. destruct x; try contradiction; destruct Hf as (_ & y & Hy & _); discriminate Hy.
Qed.
Lemma first_progress : exists e w', fine world0 e /\ wstep g world0 e = Some w'.
Proof. exists (ATakeC true). eexists. split; reflexivity. Qed.

Lemma healthy_good w h : healthy g w h ->
  (h = [] /\ w = world0 \/ exists left, good w left /\ Z.of_nat (length h) + left <= 120 + 17011 * Z.of_nat (rounds h)) /\ ~ In GModbusRelease (flat_map snd h).
Proof.
  induction 1 as [|w h e w' Hh [IH Hnr] Hf Hs]; [split; [auto|intros []]|]. unfold wstep in Hs.
  unfold rounds in *. rewrite flat_map_app, filter_app, !app_length in *. cbn [flat_map snd length]. rewrite app_nil_r in *.
  destruct IH as [[-> ->]|(left & HG & Hb)].
  - destruct (first_step e Hf) as [D|(s & Ea & HG & H1 & H2)]; [rewrite D in Hs; discriminate|]. rewrite Ea in Hs. injection Hs as <-.
    split; [|cbn; exact H1]. right. exists 119. split; [exact HG|]. cbn [settle w_app] in *. rewrite H2. cbn. lia.
  - destruct (good_step w left e HG Hf) as [D|(s & left' & Ea & HG' & H1 & H2)]; [rewrite D in Hs; discriminate|]. rewrite Ea in Hs. injection Hs as <-.
    cbn [settle w_app] in *. split; [|intros Hi; apply in_app_or in Hi as [Hi|Hi]; auto]. right. exists left'. split; [exact HG'|].
    destruct H2 as [[H2 H3]|[H2 H3]]; rewrite H3; cbn [length]; lia.
Qed.

Lemma healthy_next w h e : healthy g w h -> fine w e -> astep g (w_app w) e = ADisabled \/ exists s, astep g (w_app w) e = ANext s.
Proof.
  intros Hh Hf. destruct (healthy_good w h Hh) as [[[-> ->]|(left & HG & _)] _].
  - destruct (first_step e Hf) as [D|(s & Ea & _)]; eauto.
  - destruct (good_step w left e HG Hf) as [D|(s & left' & Ea & _)]; eauto.
Qed.
Lemma healthy_progress w h : healthy g w h -> exists e w', fine w e /\ wstep g w e = Some w'.
Proof.
  intros Hh. destruct (healthy_good w h Hh) as [[[-> ->]|(left & HG & _)] _]; [apply first_progress|eapply good_progress; eauto].
Qed.
Lemma healthy_bound w h : healthy g w h -> Z.of_nat (length h) <= 120 + 17011 * Z.of_nat (rounds h).
Proof.
  intros Hh. destruct (healthy_good w h Hh) as [[[-> ->]|(left & (mt & n & _ & _ & Hn & ->) & Hb)] _]; [cbn; lia|lia].
Qed.
End Run.
