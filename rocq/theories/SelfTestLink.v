(** The self-test: its start and the connection between its client and server while no requests are under way. *)
From Verif Require Import Base QueueModel QueueSpec QueueProofs PoolModel PoolSpec PoolProofs MsgStorageModel ModbusCodecModel ModbusCodecSpec ModbusCodecProofs
  ModbusClientModel ModbusClientSpec ModbusStoreProofs ModbusClientProofs ModbusClientRuns ModbusClientFacts
  ModbusServerModel ModbusServerSpec ModbusServerProofs ModbusServerRuns ModbusServerFacts ModbusServerWire ModbusCompModel ModbusCompSpec ModbusCompRuns ModbusNetModel ModbusNetSpec
  ModbusNetProofs ModbusNetRuns ModbusNetFacts ControllerModel AppModel SelfTestModel SelfTestSpec SelfTestTable SelfTestCore.
Local Open Scope Z_scope.

(** * Steps of the component *)
Definition pair_of (v : server) (cl : client astore) : option modbus := Some (mkMb [Some v] [Some cl] []).
Definition is_error (e : cev) : bool := match e with EError => true | _ => false end.

Lemma ac_of_lc cl d e d' os : RC cl d -> ev_ok e -> enabled d e = true -> lc_step d e = Some (d', os) ->
  exists cl', RC cl' d' /\ ac_step cl e = Some (cl', os).
Proof.
  intros HC Hok En Es. rewrite <- (enabled_sim _ _ _ HC) in En.
  assert (Hs : req_sane e) by (pose proof (ev_sane [e] ltac:(auto)) as P; now inversion P).
  pose proof (c_step_sim _ d e HC Hs En) as P. unfold lc_step in Es. rewrite Es in P. unfold Ro in P. unfold ac_step.
  destruct (c_step as_empty as_front as_pop as_push cl e) as [[c' o2]|]; [|contradiction]. destruct P as [P ->]. eauto.
Qed.

Lemma net_cli c v cl e cl' os : o_mb c = pair_of v cl -> ac_step cl e = Some (cl', os) ->
  co_next c (QNet (MvCli 0 e)) =
  Some (mkCo (o_mt c) (pair_of v cl') (o_up c ++ flat_map c_sends os) (o_down c) (o_c2s c ++ cli_octets os)
          (skipn (match e with EData (RxBytes bs) => length bs | _ => 0 end) (o_s2c c)) (o_sess c) (o_ref c || is_error e), flat_map c_sends os).
Proof.
  intros Hm Hs. unfold co_next, co_mod. rewrite Hm. unfold pair_of. cbn [mb_step ModbusCompModel.cli_event b_clients nth_slot Z.to_nat nth_error]. rewrite Hs.
  cbn [set_client b_servers b_clients b_bad upd Z.to_nat]. cbn [m_ends existsb orb flat_map m_sends from_client read_by_session skipn].
  rewrite !app_nil_r. unfold from_session. cbn [flat_map].
  assert (match o_sess c with Some u => Some u | None => accepted [MCli 0 e os] end = o_sess c) as -> by (destruct (o_sess c); reflexivity).
  assert (match o_sess c with Some _ => [] | None => [] end = @nil Z) as E by (destruct (o_sess c); reflexivity). rewrite ?E, ?app_nil_r.
  destruct e as [| | |[]| |]; cbn [read_by_client is_error]; destruct (o_sess c); rewrite ?app_nil_r; reflexivity.
Qed.
Lemma net_srv c v cl e v' os : o_mb c = pair_of v cl -> srv_step v e = Some (v', os) ->
  co_next c (QNet (MvSrv 0 e)) =
  Some (mkCo (o_mt c) (pair_of v' cl) (o_up c ++ flat_map (s_sends 0) os) (o_down c)
          (skipn (match e with VData _ (RxBytes bs) => length bs | _ => 0 end) (o_c2s c))
          (o_s2c c ++ match o_sess c with Some u => srv_octets u os | None => [] end)
          (match o_sess c with Some u => Some u | None => accepted [MSrv 0 e os] end) (o_ref c), flat_map (s_sends 0) os).
Proof.
  intros Hm Hs. unfold co_next, co_mod. rewrite Hm. unfold pair_of. cbn [mb_step ModbusCompModel.srv_event b_servers nth_slot Z.to_nat nth_error]. rewrite Hs.
  cbn [set_server b_servers b_clients b_bad upd Z.to_nat]. cbn [m_ends existsb orb flat_map m_sends from_client read_by_client skipn].
  rewrite !app_nil_r, orb_false_r. unfold from_session. cbn [flat_map].
  destruct e as [|? []| | | |]; cbn [read_by_session]; destruct (o_sess c); rewrite ?app_nil_r; reflexivity.
Qed.
Lemma mod_rsp c v cl p sok v' os m down : o_mb c = pair_of v cl -> o_down c = m :: down -> srv_step v (VReply p sok) = Some (v', os) ->
  co_next c (QMod (MvRsp 0 p sok)) =
  Some (mkCo (o_mt c) (pair_of v' cl) (o_up c ++ flat_map (s_sends 0) os) down (o_c2s c)
          (o_s2c c ++ match o_sess c with Some u => srv_octets u os | None => [] end)
          (match o_sess c with Some u => Some u | None => accepted [MSrv 0 (VReply p sok) os] end) (o_ref c), flat_map (s_sends 0) os).
Proof.
  intros Hm Hd Hs. unfold co_next, co_mod. rewrite Hd, Hm. unfold pair_of. cbn [mb_step ModbusCompModel.srv_event b_servers nth_slot Z.to_nat nth_error]. rewrite Hs.
  cbn [set_server b_servers b_clients b_bad upd Z.to_nat]. cbn [m_ends existsb orb flat_map m_sends from_client read_by_client read_by_session skipn].
  rewrite !app_nil_r, orb_false_r. unfold from_session. cbn [flat_map]. destruct (o_sess c); rewrite ?app_nil_r; reflexivity.
Qed.

(** * The invariant while nothing is under way *)
Definition lw (st : cst) (ref : bool) (se : option Z) : Z :=
  (match st with CConnect => if ref then 3 else 6 | CBackoff => 4 | CSend => 2 | _ => 1 end) + (match se with None => 1 | Some _ => 0 end).
Definition quiet (v : server) (tr : strace) (u : Z) : Prop :=
  0 <= u < 256 /\ (forall r, srv_enabled v (VData u r) = true) /\ w_armed (view_of u tr) = Some 30000000 /\ w_rx (view_of u tr) = [].
Record linked (c : core) (cl : client astore) (d : lclient) (v : server) : Prop := mkLk {
  lk_mb : o_mb c = pair_of v cl;
  lk_rc : RC cl d;
  lk_ci : CI d None;
  lk_store : c_store d = [];
  lk_c2s : o_c2s c = [];
  lk_s2c : o_s2c c = [];
  lk_st : match c_st d with
          | CConnect | CConnected | CSend => c_fd d = true
          | CBackoff => c_fd d = false /\ o_ref c = true /\ o_sess c = None
          | _ => False
          end;
  lk_srv : exists b1 q1 tr, reach b1 q1 v tr /\ match o_sess c with None => tr = [] | Some u => quiet v tr u end
}.

Inductive calm_co (g : list Z) (c : core) : Z -> Prop :=
| cc_init : o_mt c = m_new g -> o_mb c = None -> o_up c = [] -> o_down c = [GModbusInit 1 1] -> o_c2s c = [] -> o_s2c c = [] -> o_sess c = None -> o_ref c = false -> calm_co g c 100
| cc_inited : o_mt c = m_new g -> o_mb c = Some (mkMb [None] [None] []) -> o_up c = [GFromModbus TvInitRsp] -> o_down c = [] ->
    o_c2s c = [] -> o_s2c c = [] -> o_sess c = None -> o_ref c = false -> calm_co g c 90
| cc_config : o_mt c = n_st (m_new g) MConfigure -> o_mb c = Some (mkMb [None] [None] []) -> o_up c = [] -> o_down c = [GModbusConfig config_items] ->
    o_c2s c = [] -> o_s2c c = [] -> o_sess c = None -> o_ref c = false -> calm_co g c 80
| cc_configured cl d v : linked c cl d v -> o_mt c = n_st (m_new g) MConfigure -> o_up c = [GFromModbus TvConfigRsp] -> o_down c = [] ->
    calm_co g c (30 + lw (c_st d) (o_ref c) (o_sess c))
| cc_batch cl d v wr : linked c cl d v -> o_mt c = mkMt MRun None 0 (cases_of g wr) -> o_up c = [] -> o_down c = [GBatch (map (itm g) (seq 0 16))] ->
    calm_co g c (17000 + lw (c_st d) (o_ref c) (o_sess c))
| cc_setup cl d v wr n : linked c cl d v -> o_mt c = mkMt MSetup (Some runDelay) n (cases_of g wr) -> o_up c = [] -> o_down c = [] ->
    o_sess c <> None -> c_st d = CConnected \/ c_st d = CSend ->
    calm_co g c (lw (c_st d) (o_ref c) (o_sess c)).

(** What a step must do: [n'] is smaller, unless a batch is sent. *)
Definition release (m : amsg) : bool := match m with GModbusRelease => true | _ => false end.
Definition cheap (n n' : Z) (outs : list amsg) : Prop :=
  all (fun m => negb (release m)) outs /\
  (n' + Z.of_nat (length outs) < n /\ filter is_batch outs = [] \/ n' + Z.of_nat (length outs) <= 17010 /\ length (filter is_batch outs) = 1%nat).

Lemma lw_pos st ref se : 1 <= lw st ref se <= 7.
Proof. unfold lw. destruct st, ref, se; lia. Qed.

(** * The start *)
Section Calm.
Context (g : list Z).

Lemma start_client st mem (HS : RS st []) : length mem = 512%nat -> bytes_ok mem ->
  exists cl d, ac_step (c_new st mem) (EStart true) = Some (cl, [OTimer 3000000; OConnect]) /\ RC cl d /\ CI d None /\ c_st d = CConnect /\ c_fd d = true /\ c_store d = [].
Proof.
  intros Hl Hb. exists (mkC CConnect true (Some 3000000) st mem 0 0), (mkC CConnect true (Some 3000000) [] mem 0 0).
  split; [reflexivity|]. split; [unfold RC; cbn; auto 10|]. split; [|auto]. constructor; cbn; auto; try lia; discriminate.
Qed.

Lemma config_step (c : core) l : o_mb c = Some (mkMb [None] [None] []) -> o_down c = [GModbusConfig config_items] -> o_up c = [] ->
  o_c2s c = [] -> o_s2c c = [] -> o_sess c = None -> o_ref c = false ->
  same_cfgs config_items l = true -> Forall (fun x => cfg_ok x /\ g_pools x = true /\ g_net x = true) l ->
  exists v cl d, co_next c (QMod (MvConfig l)) = Some (mkCo (o_mt c) (pair_of v cl) [GFromModbus TvConfigRsp] [] [] [] None false, [GFromModbus TvConfigRsp]) /\
    linked (mkCo (o_mt c) (pair_of v cl) [GFromModbus TvConfigRsp] [] [] [] None false) cl d v /\ c_st d = CConnect.
Proof.
  intros Hm Hd Hu H1 H2 H3 H4 Hs Hf. destruct l as [|x [|y [|]]]; cbn in Hs; try discriminate Hs; try (rewrite !andb_false_r in Hs; discriminate Hs).
  apply andb_prop in Hs as [X Hs]. apply andb_prop in Hs as [Y _]. unfold same_cfg in X, Y. cbn [fst snd] in X, Y.
  apply andb_prop in X as [X1 X2]. apply andb_prop in Y as [Y1 Y2]. apply Z.eqb_eq in X1, X2, Y1, Y2.
  apply Forall_cons_iff in Hf as [(F1 & F2 & F3) Hf]. apply Forall_cons_iff in Hf as [(G1 & G2 & G3) _].
  destruct F1 as (_ & F1 & F4 & _). destruct (rs_new (g_store x)) as (st & Est & HS). destruct (start_client st (g_mem x) HS F1 F4) as (cl & d & Es & HC & HI & S1 & S2 & S3).
  destruct G1 as (_ & G1). destruct (srv_new_ok (g_mem y) (g_adu y)) as [v Ev]. exists v, cl, d.
  assert (Ec : config (mkMb [None] [None] []) [x; y] = Some (mkMb [Some v] [Some cl] [], [MNewClient 0; MCli 0 (EStart true) [OTimer 3000000; OConnect]; MNewServer 0; MConfigRsp [(0, true); (0, true)]])).
  { unfold config, config_loop, config_item. rewrite X2, X1, Y2, Y1. cbn [Z.eqb]. rewrite F2, F3, Est, Es. cbn [threw existsb negb].
    change (Z.of_nat (length (b_clients (mkMb [None] [None] []))) <=? 0) with false. cbn iota.
    change (Z.of_nat (length (b_servers (set_client (mkMb [None] [None] []) 0 cl))) <=? 0) with false. cbn iota.
    change (is_bad (set_client (mkMb [None] [None] []) 0 cl) 0) with false. cbn iota. rewrite Ev, G2, G3. cbn [andb map]. rewrite X1, Y1. reflexivity. }
  unfold co_next, co_mod. rewrite Hd, Hm. cbn [mb_step]. rewrite Ec.
  cbn [option_map m_ends existsb orb flat_map m_sends c_sends List.app from_client cli_octets from_session accepted read_by_session read_by_client skipn].
  rewrite Hu, H1, H2, H3, H4. cbn [List.app orb].
  split; [reflexivity|]. split; [|exact S1]. constructor; cbn [o_mb o_c2s o_s2c o_sess o_ref]; auto.
  - now rewrite S1.
  - exists (g_mem y), (g_adu y), []. split; [|reflexivity]. now apply re_new.
Qed.

(** * The connection *)
Lemma accept_open b1 q1 v tr v' u : reach b1 q1 v tr -> srv_step v (VAccept true true true) = Some (v', [TArm u 30000000]) ->
  forall r, srv_enabled v' (VData u r) = true.
Proof.
  intros HR Hs. cbn [srv_step] in Hs. pose proof (reach_inv _ _ _ _ HR) as [L S (owned & O1 & O2 & O3) T].
  destruct (v_acc v) eqn:Ea; cbn [negb] in Hs; [|discriminate].
  destruct (pool_alloc (v_pool v)) as [[p' [w|]]|] eqn:Ep; [| discriminate|discriminate].
  pose proof (pool_alloc_sound _ _ _ _ (proj1 cap_ok) (proj2 cap_ok) O1) as (Hnd & Hr & Ho). rewrite Ep in Ho.
  destruct Ho as (Hur & Hnin & Hlt). change (0 + Z.of_nat 256) with 256 in Hur.
  assert (O1' : pool_hist 0 256 (w :: owned) p') by (eapply ph_alloc; eauto).
  unfold srv_on in Hs. cbn [v_pool v_sess v_acc] in Hs. rewrite (hist_get _ _ w O1') in Hs by (unfold is_u32; lia).
  destruct (Z.ltb_spec w 256); [|lia]. destruct (nth_error (v_sess v) (Z.to_nat w)) as [s|] eqn:En; [|discriminate Hs].
  assert (Hi : x_st s = SInit). { destruct (x_st s) eqn:Es; auto; exfalso; apply Hnin; eapply O2; eauto; congruence. }
  destruct (s_prepare w s true true true) as [[s' os']|] eqn:Ek; [|discriminate Hs].
  destruct (prepare_ok _ _ _ _ _ _ _ _ (S w s Hur En) Hi Ek) as [HS Hc].
  destruct Hc as [(_ & _ & Hlk & ->)|(Hc & _)]; [|discriminate Hc]. cbn [srv_release] in Hs. injection Hs as <- Eu. subst w.
  intros r. apply (link_enabled _ _ s'); auto.
  unfold session_of. cbn [v_pool v_sess]. rewrite (hist_get _ _ _ O1') by (unfold is_u32; lia).
  destruct (Z.ltb_spec u 256); [|lia]. apply nth_error_upd_eq. lia.
Qed.
Lemma acc_new n b q v : srv_new n b q = Some v -> v_acc v = true.
Proof. unfold srv_new. intros H. apply option_map_some in H as (p & _ & ->). reflexivity. Qed.
Lemma acc_fresh b1 q1 v tr : reach b1 q1 v tr -> tr = [] -> v_acc v = true.
Proof. intros H. destruct H as [v Hok Hn|v tr e v' os]; [|intros E; destruct tr; discriminate E]. intros _. exact (acc_new _ _ _ _ Hn). Qed.
Lemma accept_step v b1 q1 : reach b1 q1 v [] -> exists v' u, srv_step v (VAccept true true true) = Some (v', [TArm u 30000000]) /\
  reach b1 q1 v' [(VAccept true true true, [TArm u 30000000])] /\ quiet v' [(VAccept true true true, [TArm u 30000000])] u.
Proof.
  intros HR. assert (Ha : v_acc v = true).
  { eapply acc_fresh; eauto. }
  destruct (capacity b1 q1 v [] true true true HR Ha) as (_ & _ & v' & os & Hs & Ho).
  change (ModbusServerSpec.total starts_of [] - ModbusServerSpec.total frees_of [] + ModbusServerSpec.total throws_of [])%nat with 0%nat in Ho. cbn [Nat.ltb Nat.leb andb] in Ho. destruct Ho as (u & Hu & _ & ->).
  pose proof (accept_open _ _ _ _ _ _ HR Hs) as Ho. exists v', u. split; [exact Hs|].
  split; [exact (re_step _ _ _ [] (VAccept true true true) v' _ HR I eq_refl Hs)|]. split; [exact Hu|]. split; [exact Ho|]. clear. cbn. rewrite Z.eqb_refl. split; reflexivity.
Qed.

(** An event of the connection. *)
Lemma link_step (c : core) cl d v x : linked c cl d v -> co_fine c (QNet x) ->
  exists c' cl' d' v', co_next c (QNet x) = Some (c', []) /\ linked c' cl' d' v' /\ o_mt c' = o_mt c /\ o_up c' = o_up c /\ o_down c' = o_down c /\
    lw (c_st d') (o_ref c') (o_sess c') < lw (c_st d) (o_ref c) (o_sess c) /\ (o_sess c <> None -> o_sess c' <> None) /\
    (c_st d = CConnected \/ c_st d = CSend -> c_st d' = CConnected \/ c_st d' = CSend).
Proof.
  intros [L1 L2 L3 L4 L5 L6 L7 L8] Hf. destruct x as [| | | | |id e|id e]; cbn [co_fine] in Hf; try contradiction.
  - destruct Hf as (-> & cl0 & Hcl & Hen & Hf). unfold co_cli in Hcl. rewrite L1 in Hcl. cbn in Hcl. injection Hcl as <-.
    pose proof L2 as (R1 & R2 & R3 & R4 & R5 & R6 & R7). rewrite (enabled_sim _ _ _ L2) in Hen.
    assert (K : forall d' os, lc_step d e = Some (d', os) -> ev_ok e -> flat_map c_sends os = [] -> cli_octets os = [] -> txs os = [] -> (forall bs, e <> EData (RxBytes bs)) -> e <> ETimer true true \/ True ->
      c_store d' = [] -> wire_next None e os = None ->
      match c_st d' with
          | CConnect | CConnected | CSend => c_fd d' = true
          | CBackoff => c_fd d' = false /\ (o_ref c || is_error e) = true /\ o_sess c = None
          | _ => False
          end ->
      lw (c_st d') (o_ref c || is_error e) (o_sess c) < lw (c_st d) (o_ref c) (o_sess c) ->
      (c_st d = CConnected \/ c_st d = CSend -> c_st d' = CConnected \/ c_st d' = CSend) ->
      exists c' cl' d' v', co_next c (QNet (MvCli 0 e)) = Some (c', []) /\ linked c' cl' d' v' /\ o_mt c' = o_mt c /\ o_up c' = o_up c /\ o_down c' = o_down c /\
        lw (c_st d') (o_ref c') (o_sess c') < lw (c_st d) (o_ref c) (o_sess c) /\ (o_sess c <> None -> o_sess c' <> None) /\
        (c_st d = CConnected \/ c_st d = CSend -> c_st d' = CConnected \/ c_st d' = CSend)).
    { intros d' os Es Hev Hs Ho Ht Hx _ Hst Hw Hm Hlw Hk. destruct (ac_of_lc _ _ _ _ _ L2 Hev Hen Es) as (cl' & RC' & Ea).
      pose proof (sf_inv _ _ _ _ _ (step_ok _ _ _ _ _ L3 Hev Hen Es)) as HI'. rewrite Hw in HI'.
      rewrite (net_cli _ _ _ _ _ _ L1 Ea), Hs, Ho. eexists. exists cl', d', v. split; [reflexivity|]. cbn [o_mt o_up o_down o_ref o_sess].
      split; [|rewrite ?app_nil_r; auto 10]. constructor; cbn [o_mb o_c2s o_s2c o_ref o_sess]; eauto.
      - now rewrite L5.
      - rewrite L6. apply skipn_nil. }
    destruct d as [st fd tm s b p l]. cbn [c_st c_fd c_store c_timer] in *. subst s.
    destruct e as [cok|it| |[| |bs]| |sok cok]; try contradiction.
    + rewrite R1 in Hf. subst st fd. eapply K; try reflexivity; cbn; auto; try (intros; discriminate); unfold lw; destruct (o_ref c); destruct (o_sess c); cbn; try lia; intros [X|X]; discriminate X.
    + rewrite L6 in Hf. destruct Hf as [Hf _]. unfold readable in Hf. destruct bs; cbn in Hf; discriminate Hf.
    + rewrite R1 in Hf. destruct Hf as (-> & F2 & F3). eapply K; try reflexivity; cbn; rewrite ?F2, ?F3; auto; try (intros; discriminate); unfold lw; cbn; try lia; intros [X|X]; discriminate X.
    + destruct Hf as (-> & -> & Hf). rewrite R1 in Hf. pose proof (ci_timer _ _ L3) as Tm. cbn [c_timer c_st] in Tm. subst tm.
      destruct st; try contradiction.
      * subst fd. eapply K; try reflexivity; cbn; auto; try (intros; discriminate); unfold lw; destruct (o_sess c); cbn; try lia.
      * destruct L7 as (-> & L7a & L7b). eapply K; try reflexivity; cbn; rewrite ?L7a, ?L7b; auto; try (intros; discriminate); unfold lw; cbn; try lia; intros [X|X]; discriminate X.
  - destruct Hf as (-> & v0 & Hv & Hen & Hf). unfold co_srv in Hv. rewrite L1 in Hv. cbn in Hv. injection Hv as <-.
    destruct e as [tok lok aok|u [| |bs]| | | |]; try contradiction.
    + destruct Hf as (-> & -> & -> & Hs & cl0 & Hcl & Hfd). destruct L8 as (b1 & q1 & tr & HR & L8). rewrite Hs in L8. subst tr.
      destruct (accept_step v b1 q1 HR) as (v' & u & Es & HR' & Hq). rewrite (net_srv _ _ _ _ _ _ L1 Es), Hs. cbn [flat_map s_sends List.app accepted skipn].
      eexists. exists cl, d, v'. split; [reflexivity|]. cbn [o_mt o_up o_down o_ref o_sess]. rewrite ?app_nil_r. split; [|rewrite ?Hs; repeat split; auto; try discriminate; unfold lw; lia].
      constructor; cbn [o_mb o_c2s o_s2c o_ref o_sess]; rewrite ?app_nil_r; eauto.
      unfold co_cli in Hcl. rewrite L1 in Hcl. cbn in Hcl. injection Hcl as <-. destruct L2 as (R1 & R2 & _).
      destruct (c_st d); auto. destruct L7 as (X & _). congruence.
    + exfalso. rewrite L5 in Hf. destruct Hf as [_ Hf]. unfold readable in Hf. destruct bs; cbn in Hf; discriminate Hf.
Qed.
End Calm.
