(** The self-test: one round of requests. *)
From Verif Require Import Base QueueModel QueueSpec QueueProofs PoolModel PoolSpec PoolProofs MsgStorageModel ModbusCodecModel ModbusCodecSpec ModbusCodecProofs
  ModbusClientModel ModbusClientSpec ModbusStoreProofs ModbusClientProofs ModbusClientRuns ModbusClientFacts
  ModbusServerModel ModbusServerSpec ModbusServerProofs ModbusServerRuns ModbusServerFacts ModbusServerWire ModbusCompModel ModbusCompSpec ModbusCompRuns ModbusNetModel ModbusNetSpec
  ModbusNetProofs ModbusNetRuns ModbusNetFacts ControllerModel AppModel SelfTestModel SelfTestSpec SelfTestTable SelfTestCore SelfTestLink.
Local Open Scope Z_scope.

Definition rsp (g : list Z) (i : nat) : amsg := GFromModbus (TvRsp (ans g i)).
Definition reply_msg (p : areply) : amsg := GReply 0 (p_session p) (p_tid p) (p_ok p) (p_error p) (p_nbytes p) (p_data p).

(** Requests [a] are over, those of [b] answered, those of [r] open. *)
Record running (g : list Z) (c : core) (d : lclient) (b1 : list Z) (q1 : adu_req) (v : server) (tr : strace) (u : Z) (w : option (list Z)) (wr : nat -> bool) (a b r : list nat) : Prop := mkRn {
  rn_mb : exists cl, o_mb c = pair_of v cl /\ RC cl d;
  rn_ci : CI d w;
  rn_fd : c_fd d = true;
  rn_store : c_store d = map stored (map (itm g) r);
  rn_ord : a ++ b ++ r = ord;
  rn_mt : o_mt c = mkMt MRun None (Z.of_nat (length a)) (cases_of g wr);
  rn_wr : forall i, In i b -> needs i = true -> wr i = true;
  rn_reach : reach b1 q1 v tr;
  rn_sess : o_sess c = Some u;
  rn_u : 0 <= u < 256;
  rn_open : forall x, srv_enabled v (VData u x) = true;
  rn_12 : ~ In 12%nat r
}.

Inductive busy (g : list Z) (c : core) : Z -> Prop :=
| bz_send d b1 q1 v tr u wr a b r : running g c d b1 q1 v tr u None wr a b r -> b ++ r <> [] ->
    o_c2s c = [] -> o_s2c c = [] -> w_armed (view_of u tr) = Some 30000000 -> w_rx (view_of u tr) = [] ->
    o_up c = map (rsp g) b -> o_down c = [] -> (c_st d = CSend \/ c_st d = CConnected) ->
    busy g c (1000 * Z.of_nat (length r) + Z.of_nat (length b) + lw (c_st d) (o_ref c) (o_sess c))
| bz_req d b1 q1 v tr u wr a b i r : running g c d b1 q1 v tr u (Some []) wr a b (i :: r) -> wired i = true ->
    o_c2s c <> [] -> o_s2c c = [] -> encode_req (i_req (stored (itm g i))) = EncOk (w_rx (view_of u tr) ++ o_c2s c) ->
    o_up c = map (rsp g) b -> o_down c = [] ->
    busy g c (1000 * Z.of_nat (length r) + 500 + Z.of_nat (length b) + Z.of_nat (length (o_c2s c)))
| bz_app d b1 q1 v tr u wr a b i r os t f ad st n nb da : running g c d b1 q1 v tr u (Some []) wr a b (i :: r) -> wired i = true ->
    o_c2s c = [] -> o_s2c c = [] -> w_armed (view_of u tr) = Some 5000000 -> w_last (view_of u tr) = Some os ->
    In (TReq u t f ad st n nb da) os -> forwards u (i_req (itm g i)) (TReq u t f ad st n nb da) ->
    o_up c = map (rsp g) b ++ [GFromModbus (TvReq (mkMreq 0 u t f st n nb da))] -> o_down c = [] ->
    busy g c (1000 * Z.of_nat (length r) + 490 + Z.of_nat (length b))
| bz_rep d b1 q1 v tr u wr a i r os t f ad st n nb da : running g c d b1 q1 v tr u (Some []) wr a [] (i :: r) -> wired i = true -> wr i = true ->
    o_c2s c = [] -> o_s2c c = [] -> w_armed (view_of u tr) = Some 5000000 -> w_last (view_of u tr) = Some os ->
    In (TReq u t f ad st n nb da) os -> forwards u (i_req (itm g i)) (TReq u t f ad st n nb da) ->
    o_up c = [] -> o_down c = [reply_msg (rep g u i)] ->
    busy g c (1000 * Z.of_nat (length r) + 480)
| bz_back d b1 q1 v tr u wr a i r q rx : running g c d b1 q1 v tr u (Some rx) wr a [] (i :: r) -> wired i = true -> i <> 15%nat -> wr i = true ->
    o_c2s c = [] -> o_s2c c <> [] -> w_armed (view_of u tr) = Some 30000000 -> w_rx (view_of u tr) = [] ->
    forwards u (i_req (itm g i)) (req_msg u q) -> fwd_ok q -> adu_ok q -> p_tid (rep g u i) = q_tid q ->
    encode_rsp (reply_adu q (rep g u i)) = EncOk (rx ++ o_s2c c) ->
    o_up c = [] -> o_down c = [] ->
    busy g c (1000 * Z.of_nat (length r) + 100 + Z.of_nat (length (o_s2c c)))
| bz_stall d b1 q1 v tr u wr a r : running g c d b1 q1 v tr u (Some []) wr a [] (15%nat :: r) ->
    o_c2s c = [] -> o_s2c c = [] -> w_armed (view_of u tr) = Some 30000000 -> w_rx (view_of u tr) = [] ->
    o_up c = [] -> o_down c = [] ->
    busy g c (1000 * Z.of_nat (length r) + 100).

Definition INV (g : list Z) (c : core) (n : Z) : Prop := calm_co g c n \/ busy g c n.

(** * Small facts *)
Lemma ord_lt i : In i ord -> (i < 16)%nat.
Proof. unfold ord. cbn. intros H. repeat (destruct H as [<-|H]; [lia|]). contradiction. Qed.
Lemma needs_wired i : needs i = true -> wired i = true.
Proof. intros H. unfold needs in H. cbn in H. destruct i as [|[|[|[|[|[|[|[|[|?]]]]]]]]]; try discriminate H; reflexivity. Qed.
Lemma ord_len (a b r : list nat) : a ++ b ++ r = ord -> (length a + length b + length r = 16)%nat.
Proof. intros H. apply (f_equal (@length nat)) in H. rewrite !app_length in H. cbn in H. lia. Qed.
Lemma ord_in (a b r : list nat) i : a ++ b ++ r = ord -> In i a \/ In i b \/ In i r -> (i < 16)%nat.
Proof. intros H X. apply ord_lt. rewrite <- H, !in_app_iff. tauto. Qed.

Section Round.
Context (g : list Z) (Hg : octets g).

(** * The batch *)
Lemma cli_take d it : c_st d = CSend \/ c_st d = CConnected -> (length (c_store d) < 64)%nat -> q_nbytes (i_req it) <= 260 ->
  q_nbytes (i_req it) <= Z.of_nat (length (q_data (i_req it))) ->
  exists d' os, lc_step d (EReq it) = Some (d', os) /\ c_store d' = c_store d ++ [stored it] /\ c_fd d' = c_fd d /\ c_st d' = CSend /\ (os = [] \/ os = [OTimer 10000]).
Proof.
  intros Hst Hl Hn Hd. unfold lc_step, c_step, on_req, ls_push. unfold as_capacity, maxAduLen.
  destruct (Nat.ltb_spec (length (c_store d)) 64); [|lia]. cbn [negb].
  destruct (Z.ltb_spec 260 (q_nbytes (i_req it))); [lia|].
  destruct (Z.leb_spec (q_nbytes (i_req it)) (Z.of_nat (length (q_data (i_req it))))); [|lia]. cbn [negb].
  destruct d as [st fd tm s b p l]. cbn [c_st c_store set_store] in *.
  destruct Hst as [-> | ->]; cbn; do 2 eexists; (split; [reflexivity|]); cbn; auto 10.
Qed.

Lemma take_items v u l : Forall (fun i => i < 16)%nat l -> forall cl d, RC cl d -> CI d None -> c_st d = CSend \/ c_st d = CConnected ->
  (length (c_store d) + length l <= 64)%nat ->
  exists cl' d' os, adu_loop (mkMb [Some v] [Some cl] []) (map (itm g) l) = Some (mkMb [Some v] [Some cl'] [], os) /\ RC cl' d' /\ CI d' None /\ c_fd d' = c_fd d /\
    (c_st d' = CSend \/ c_st d' = CConnected) /\ c_store d' = c_store d ++ map stored (map (itm g) (filter (fun i => negb (i =? 12)%nat) l)) /\
    flat_map m_sends os = map (rsp g) (filter (fun i => (i =? 12)%nat) l) /\ m_ends os = false /\ from_client os = [] /\ from_session (Some u) os = [] /\ accepted os = None.
Proof.
  induction 1 as [|i l Hi _ IH]; intros cl d HC HI Hst Hl.
  - exists cl, d, []. cbn [map adu_loop filter]. rewrite app_nil_r. cbn. auto 12.
  - cbn [map adu_loop filter]. cbn [length] in Hl. destruct (Nat.eqb_spec i 12) as [->|Hne]; cbn [negb].
    + destruct (IH cl d HC HI Hst ltac:(lia)) as (cl' & d' & os & E & I1 & I2 & I3 & I4 & I5 & I6 & I7 & I8 & I9 & I10).
      exists cl', d', (MNoClient 99 12 :: os). change (i_client (itm g 12)) with 99. change (nth_slot (b_clients (mkMb [Some v] [Some cl] [])) 99) with (@None (client astore)).
      change (q_tid (i_req (itm g 12))) with 12. rewrite E. split; [reflexivity|]. do 5 (split; [auto|]).
      split; [cbn [flat_map m_sends map]; rewrite I6; reflexivity|]. split; [exact I7|]. split; [exact I8|]. split; [exact I9|]. destruct os; reflexivity.
    + assert (Hc : i_client (itm g i) = 0).
      { destruct i as [|[|[|[|[|[|[|[|[|[|[|[|[|[|[|[|?]]]]]]]]]]]]]]]]; try reflexivity; [congruence|exfalso; lia]. }
      destruct (item_fine g Hg i Hi) as (Hok & Hn & _). pose proof Hok as (_ & _ & _ & _ & _ & _ & _ & Hnb).
      destruct (cli_take d (itm g i) Hst ltac:(lia) ltac:(lia) ltac:(lia)) as (d1 & o1 & Es & S1 & S2 & S3 & S4).
      assert (En : enabled d (EReq (itm g i)) = true) by (cbn [enabled]; lia).
      destruct (ac_of_lc _ _ _ _ _ HC (Hok : ev_ok (EReq (itm g i))) En Es) as (cl1 & HC1 & Ea).
      pose proof (sf_inv _ _ _ _ _ (step_ok _ _ _ _ _ HI (Hok : ev_ok (EReq (itm g i))) En Es)) as HI1. cbn [wire_next] in HI1.
      destruct (IH cl1 d1 HC1 HI1 (or_introl S3) ltac:(rewrite S1, app_length; cbn; lia)) as (cl' & d' & os & E & I1 & I2 & I3 & I4 & I5 & I6 & I7 & I8 & I9 & I10).
      exists cl', d', (MCli 0 (EReq (itm g i)) o1 :: os). rewrite Hc. change (nth_slot (b_clients (mkMb [Some v] [Some cl] [])) 0) with (Some cl).
      cbv iota beta. rewrite Ea. change (set_client (mkMb [Some v] [Some cl] []) 0 cl1) with (mkMb [Some v] [Some cl1] []). rewrite E. split; [reflexivity|].
      split; [auto|]. split; [auto|]. split; [congruence|]. split; [auto|]. split; [rewrite I5, S1, <- app_assoc; reflexivity|].
      assert (Ho : flat_map c_sends o1 = [] /\ cli_octets o1 = []) by (destruct S4 as [-> | ->]; auto). destruct Ho as [Ho1 Ho2].
      split; [cbn [flat_map m_sends]; rewrite Ho1, I6; reflexivity|]. split; [exact I7|].
      split; [cbn [from_client flat_map]; rewrite Ho2; exact I8|]. split; [exact I9|]. destruct os; reflexivity.
Qed.

Lemma batch_step (c : core) cl d v wr m : linked c cl d v -> o_mt c = mkMt MRun None 0 (cases_of g wr) -> o_up c = [] -> o_down c = [GBatch (map (itm g) (seq 0 16))] ->
  o_sess c <> None -> c_st d = CConnected \/ c_st d = CSend -> read_batch m = Some (map (itm g) (seq 0 16)) ->
  exists c' n', co_next c (QMod (MvAdu m)) = Some (c', [rsp g 12]) /\ busy g c' n' /\ 0 <= n' <= 15008.
Proof.
  intros [L1 L2 L3 L4 L5 L6 L7 L8] Hmt Hup Hdn Hs Hst Hm. destruct (o_sess c) as [u|] eqn:Es; [|congruence]. clear Hs.
  destruct L8 as (b1 & q1 & tr & HR & Hu & Ho & Ha & Hr).
  destruct (take_items v u (seq 0 16) ltac:(apply Forall_forall; intros i Hi; apply in_seq in Hi; lia) cl d L2 L3 ltac:(tauto) ltac:(rewrite L4; cbn; lia))
    as (cl' & d' & os & E & I1 & I2 & I3 & I4 & I5 & I6 & I7 & I8 & I9 & I10).
  change (filter (fun i => negb (i =? 12)%nat) (seq 0 16)) with [0;1;2;3;4;5;6;7;8;9;10;11;13;14;15]%nat in I5.
  change (filter (fun i => (i =? 12)%nat) (seq 0 16)) with [12]%nat in I6. cbn [map] in I6. rewrite L4 in I5. cbn [List.app] in I5.
  unfold co_next, co_mod. rewrite Hdn, L1. unfold pair_of. cbn [mb_step]. rewrite Hm, E, I7, I6, Es, I8, I9, L5, L6, Hup. cbn [read_by_session read_by_client skipn List.app].
  do 2 eexists. split; [reflexivity|]. split.
  - eapply (bz_send g _ d' b1 q1 v tr u wr [] [12%nat] [0;1;2;3;4;5;6;7;8;9;10;11;13;14;15]%nat); cbn [o_c2s o_s2c o_up o_down]; auto; try discriminate.
    constructor; cbn [o_mb o_mt o_sess]; auto.
    + exists cl'. auto.
    + rewrite I3. destruct Hst as [Hst|Hst]; rewrite Hst in L7; exact L7.
    + intros i [<-|[]]. discriminate.
    + cbn. lia.
  - cbn [length o_ref o_sess]. pose proof (lw_pos (c_st d') (o_ref c || false) (Some u)). lia.
Qed.

(** * The controller *)
Lemma process_rsp mt wr i n : mt = mkMt MRun None n (cases_of g wr) -> (i < 16)%nat -> (needs i = true -> wr i = true) -> 0 <= n < 16 ->
  m_process mt (ans g i) = Some (mkMt MRun None (n + 1) (cases_of g wr), if n + 1 =? 16 then MrDone else MrNoerror).
Proof.
  intros -> Hi Hw Hn. unfold m_process. cbn [m_cases m_count n_count]. change (r_tid (ans g i)) with (Z.of_nat i). rewrite Nat2Z.id, (cases_nth g wr i Hi).
  rewrite (check_case g Hg wr i Hi Hw). rewrite cases_len. assert (u32 (n + 1) = n + 1) as -> by (unfold u32; lia). reflexivity.
Qed.
Lemma ctl_more (c : core) up wr a i b r : o_mt c = mkMt MRun None (Z.of_nat (length a)) (cases_of g wr) -> o_up c = rsp g i :: up ->
  a ++ (i :: b) ++ r = ord -> (needs i = true -> wr i = true) -> b ++ r <> [] ->
  co_next c QCtl = Some (mkCo (mkMt MRun None (Z.of_nat (length (a ++ [i]))) (cases_of g wr)) (o_mb c) up (o_down c) (o_c2s c) (o_s2c c) (o_sess c) (o_ref c), []).
Proof.
  intros Hmt Hup Hord Hw Hne. pose proof (ord_len _ _ _ Hord) as L. cbn [length] in L.
  assert (Hi : (i < 16)%nat) by (eapply ord_in; [exact Hord|cbn; auto]).
  assert (0 < length b + length r)%nat by (destruct b; [destruct r; [now elim Hne|cbn; lia]|cbn; lia]).
  unfold co_next. rewrite Hup. unfold rsp, co_ctl. rewrite Hmt. cbn [m_step m_st]. rewrite (process_rsp _ wr i (Z.of_nat (length a)) eq_refl Hi Hw) by lia.
  destruct (Z.eqb_spec (Z.of_nat (length a) + 1) 16); [lia|]. cbn [flat_map]. rewrite app_nil_r. repeat f_equal. rewrite app_length. cbn. lia.
Qed.
Lemma ctl_last (c : core) up wr a i : o_mt c = mkMt MRun None (Z.of_nat (length a)) (cases_of g wr) -> o_up c = rsp g i :: up ->
  a ++ [i] = ord -> (needs i = true -> wr i = true) ->
  co_next c QCtl = Some (mkCo (mkMt MSetup (Some runDelay) 16 (cases_of g wr)) (o_mb c) up (o_down c) (o_c2s c) (o_s2c c) (o_sess c) (o_ref c), []).
Proof.
  intros Hmt Hup Hord Hw. assert (L : length a = 15%nat) by (apply (f_equal (@length nat)) in Hord; rewrite app_length in Hord; cbn in Hord; lia).
  assert (Hi : (i < 16)%nat) by (apply ord_lt; rewrite <- Hord, in_app_iff; cbn; auto).
  unfold co_next. rewrite Hup. unfold rsp, co_ctl. rewrite Hmt. cbn [m_step m_st]. rewrite (process_rsp _ wr i (Z.of_nat (length a)) eq_refl Hi Hw) by lia.
  rewrite L. cbn [Z.of_nat Z.add Z.eqb Pos.eqb Pos.add Pos.of_succ_nat Pos.succ].
  unfold m_transit, m_exit, m_enter. cbn. rewrite app_nil_r. reflexivity.
Qed.
Lemma ctl_serve (c : core) up wr a u i t f ad st n nb da : o_mt c = mkMt MRun None a (cases_of g wr) -> (i < 16)%nat -> wired i = true ->
  o_up c = GFromModbus (TvReq (mkMreq 0 u t f st n nb da)) :: up -> forwards u (i_req (itm g i)) (TReq u t f ad st n nb da) ->
  co_next c QCtl = Some (mkCo (mkMt MRun None a (cases_of g (setw wr i))) (o_mb c) up (o_down c ++ [reply_msg (rep g u i)]) (o_c2s c) (o_s2c c) (o_sess c) (o_ref c), [reply_msg (rep g u i)]).
Proof.
  intros Hmt Hi W Hup F. unfold co_next. rewrite Hup. unfold co_ctl. rewrite Hmt. cbn [m_step m_st].
  rewrite (serve_case g Hg (mkMt MRun None a (cases_of g wr)) wr u i u t f ad st n nb da Hi W eq_refl F). reflexivity.
Qed.

(** The controller takes a message. *)
Lemma busy_ctl c n : busy g c n -> (exists t up, o_up c = GFromModbus t :: up) ->
  exists c' outs n', co_next c QCtl = Some (c', outs) /\ INV g c' n' /\ 0 <= n' /\ cheap n n' outs.
Proof.
  intros Hb (t0 & up0 & Hup0).
  assert (RN : forall c d b1 q1 v tr u w wr a i b r up, running g c d b1 q1 v tr u w wr a (i :: b) r ->
    running g (mkCo (mkMt MRun None (Z.of_nat (length (a ++ [i]))) (cases_of g wr)) (o_mb c) up (o_down c) (o_c2s c) (o_s2c c) (o_sess c) (o_ref c)) d b1 q1 v tr u w wr (a ++ [i]) b r).
  { intros c0 d b1 q1 v tr u w wr a i b r up [R1 R2 R3 R4 R5 R6 R7 R8 R9 R10 R11 R12]. constructor; auto.
    - rewrite <- app_assoc. exact R5.
    - intros j Hj. apply R7. now right. }
  assert (CH : forall n n' : Z, n' < n -> cheap n n' []) by (intros; split; [constructor|left; cbn; split; [lia|reflexivity]]).
  destruct Hb as [d b1 q1 v tr u wr a b r HR Hne B1 B2 B3 B4 B5 B6 B7|d b1 q1 v tr u wr a b i r HR W B1 B2 B3 B4 B5|
    d b1 q1 v tr u wr a b i r os t f ad st nn nb da HR W B1 B2 B3 B4 B5 B6 B7 B8|
    d b1 q1 v tr u wr a i r os t f ad st nn nb da HR W B0 B1 B2 B3 B4 B5 B6 B7 B8|d b1 q1 v tr u wr a i r q rx HR W N15 Hw B1 B2 B3 B4 B5 B6 B7 B8 B9 B10 B11|
    d b1 q1 v tr u wr a r HR B1 B2 B3 B4 B5 B6]; try congruence.
  - destruct b as [|i b]; [cbn in B5; congruence|]. cbn [map] in B5. pose proof HR as [R1 R2 R3 R4 R5 R6 R7 R8 R9 R10 R11 R12].
    assert (Hwi : needs i = true -> wr i = true) by (apply R7; now left).
    destruct (list_eq_dec Nat.eq_dec (b ++ r) []) as [E|E].
    + apply app_eq_nil in E as [-> ->]. cbn [List.app] in R5. destruct R1 as (cl & R1 & RCd). do 3 eexists. split; [apply (ctl_last c _ wr a i R6 B5 R5 Hwi)|].
      split; [left; eapply (cc_setup g _ _ d v wr 16)|]; cbn [o_mt o_up o_down o_sess].
      * constructor; cbn [o_mb o_c2s o_s2c o_ref o_sess]; eauto.
        -- destruct B7 as [B7|B7]; rewrite B7; exact R3.
        -- exists b1, q1, tr. rewrite R9. split; [auto|]. repeat split; auto; lia.
      * reflexivity.
      * reflexivity.
      * auto.
      * congruence.
      * tauto.
      * pose proof (lw_pos (c_st d) (o_ref c) (o_sess c)). cbn [o_ref o_sess length]. split; [lia|apply CH; lia].
    + do 3 eexists. split; [apply (ctl_more c _ wr a i b r R6 B5 R5 Hwi E)|]. split.
      * right. eapply bz_send; [apply RN; exact HR|..]; cbn [o_c2s o_s2c o_up o_down o_ref o_sess]; auto.
      * cbn [o_ref o_sess length]. pose proof (lw_pos (c_st d) (o_ref c) (o_sess c)). split; [lia|]. apply CH. lia.
  - destruct b as [|j b]; [cbn in B4; congruence|]. cbn [map] in B4. pose proof HR as [R1 R2 R3 R4 R5 R6 R7 R8 R9 R10 R11 R12].
    assert (Hwj : needs j = true -> wr j = true) by (apply R7; now left).
    assert (E : b ++ i :: r <> []) by (destruct b; discriminate).
    do 3 eexists. split; [apply (ctl_more c _ wr a j b (i :: r) R6 B4 R5 Hwj E)|]. split.
    + right. eapply bz_req; [apply RN; exact HR|..]; cbn [o_c2s o_s2c o_up o_down]; auto.
    + cbn [length o_c2s]. split; [lia|]. apply CH. lia.
  - pose proof HR as [R1 R2 R3 R4 R5 R6 R7 R8 R9 R10 R11 R12]. destruct b as [|j b].
    + cbn [map List.app] in B7, R5. do 3 eexists. assert (Hi : (i < 16)%nat) by (eapply (ord_in a [] (i :: r)); [exact R5|cbn; auto]).
      split; [eapply (ctl_serve c [] wr _ u i); eauto|]. split.
      * right. eapply (bz_rep g _ d b1 q1 v tr u (setw wr i) a i r os t f ad st nn nb da); cbn [o_c2s o_s2c o_up o_down]; auto.
        -- constructor; auto.
        -- unfold setw. now rewrite Nat.eqb_refl.
        -- rewrite B8. reflexivity.
      * cbn [length]. split; [lia|]. split; [repeat constructor|]. left. cbn. split; [lia|reflexivity].
    + cbn [map List.app] in B7. assert (Hwj : needs j = true -> wr j = true) by (apply R7; now left).
      assert (E : b ++ i :: r <> []) by (destruct b; discriminate).
      do 3 eexists. split; [apply (ctl_more c _ wr a j b (i :: r) R6 B7 R5 Hwj E)|]. split.
      * right. eapply bz_app; [apply RN; exact HR|..]; cbn [o_c2s o_s2c o_up o_down]; eauto.
      * cbn [length]. split; [lia|]. apply CH. lia.
Qed.
End Round.
