(** Facts about whole histories of the UA TCP transport. *)
From Verif Require Import Base QueueModel QueueSpec QueueProofs PoolModel PoolSpec PoolProofs EntProofs ModbusCodecModel ModbusCodecSpec
  ModbusClientModel ModbusClientProofs UaCodecModel UaCodecSpec UaCodecProofs UaCodecLocal UaTcpModel UaTcpSpec UaTcpProofs.
Local Open Scope Z_scope.

Definition uact (c : tconn) : bool := negb (ust_eqb (t_st c) UInit).
Notation UOwn := (POwn tconn uact 32).
Notation nlive := (nact tconn uact).

Lemma c32 : (0 < 32)%nat /\ size_t_ok 32 /\ Z.of_nat 32 < 4294967295.
Proof. unfold size_t_ok. repeat split; lia. Qed.

Lemma ust_spec a : if ust_eqb a UInit then a = UInit else a <> UInit.
Proof. now destruct a. Qed.
Lemma uact_spec c : if uact c then t_st c <> UInit else t_st c = UInit.
Proof. unfold uact. pose proof (ust_spec (t_st c)). now destruct (ust_eqb (t_st c) UInit). Qed.

Record TInv (v : tserver) (tr : utrace) : Prop := {
  ti_conn : forall i c, nth_error (d_conn v) i = Some c -> TOK (Z.of_nat i + 1) c (uview_of (Z.of_nat i + 1) tr);
  ti_own : UOwn (d_pool v) (d_conn v) (utotal unotimer tr);
  ti_tot : utotal ustarts tr = (utotal ufrees tr + nlive (d_conn v))%nat
}.

Lemma uview_snoc uid tr x : uview_of uid (tr ++ [x]) = uview_next uid (uview_of uid tr) x.
Proof. unfold uview_of. now rewrite fold_left_app. Qed.
Lemma utotal_snoc f tr x : utotal f (tr ++ [x]) = (utotal f tr + f x)%nat.
Proof. unfold utotal. rewrite map_app, list_sum_app. cbn. lia. Qed.

(** The connection an event is delivered to. *)
Definition target (e : tev) : option Z :=
  match e with
  | EvAccept _ _ _ => None
  | EvData u _ _ | EvError u | EvTimer u | EvRelease u => Some u
  | EvMsg _ m _ => Some (um_conn m)
  end.

Lemma uother_facts uid u os : Forall (uabout uid) os -> u <> uid ->
  filter (is_ufree u) os = [] /\ filter (is_uarm u) os = [] /\ existsb (is_uarm u) os = false /\
  existsb (is_ufree u) os = false /\ existsb (is_uack u) os = false /\ (forall a, fold_left (uarm_next u) os a = a).
Proof.
  intros H Hne. assert (E : (uid =? u) = false) by (apply Z.eqb_neq; auto).
  induction H as [|o os Ho Hs (A & B & C & D & F & G)]; [repeat split; auto|].
  destruct o; cbn in Ho; try subst; cbn; rewrite ?E, ?A, ?B, ?C, ?D, ?F; cbn [orb]; repeat split; auto; intros; rewrite ?E; auto.
  repeat match goal with |- context [match ?l with _ => _ end] => destruct l; rewrite ?E; auto end.
Qed.

Lemma uview_other u w e os uid : Forall (uabout uid) os -> (forall t, target e = Some t -> t = uid) -> u <> uid ->
  uview_next u w (e, os) = w.
Proof.
  intros Ho Ht Hne. destruct (uother_facts _ _ _ Ho Hne) as (A & B & C & D & F & G).
  unfold uview_next, ucount. rewrite A, B, C, D, F, G, orb_false_r. cbn [length].
  assert (X : forall t, target e = Some t -> (t =? u) = false) by (intros t Et; apply Z.eqb_neq; rewrite (Ht t Et); auto).
  destruct w as [a s f k h rx]. cbn [g_armed g_starts g_frees g_acked g_chan g_rx].
  destruct e as [? ? ?|t r ?|t|t|k' m ?|t]; cbn [target] in X; try specialize (X _ eq_refl); rewrite ?X, ?Nat.add_0_r; try reflexivity.
  - destruct r; rewrite ?X; reflexivity.
  - destruct k'; rewrite ?X; reflexivity.
Qed.

Lemma trelease_filter os : forall p, tsrv_release p os = tsrv_release p (filter is_ufree_any os).
Proof. induction os as [|o os IH]; intros p; cbn; [auto|]. destruct o; cbn; auto. destruct (pool_release p uid); auto. Qed.

Lemma conn_of_eq v tr uid : TInv v tr -> is_u32 uid ->
  conn_of v uid = if (1 <=? uid) && (uid <=? 32) then nth_error (d_conn v) (Z.to_nat (uid - 1)) else None.
Proof.
  intros [_ O _] Hu. destruct c32 as (C1 & C2 & C3). unfold conn_of. rewrite (own_get _ _ _ C1 C2 C3 _ _ _ _ O Hu).
  change (Z.of_nat 32) with 32. now destruct ((1 <=? uid) && (uid <=? 32)).
Qed.

Lemma on_ok v tr uid e v' os k : TInv v tr -> is_u32 uid -> target e = Some uid ->
  tsrv_on v uid k = Some (v', os) ->
  (forall c c' os, TOK uid c (uview_of uid tr) -> conn_of v uid = Some c -> k c = Some (c', os) ->
     TOK uid c' (uview_next uid (uview_of uid tr) (e, os)) /\ UQ uid c c' os) ->
  TInv v' (tr ++ [(e, os)]) /\ 1 <= uid <= 32 /\ exists c c', conn_of v uid = Some c /\ k c = Some (c', os) /\ conn_of v' uid = Some c' /\
    TOK uid c (uview_of uid tr) /\ UQ uid c c' os.
Proof.
  intros HI Hu Ht H Hk. pose proof (conn_of_eq _ _ _ HI Hu) as Ec. destruct HI as [S O T].
  destruct c32 as (C1 & C2 & C3). unfold tsrv_on in H. unfold conn_of in Hk, Ec |- *.
  pose proof (own_get _ _ _ C1 C2 C3 _ _ _ _ O Hu) as Eg. change (Z.of_nat 32) with 32 in Eg.
  rewrite Eg in H, Hk, Ec |- *.
  destruct (Z.leb_spec 1 uid) as [L1|]; cbn [andb] in *; [|discriminate H].
  destruct (Z.leb_spec uid 32) as [L2|]; cbn [andb] in *; [|discriminate H].
  set (i := Z.to_nat (uid - 1)) in *.
  assert (Hi : Z.of_nat i + 1 = uid) by lia.
  destruct (nth_error (d_conn v) i) as [c|] eqn:En; [|discriminate H].
  assert (Hlt : (i < length (d_conn v))%nat) by (apply nth_error_Some; congruence).
  destruct (k c) as [[c' os']|] eqn:Ek; [|discriminate H].
  destruct (tsrv_release (d_pool v) os') as [p'|] eqn:Er; [|discriminate H].
  apply some2 in H as (<- & <-).
  assert (HTc : TOK uid c (uview_of uid tr)) by (rewrite <- Hi; now apply S).
  destruct (Hk c c' os' HTc eq_refl Ek) as [HS HQ]. pose proof HQ as [Q1 Q2 Q3].
  rewrite trelease_filter, Q2 in Er.
  assert (Hact := nact_upd tconn uact 32 C1 (d_conn v) i c c' En).
  assert (Hst0 : ustarts (e, os') = 0%nat) by (destruct e; cbn in Ht; try discriminate; reflexivity).
  assert (Hnt0 : unotimer (e, os') = 0%nat) by (destruct e; cbn in Ht; try discriminate; reflexivity).
  assert (HO : UOwn p' (upd (d_conn v) i c') (utotal unotimer tr) /\ nlive (d_conn v) = (nlive (upd (d_conn v) i c') + ufrees (e, os'))%nat).
  { change (ufrees (e, os')) with (length (filter is_ufree_any os')). rewrite Q2.
    assert (U : forall x, uact x = negb (ust_eqb (t_st x) UInit)) by reflexivity. rewrite !U in Hact.
    destruct (ust_eqb (t_st c') UInit) eqn:E1, (ust_eqb (t_st c) UInit) eqn:E2; cbn [andb negb bn length tsrv_release] in *.
    - injection Er as <-. split; [|lia]. eapply (own_keep _ _ _ C1); [exact O|exact En|]. unfold uact. now rewrite E1, E2.
    - destruct (own_free _ _ _ C1 C2 _ _ _ _ _ c' O En) as (p2 & Ep & HO); [unfold uact; now rewrite E2|unfold uact; now rewrite E1|].
      rewrite Hi in Ep. rewrite Ep in Er. injection Er as <-. split; [exact HO|lia].
    - exfalso. pose proof (ust_spec (t_st c)) as X. rewrite E2 in X. apply Q3 in X. rewrite X in E1. discriminate.
    - injection Er as <-. split; [|lia]. eapply (own_keep _ _ _ C1); [exact O|exact En|]. unfold uact. now rewrite E1, E2. }
  destruct HO as [HO HN]. split; [|split; [lia|]].
  - constructor; cbn [d_conn d_pool].
    + intros j x Hj. rewrite uview_snoc. destruct (Nat.eq_dec j i) as [->|Hne].
      * rewrite nth_error_upd_eq in Hj by auto. injection Hj as <-. rewrite Hi. exact HS.
      * rewrite nth_error_upd_neq in Hj by auto. rewrite (uview_other _ _ _ _ uid Q1); [now apply S|intros t Et; congruence|lia].
    + rewrite utotal_snoc, Hnt0, Nat.add_0_r. exact HO.
    + rewrite !utotal_snoc, Hst0. lia.
  - exists c, c'. split; [reflexivity|]. split; [exact Ek|]. split; [|split; assumption]. cbn [d_conn d_pool].
    rewrite (own_get _ _ _ C1 C2 C3 _ _ _ _ HO Hu). change (Z.of_nat 32) with 32.
    destruct (Z.leb_spec 1 uid), (Z.leb_spec uid 32); try lia. cbn [andb]. fold i. now rewrite nth_error_upd_eq.
Qed.

Lemma tsrv_new_some n b0 v : tsrv_new n b0 = Some v -> exists p, pool_new 1 n = Some p /\
  v = mkTs p (repeat (mkT UInit None None (mkSdu 0 0 b0) None) n).
Proof. unfold tsrv_new. destruct (pool_new 1 n) as [p|]; [|discriminate]. cbn. intros H. injection H as <-. eauto. Qed.

Lemma tinv_new n b0 v : n = 32%nat -> umem_ok b0 -> tsrv_new n b0 = Some v -> TInv v [].
Proof.
  intros -> [Hl Hb] H. apply tsrv_new_some in H as (p & Ep & ->).
  set (c0 := mkT UInit None None (mkSdu 0 0 b0) None).
  constructor; cbn [d_conn d_pool].
  - intros i c E. apply nth_error_In in E. apply repeat_spec in E. subst c. unfold c0. constructor; tcbn; auto; try congruence.
    + pose proof pktLen_Z. lia.
    + cbn. auto 10.
  - cbn [utotal map list_sum fold_right]. apply own_new; auto. intros e He. apply repeat_spec in He. now subst e.
  - unfold utotal. cbn [map list_sum fold_right]. unfold nact. cbn [plus].
    assert (X : forall k, filter uact (repeat c0 k) = []) by (induction k; cbn; auto). rewrite X. reflexivity.
Qed.

(** What a step does, in terms of the connection concerned. *)
Inductive tstep (v : tserver) (tr : utrace) : tev -> tserver -> list uout -> Prop :=
| ts_conn e uid k c c' v' os :
    target e = Some uid -> 1 <= uid <= 32 -> conn_of v uid = Some c -> conn_of v' uid = Some c' -> TOK uid c (uview_of uid tr) ->
    UQ uid c c' os -> k c = Some (c', os) ->
    k = (match e with
         | EvData _ r w => fun c => u_data uid c r w
         | EvError _ => fun c => Some (u_error c, [])
         | EvTimer _ => fun c => u_timer uid c
         | EvMsg kd m w => fun c => u_msg uid kd c m w
         | EvRelease _ => fun c => u_release uid c
         | EvAccept _ _ _ => fun _ => None
         end) -> tstep v tr e v' os
| ts_refused b1 b2 tok v' os : b1 && b2 = false -> v' = v -> os = [UThrow] -> tstep v tr (EvAccept b1 b2 tok) v' os
| ts_full tok v' os : (nlive (d_conn v) + utotal unotimer tr = 32)%nat -> os = [] -> tstep v tr (EvAccept true true tok) v' os
| ts_leak uid v' os : (nlive (d_conn v) + utotal unotimer tr < 32)%nat -> 1 <= uid <= 32 -> ~ ulive uid tr -> os = [UThrow] ->
    tstep v tr (EvAccept true true false) v' os
| ts_start uid v' os : (nlive (d_conn v) + utotal unotimer tr < 32)%nat -> 1 <= uid <= 32 -> ~ ulive uid tr -> os = [UArm uid 30000000] ->
    tstep v tr (EvAccept true true true) v' os.

Lemma live_iff uid c tr : TOK uid c (uview_of uid tr) -> (ulive uid tr <-> t_st c <> UInit).
Proof.
  intros [_ _ S _]. unfold ulive. destruct (t_st c).
  - split; [|congruence]. intros E. exfalso. destruct S as (_ & _ & _ & _ & _ & S). lia.
  - split; [congruence|tauto].
  - split; [congruence|tauto].
Qed.

Lemma enabled_u32 v e : tev_ok e -> tsrv_enabled v e = true -> forall u, target e = Some u -> is_u32 u.
Proof.
  intros Hev Hen u Hu. destruct e as [? ? ?|t r ?|t|t|k' m ?|t]; cbn in Hu; try discriminate; injection Hu as <-; cbn in Hev, Hen; unfold is_u32.
  1-3: apply andb_prop in Hen as [Hen _]; apply andb_prop in Hen as [H1 H2]; lia.
  - now destruct Hev. - now destruct Hev.
Qed.

Lemma step_inv v tr e v' os : TInv v tr -> tev_ok e -> tsrv_enabled v e = true ->
  tsrv_step v e = Some (v', os) -> TInv v' (tr ++ [(e, os)]) /\ tstep v tr e v' os.
Proof.
  intros HI Hev Hen H. pose proof (enabled_u32 _ _ Hev Hen) as Hu.
  destruct e as [b1 b2 tok|uid r w|uid|uid|k m w|uid]; cbn [tsrv_step target] in H, Hu; try specialize (Hu _ eq_refl).
  - pose proof HI as [S O T]. destruct c32 as (C1 & C2 & C3).
    destruct (b1 && b2) eqn:Eb; cbn [negb] in H.
    2:{ apply some2 in H as (<- & <-). split; [|now apply ts_refused].
        assert (Hnt : unotimer (EvAccept b1 b2 tok, [UThrow]) = 0%nat) by (destruct b1, b2; try discriminate; reflexivity).
        constructor; auto.
        - intros i c E. rewrite uview_snoc, (uview_other _ _ _ _ (Z.of_nat i + 2)); [now apply S|repeat constructor|discriminate|lia].
        - now rewrite utotal_snoc, Hnt, Nat.add_0_r.
        - rewrite !utotal_snoc. cbn. lia. }
    apply andb_prop in Eb as [-> ->].
    destruct (own_alloc _ _ _ C1 C2 _ _ _ O) as [(Hf & p' & Ep & O')|(Hf & p' & i & c & Ep & En & Ha & O1 & O2 & Eg)]; rewrite Ep in H.
    + apply some2 in H as (<- & <-). split; [|now apply ts_full].
      constructor; auto; cbn [d_conn d_pool].
      * intros j c E. rewrite uview_snoc, (uview_other _ _ _ _ (Z.of_nat j + 2)); [now apply S|auto|discriminate|lia].
      * rewrite utotal_snoc. cbn. now rewrite Nat.add_0_r.
      * rewrite !utotal_snoc. cbn. lia.
    + unfold tsrv_on in H. cbn [d_pool d_conn] in H. set (uid := Z.of_nat i + 1) in *.
      assert (Hlt : (i < 32)%nat) by (rewrite <- (own_len _ _ _ _ _ _ O); apply nth_error_Some; congruence).
      rewrite Eg, (own_get _ _ _ C1 C2 C3 _ _ _ _ O) in H by lia. change (Z.of_nat 32) with 32 in H.
      destruct (Z.leb_spec 1 uid); [|lia]. destruct (Z.leb_spec uid 32); [|lia]. cbn [andb] in H.
      replace (Z.to_nat (uid - 1)) with i in H by lia. rewrite En in H.
      pose proof (S i c En) as HT. fold uid in HT.
      assert (Hini : t_st c = UInit) by (pose proof (uact_spec c) as X; now rewrite Ha in X).
      destruct (u_accept uid c tok) as [[c' os']|] eqn:Ea; [|discriminate H].
      destruct (accept_step _ _ _ true true _ _ _ HT Hini Ea) as [HT' Hcs].
      assert (Hab : Forall (uabout uid) os').
      { destruct Hcs as [(_ & -> & _)|(_ & -> & _)]; repeat constructor. }
      assert (Hnl : ~ ulive uid tr) by (intros X; apply (live_iff _ _ _ HT) in X; congruence).
      assert (Hact := nact_upd tconn uact 32 C1 (d_conn v) i c c' En). rewrite Ha in Hact. cbn [bn] in Hact.
      assert (Hview : forall v2, d_conn v2 = upd (d_conn v) i c' -> forall j x, nth_error (d_conn v2) j = Some x ->
         TOK (Z.of_nat j + 1) x (uview_of (Z.of_nat j + 1) (tr ++ [(EvAccept true true tok, os')]))).
      { intros v2 -> j x Hj. rewrite uview_snoc. destruct (Nat.eq_dec j i) as [->|Hne].
        - rewrite nth_error_upd_eq in Hj by (rewrite (own_len _ _ _ _ _ _ O); auto). injection Hj as <-. exact HT'.
        - rewrite nth_error_upd_neq in Hj by auto. rewrite (uview_other _ _ _ _ uid); [now apply S|auto|discriminate|lia]. }
      destruct Hcs as [(-> & -> & Hst)|(-> & -> & Hst)]; cbn [tsrv_release] in H; apply some2 in H as (<- & <-).
      * assert (Ha' : uact c' = true) by (pose proof (uact_spec c') as X; destruct (uact c'); congruence).
        rewrite Ha' in Hact. cbn [bn] in Hact. split; [|apply (ts_start v tr uid); auto; lia].
        constructor; [apply Hview; reflexivity| |]; cbn [d_conn d_pool].
        -- rewrite utotal_snoc. cbn. rewrite Nat.add_0_r. now apply O1.
        -- rewrite !utotal_snoc. cbn. lia.
      * assert (Ha' : uact c' = false) by (pose proof (uact_spec c') as X; destruct (uact c'); congruence).
        rewrite Ha' in Hact. cbn [bn] in Hact. split; [|apply (ts_leak v tr uid); auto; lia].
        constructor; [apply Hview; reflexivity| |]; cbn [d_conn d_pool].
        -- rewrite utotal_snoc. cbn. rewrite Nat.add_1_r. now apply O2.
        -- rewrite !utotal_snoc. cbn. lia.
  - destruct (on_ok v tr uid (EvData uid r w) v' os _ HI Hu eq_refl H) as (X & Y & c & c' & E1 & E2 & E3 & E4 & E5).
    { intros c c' os' HT Hc E. cbn in Hen. apply andb_prop in Hen as [_ Hen]. rewrite Hc in Hen.
      eapply data_step; eauto. destruct (t_link c) as [[|]|]; congruence. }
    split; [exact X|]. exact (ts_conn v tr (EvData uid r w) uid (fun c => u_data uid c r w) c c' v' os eq_refl Y E1 E3 E4 E5 E2 eq_refl).
  - destruct (on_ok v tr uid (EvError uid) v' os _ HI Hu eq_refl H) as (X & Y & c & c' & E1 & E2 & E3 & E4 & E5).
    { intros c c' os' HT Hc E. apply some2 in E as (<- & <-). now apply error_step. }
    split; [exact X|]. exact (ts_conn v tr (EvError uid) uid (fun c => Some (u_error c, [])) c c' v' os eq_refl Y E1 E3 E4 E5 E2 eq_refl).
  - destruct (on_ok v tr uid (EvTimer uid) v' os _ HI Hu eq_refl H) as (X & Y & c & c' & E1 & E2 & E3 & E4 & E5).
    { intros c c' os' HT Hc E. cbn in Hen. apply andb_prop in Hen as [_ Hen]. rewrite Hc in Hen.
      assert (Ht : exists us, t_timer c = Some (Some us)) by (destruct (t_timer c) as [[us|]|]; eauto; discriminate).
      destruct (timer_step _ _ _ _ _ HT Ht E) as (? & ? & _). auto. }
    split; [exact X|]. exact (ts_conn v tr (EvTimer uid) uid (fun c => u_timer uid c) c c' v' os eq_refl Y E1 E3 E4 E5 E2 eq_refl).
  - destruct (on_ok v tr (um_conn m) (EvMsg k m w) v' os _ HI Hu eq_refl H) as (X & Y & c & c' & E1 & E2 & E3 & E4 & E5).
    { intros c c' os' HT Hc E. eapply msg_step; eauto. }
    split; [exact X|]. exact (ts_conn v tr (EvMsg k m w) (um_conn m) (fun c => u_msg (um_conn m) k c m w) c c' v' os eq_refl Y E1 E3 E4 E5 E2 eq_refl).
  - destruct (on_ok v tr uid (EvRelease uid) v' os _ HI Hu eq_refl H) as (X & Y & c & c' & E1 & E2 & E3 & E4 & E5).
    { intros c c' os' HT Hc E. eapply release_step; eauto. }
    split; [exact X|]. exact (ts_conn v tr (EvRelease uid) uid (fun c => u_release uid c) c c' v' os eq_refl Y E1 E3 E4 E5 E2 eq_refl).
Qed.

Lemma reach_inv b0 v tr : ureach b0 v tr -> TInv v tr.
Proof.
  induction 1 as [v Hm Hn|v tr e v' os H IH Hev Hen Hs].
  - eapply (tinv_new maxConn); eauto.
  - now apply (step_inv _ _ _ _ _ IH Hev Hen Hs).
Qed.

(** Every recorded step was taken from a reachable state with the preceding history. *)
Lemma reach_split b0 v tr : ureach b0 v tr -> forall tr1 e os tr2, tr = tr1 ++ (e, os) :: tr2 ->
  exists v1 v2, ureach b0 v1 tr1 /\ tev_ok e /\ tsrv_enabled v1 e = true /\ tsrv_step v1 e = Some (v2, os).
Proof.
  induction 1 as [v Hm Hn|v tr e v' os H IH Hev Hen Hs]; intros tr1 e1 os1 tr2 E.
  - destruct tr1; discriminate.
  - destruct tr2 as [|x tr2'] using rev_ind.
    + apply app_inj_tail in E as [E1 E2]. injection E2 as E2 E3. subst. exists v, v'. auto.
    + clear IHtr2'. rewrite app_comm_cons, app_assoc in E. apply app_inj_tail in E as [E _]. eapply IH; eauto.
Qed.
