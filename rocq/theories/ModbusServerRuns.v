(** Facts about whole histories of the Modbus server. *)
From Verif Require Import Base QueueModel QueueSpec QueueProofs PoolModel PoolSpec PoolProofs ModbusCodecModel ModbusCodecSpec ModbusCodecProofs
  ModbusClientModel ModbusClientSpec ModbusClientProofs ModbusClientRuns ModbusServerModel ModbusServerSpec ModbusServerProofs.
Local Open Scope Z_scope.

Definition activeb (s : sess) : bool := negb (sst_eqb (x_st s) SInit).
Definition nactive (l : list sess) : nat := length (filter activeb l).
Definition b2n (b : bool) : nat := if b then 1%nat else 0%nat.

Lemma nactive_upd l : forall i s s', nth_error l i = Some s ->
  (nactive (upd l i s') + b2n (activeb s) = nactive l + b2n (activeb s'))%nat.
Proof.
  unfold nactive. induction l as [|x l IH]; intros [|i] s s' H; cbn in H; try discriminate.
  - injection H as ->. cbn. destruct (activeb s), (activeb s'); cbn; lia.
  - specialize (IH i s s' H). cbn. destruct (activeb x); cbn; lia.
Qed.

Lemma sst_spec a : if sst_eqb a SInit then a = SInit else a <> SInit.
Proof. now destruct a. Qed.

Record VInv (v : server) (tr : strace) : Prop := {
  vi_len : length (v_sess v) = 256%nat;
  vi_sess : forall uid s, 0 <= uid < 256 -> nth_error (v_sess v) (Z.to_nat uid) = Some s -> SOK uid s (view_of uid tr);
  vi_own : exists owned, pool_hist 0 256 owned (v_pool v) /\
    (forall uid s, 0 <= uid < 256 -> nth_error (v_sess v) (Z.to_nat uid) = Some s -> x_st s <> SInit -> In uid owned) /\
    length owned = (nactive (v_sess v) + total throws_of tr)%nat;
  vi_tot : total starts_of tr = (total frees_of tr + nactive (v_sess v))%nat
}.

Lemma cap_ok : (0 < 256)%nat /\ size_t_ok 256.
Proof. unfold size_t_ok. split; lia. Qed.

Lemma hist_get owned p uid : pool_hist 0 256 owned p -> is_u32 uid ->
  pool_get p uid = if uid <? 256 then Some (Z.to_nat uid) else None.
Proof.
  intros H Hu. destruct cap_ok as [C1 C2]. destruct (pool_hist_inv _ _ _ _ C1 C2 H) as [free [Hb Hs _ _ _]].
  unfold pool_get, u32. rewrite Hb, Hs, Z.sub_0_r. unfold is_u32 in Hu. rewrite Z.mod_small by lia. reflexivity.
Qed.

Lemma release_filter os : forall p, srv_release p os = srv_release p (filter is_free_any os).
Proof. induction os as [|o os IH]; intros p; cbn; [auto|]. destruct o; cbn; auto. destruct (pool_release p uid); auto. Qed.

Lemma view_snoc uid tr x : view_of uid (tr ++ [x]) = view_next uid (view_of uid tr) x.
Proof. unfold view_of. now rewrite fold_left_app. Qed.
Lemma total_snoc f tr x : total f (tr ++ [x]) = (total f tr + f x)%nat.
Proof. unfold total. rewrite map_app, list_sum_app. cbn. lia. Qed.

Lemma option_map_some {A B} (f : A -> B) o v : option_map f o = Some v -> exists x, o = Some x /\ v = f x.
Proof. destruct o; [|discriminate]. cbn. intros H. injection H as <-. eauto. Qed.

Lemma inv_start b0 q0 n p : mem_ok b0 q0 -> n = 256%nat -> pool_hist 0 256 [] p ->
  VInv (mkSrv true p (repeat (mkSess SInit None None b0 0 0 (adu_init q0)) n)) [].
Proof.
  intros (H1 & H2 & H3 & H4) Hn Hp.
  set (s0 := mkSess SInit None None b0 0 0 (adu_init q0)).
  assert (Hs0 : forall i s, nth_error (repeat s0 n) i = Some s -> s = s0).
  { intros i s E. apply nth_error_In in E. now apply repeat_spec in E. }
  assert (Hn0 : nactive (repeat s0 n) = 0%nat).
  { unfold nactive. clear. induction n; cbn; auto. }
  constructor; cbn [v_sess v_pool].
  - rewrite repeat_length. exact Hn.
  - clear Hn. intros uid s Hu E. apply Hs0 in E as ->. unfold s0. constructor; scbn; auto; try lia.
    + destruct H3 as (G1 & G2 & G3 & G4 & G5 & G6 & G7 & G8). unfold adu_ok, req_ok, adu_init. wcbn.
      unfold is_u32, is_u16, is_byte in *. repeat split; auto; lia.
    + intros N. now elim N.
    + intros os o N. discriminate N.
  - exists []. split; [exact Hp|]. split.
    + intros uid s Hu E Hs. apply Hs0 in E as ->. now elim Hs.
    + rewrite Hn0. reflexivity.
  - rewrite Hn0. reflexivity.
Qed.

Lemma srv_new_some n b0 q0 v : srv_new n b0 q0 = Some v -> exists p, pool_new 0 n = Some p /\
  v = mkSrv true p (repeat (mkSess SInit None None b0 0 0 (adu_init q0)) n).
Proof. unfold srv_new. apply option_map_some. Qed.

Lemma inv_new n b0 q0 v : n = 256%nat -> mem_ok b0 q0 -> srv_new n b0 q0 = Some v -> VInv v [].
Proof.
  intros Hn Hm H. apply srv_new_some in H as (p & Ep & ->).
  apply inv_start; [exact Hm|exact Hn|]. apply ph_new. rewrite <- Hn. exact Ep.
Qed.

Lemma on_ok v tr uid e v' os k : VInv v tr -> is_u32 uid -> target e = Some uid ->
  srv_on v uid k = Some (v', os) ->
  (forall s s' os, SOK uid s (view_of uid tr) -> session_of v uid = Some s -> k s = Some (s', os) ->
     SOK uid s' (view_next uid (view_of uid tr) (e, os)) /\ quietly uid s s' os) ->
  VInv v' (tr ++ [(e, os)]).
Proof.
  intros [L S (owned & O1 & O2 & O3) T] Hu Ht H Hk. unfold srv_on in H. unfold session_of in Hk.
  rewrite (hist_get _ _ _ O1 Hu) in H, Hk.
  destruct (Z.ltb_spec uid 256) as [Hlt|]; [|discriminate H]. unfold is_u32 in Hu.
  destruct (nth_error (v_sess v) (Z.to_nat uid)) as [s|] eqn:En; [|discriminate H].
  destruct (k s) as [[s' os']|] eqn:Ek; [|discriminate H].
  destruct (srv_release (v_pool v) os') as [p'|] eqn:Er; [|discriminate H].
  apply some2 in H as (<- & <-).
  destruct (Hk s s' os' (S uid s ltac:(lia) En) eq_refl Ek) as [HS [Q1 Q2 Q3 Q4]].
  rewrite release_filter, Q3 in Er.
  assert (D1 := sst_spec (x_st s)). assert (D2 := sst_spec (x_st s')).
  assert (Hact := nactive_upd (v_sess v) (Z.to_nat uid) s s' En).
  assert (Hst0 : starts_of (e, os') = 0%nat) by (destruct e; cbn in Ht; try discriminate; reflexivity).
  constructor; cbn [v_sess v_pool].
  - now rewrite upd_length.
  - intros u s2 Hu2 E2. rewrite view_snoc. destruct (Z.eq_dec u uid) as [->|Hne].
    + rewrite nth_error_upd_eq in E2 by lia. injection E2 as <-. exact HS.
    + rewrite nth_error_upd_neq in E2 by lia. rewrite (view_other u _ _ _ uid); auto. rewrite Ht. reflexivity.
  - rewrite total_snoc. unfold throws_of at 2. cbn [snd]. rewrite Q2, Nat.add_0_r.
    unfold activeb in Hact. destruct (sst_eqb (x_st s') SInit) eqn:E1, (sst_eqb (x_st s) SInit) eqn:E2; cbn [andb negb b2n srv_release] in *.
    + injection Er as <-. exists owned. split; [auto|]. split; [|lia].
      intros u s2 Hu2 En2 Hs2. destruct (Z.eq_dec u uid) as [->|Hne].
      * rewrite nth_error_upd_eq in En2 by lia. injection En2 as <-. congruence.
      * rewrite nth_error_upd_neq in En2 by lia. eauto.
    + assert (Hin : In uid owned) by (eapply O2; [|exact En|]; [lia|congruence]).
      destruct (pool_release (v_pool v) uid) as [p2|] eqn:Ep; [|discriminate Er]. injection Er as <-.
      pose proof (pool_alloc_sound _ _ _ _ (proj1 cap_ok) (proj2 cap_ok) O1) as (Hnd & _).
      apply in_split in Hin as (o1 & o2 & ->). exists (o1 ++ o2). split; [eapply ph_release; eauto|].
      rewrite app_length in *. cbn [length] in O3. split; [|lia].
      intros u s2 Hu2 En2 Hs2. destruct (Z.eq_dec u uid) as [->|Hne].
      * rewrite nth_error_upd_eq in En2 by lia. injection En2 as <-. congruence.
      * rewrite nth_error_upd_neq in En2 by lia. specialize (O2 u s2 Hu2 En2 Hs2).
        apply in_app_or in O2 as [?|[?|?]]; try congruence; apply in_or_app; auto.
    + exfalso. assert (x_st s' = SInit) by (apply Q4; congruence). congruence.
    + injection Er as <-. exists owned. split; [auto|]. split; [|lia].
      intros u s2 Hu2 En2 Hs2. destruct (Z.eq_dec u uid) as [->|Hne].
      * eapply O2; [|exact En|]; [lia|congruence].
      * rewrite nth_error_upd_neq in En2 by lia. eauto.
  - rewrite !total_snoc, Hst0. change (frees_of (e, os')) with (length (filter is_free_any os')). rewrite Q3.
    unfold activeb in Hact. destruct (sst_eqb (x_st s') SInit) eqn:E1, (sst_eqb (x_st s) SInit) eqn:E2; cbn [andb negb b2n length] in *; try lia.
    exfalso. assert (x_st s' = SInit) by (apply Q4; congruence). congruence.
Qed.

Lemma view_unchanged uid w e os : os = [] -> match e with VAccept _ _ _ | VStop => True | _ => False end ->
  view_next uid w (e, os) = w.
Proof.
  intros -> H. unfold view_next, count. destruct w. cbn. destruct e; try contradiction; cbn; rewrite !Nat.add_0_r; reflexivity.
Qed.

Lemma step_inv v tr e v' os : VInv v tr -> vev_ok e -> srv_enabled v e = true ->
  srv_step v e = Some (v', os) -> VInv v' (tr ++ [(e, os)]).
Proof.
  intros HI Hev Hen H. destruct e as [tok lok aok|uid r|uid|uid|p sok|]; cbn [srv_step] in H.
  - pose proof HI as [L S (owned & O1 & O2 & O3) T].
    assert (Hnone : forall a p', (pool_hist 0 256 owned p') -> VInv (mkSrv a p' (v_sess v)) (tr ++ [(VAccept tok lok aok, [])])).
    { intros a p' Hp. constructor; cbn [v_sess v_pool]; auto.
      - intros u s Hu E. rewrite view_snoc, view_unchanged; auto.
      - exists owned. rewrite total_snoc. cbn. rewrite Nat.add_0_r. auto.
      - rewrite !total_snoc. cbn. lia. }
    destruct (v_acc v) eqn:Ea; cbn [negb] in H.
    2:{ apply some2 in H as (<- & <-). specialize (Hnone (v_acc v) _ O1). now destruct v. }
    destruct (pool_alloc (v_pool v)) as [[p' [u|]]|] eqn:Ep; [| |discriminate H].
    2:{ apply some2 in H as (<- & <-). apply Hnone. eapply ph_alloc_fail; eauto. }
    pose proof (pool_alloc_sound _ _ _ _ (proj1 cap_ok) (proj2 cap_ok) O1) as (Hnd & Hr & Ho). rewrite Ep in Ho.
    destruct Ho as (Hur & Hnin & Hlt). change (0 + Z.of_nat 256) with 256 in Hur.
    assert (O1' : pool_hist 0 256 (u :: owned) p') by (eapply ph_alloc; eauto).
    unfold srv_on in H. cbn [v_pool v_sess v_acc] in H.
    rewrite (hist_get _ _ u O1') in H by (unfold is_u32; lia).
    destruct (Z.ltb_spec u 256); [|lia].
    destruct (nth_error (v_sess v) (Z.to_nat u)) as [s|] eqn:En; [|discriminate H].
    assert (Hi : x_st s = SInit).
    { destruct (x_st s) eqn:Es; auto; exfalso; apply Hnin; eapply O2; eauto; congruence. }
    destruct (s_prepare u s tok lok aok) as [[s' os']|] eqn:Ek; [|discriminate H].
    destruct (prepare_ok _ _ _ _ _ _ _ _ (S u s Hur En) Hi Ek) as [HS Hc].
    assert (Hab : Forall (about u) os') by (destruct Hc as [(_ & _ & _ & ->)|(_ & _ & ->)]; repeat constructor).
    assert (Er : srv_release p' os' = Some p') by (destruct Hc as [(_ & _ & _ & ->)|(_ & _ & ->)]; reflexivity).
    rewrite Er in H. apply some2 in H as (<- & <-).
    assert (Hact := nactive_upd (v_sess v) (Z.to_nat u) s s' En).
    unfold activeb in Hact. rewrite Hi in Hact. cbn [sst_eqb negb b2n] in Hact.
    constructor; cbn [v_sess v_pool].
    + now rewrite upd_length.
    + intros u2 s2 Hu2 E2. rewrite view_snoc. destruct (Z.eq_dec u2 u) as [->|Hne].
      * rewrite nth_error_upd_eq in E2 by lia. injection E2 as <-. exact HS.
      * rewrite nth_error_upd_neq in E2 by lia. rewrite (view_other u2 _ _ _ u); auto; cbn; auto.
    + exists (u :: owned). split; [auto|]. split.
      * intros u2 s2 Hu2 En2 Hs2. destruct (Z.eq_dec u2 u) as [->|Hne]; [now left|right].
        rewrite nth_error_upd_neq in En2 by lia. eauto.
      * rewrite total_snoc. cbn [length]. destruct Hc as [(_ & Hs' & _ & ->)|(_ & Hs' & ->)]; rewrite Hs' in Hact; cbn in Hact |- *; lia.
    + rewrite !total_snoc. destruct Hc as [(_ & Hs' & _ & ->)|(_ & Hs' & ->)]; rewrite Hs' in Hact; cbn in Hact |- *; lia.
  - cbn [srv_enabled] in Hen. destruct (session_of v uid) as [s0|] eqn:Es0; [|rewrite andb_false_r in Hen; discriminate].
    eapply on_ok; [exact HI| | |exact H|].
    + unfold is_u32. lia.
    + reflexivity.
    + intros s s' os' HS Es Ek. injection (eq_trans (eq_sym Es) Es0) as ->.
      apply data_ok; auto. destruct (x_link s0) as [[]|]; auto; rewrite andb_false_r in Hen; discriminate.
  - cbn [srv_enabled] in Hen. destruct (session_of v uid) as [s0|] eqn:Es0; [|rewrite andb_false_r in Hen; discriminate].
    eapply on_ok; [exact HI| | |exact H|].
    + unfold is_u32. lia.
    + reflexivity.
    + intros s s' os' HS Es Ek. apply some2 in Ek as (<- & <-). now apply error_step_ok.
  - cbn [srv_enabled] in Hen. destruct (session_of v uid) as [s0|] eqn:Es0; [|rewrite andb_false_r in Hen; discriminate].
    eapply on_ok; [exact HI| | |exact H|].
    + unfold is_u32. lia.
    + reflexivity.
    + intros s s' os' HS Es Ek. injection (eq_trans (eq_sym Es) Es0) as ->.
      apply timer_step_ok; auto. destruct (x_timer s0) as [[]|]; eauto; rewrite andb_false_r in Hen; discriminate.
  - eapply on_ok; [exact HI| | |exact H|].
    + cbn in Hev. apply Hev.
    + reflexivity.
    + intros s s' os' HS Es Ek. now apply reply_step_ok.
  - apply some2 in H as (<- & <-). destruct HI as [L S (owned & O1 & O2 & O3) T]. constructor; cbn [v_sess v_pool]; auto.
    + intros u s Hu E. rewrite view_snoc, view_unchanged; auto.
    + exists owned. rewrite total_snoc. cbn. rewrite Nat.add_0_r. auto.
    + rewrite !total_snoc. cbn. lia.
Qed.

Lemma reach_inv b0 q0 v tr : reach b0 q0 v tr -> VInv v tr.
Proof.
  induction 1 as [v Hm Hn|v tr e v' os _ IH Hev Hen Hst].
  - eapply inv_new; [|exact Hm|exact Hn]. reflexivity.
  - eapply step_inv; eauto.
Qed.
