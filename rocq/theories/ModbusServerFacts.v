(** The facts behind the theorems of Props_ModbusServer. *)
From Verif Require Import Base QueueModel QueueSpec QueueProofs PoolModel PoolSpec PoolProofs ModbusCodecModel ModbusCodecSpec ModbusCodecProofs
  ModbusClientModel ModbusClientSpec ModbusClientProofs ModbusClientRuns ModbusServerModel ModbusServerSpec ModbusServerProofs
  ModbusServerRuns.
Local Open Scope Z_scope.

Section Facts.
Context (b0 : list Z) (q0 : adu_req).
Notation reach := (reach b0 q0).

Lemma lookup v tr uid : reach v tr -> 0 <= uid < 256 ->
  exists s, session_of v uid = Some s /\ SOK uid s (view_of uid tr) /\
    nth_error (v_sess v) (Z.to_nat uid) = Some s /\ pool_get (v_pool v) uid = Some (Z.to_nat uid).
Proof.
  intros HR Hu. destruct (reach_inv _ _ _ _ HR) as [L S (owned & O1 & O2 & O3) T].
  destruct (nth_error (v_sess v) (Z.to_nat uid)) as [s|] eqn:E; [|apply nth_error_None in E; lia].
  assert (G : pool_get (v_pool v) uid = Some (Z.to_nat uid)).
  { rewrite (hist_get _ _ _ O1) by (unfold is_u32; lia). destruct (Z.ltb_spec uid 256); [auto|lia]. }
  exists s. split; [|auto]. unfold session_of. now rewrite G.
Qed.

Lemma live_iff uid s tr : SOK uid s (view_of uid tr) -> (live uid tr <-> x_st s <> SInit).
Proof.
  intros [_ _ _ _ _ X _ _]. unfold live. destruct (x_st s).
  - destruct X as (_ & _ & _ & X). split; [lia|congruence].
  - destruct X as (_ & _ & _ & X). split; [discriminate|auto].
  - destruct X as (_ & _ & _ & X). split; [discriminate|auto].
Qed.
Lemma waiting_iff uid s tr : SOK uid s (view_of uid tr) -> (waiting uid tr <-> x_st s = SWait).
Proof.
  intros [_ _ _ _ _ X _ _]. unfold waiting. destruct (x_st s); destruct X as (-> & _); unfold inactiveTimeout, aduRspTimeout;
  split; try discriminate; auto.
Qed.

(** The step of the server on a given session. *)
Lemma on_some v tr uid k s s' os : reach v tr -> 0 <= uid < 256 -> session_of v uid = Some s ->
  k s = Some (s', os) -> quietly uid s s' os ->
  exists v', srv_on v uid k = Some (v', os).
Proof.
  intros HR Hu Hs Hk Q. destruct (lookup v tr uid HR Hu) as (s2 & Hs2 & HS & En & G).
  rewrite Hs in Hs2. injection Hs2 as <-. unfold srv_on. rewrite G, En, Hk.
  rewrite release_filter, (qu_free _ _ _ _ Q).
  destruct (reach_inv _ _ _ _ HR) as [L S (owned & O1 & O2 & O3) T].
  assert (D1 := sst_spec (x_st s)).
  destruct (sst_eqb (x_st s') SInit), (sst_eqb (x_st s) SInit); cbn [andb negb srv_release]; eauto.
  destruct (pool_release_defined _ _ _ _ uid (proj1 cap_ok) (proj2 cap_ok) O1) as [p' ->]; eauto.
Qed.

Lemma on_none v tr uid k s : reach v tr -> 0 <= uid < 256 -> session_of v uid = Some s ->
  k s = None -> srv_on v uid k = None.
Proof.
  intros HR Hu Hs Hk. destruct (lookup v tr uid HR Hu) as (s2 & Hs2 & HS & En & G).
  rewrite Hs in Hs2. injection Hs2 as <-. unfold srv_on. rewrite G, En, Hk. reflexivity.
Qed.

Lemma on_inv v tr uid k v' os : reach v tr -> 0 <= uid < 256 -> srv_on v uid k = Some (v', os) ->
  exists s s', session_of v uid = Some s /\ SOK uid s (view_of uid tr) /\ k s = Some (s', os) /\
    session_of v' uid = Some s' /\ v_acc v' = v_acc v.
Proof.
  intros HR Hu H. destruct (lookup v tr uid HR Hu) as (s & Hs & HS & En & G).
  destruct (reach_inv _ _ _ _ HR) as [L _ _ _].
  unfold srv_on in H. rewrite G, En in H.
  destruct (k s) as [[s' os']|] eqn:Ek; [|discriminate H].
  destruct (srv_release (v_pool v) os') as [p'|] eqn:Er; [|discriminate H].
  apply some2 in H as (<- & <-). exists s, s'. split; [auto|]. split; [auto|]. split; [auto|]. split; [|reflexivity].
  unfold session_of. cbn [v_pool v_sess].
  assert (E : pool_get p' uid = pool_get (v_pool v) uid).
  { clear - Er. revert Er. generalize (v_pool v). induction os' as [|o os IH]; intros p Er; cbn in Er.
    - now injection Er as <-.
    - destruct o; try (now apply IH). destruct (pool_release p uid0) as [p1|] eqn:Ep; [|discriminate].
      rewrite (IH _ Er). unfold pool_release in Ep. apply option_map_some in Ep as (q & _ & ->). reflexivity. }
  rewrite E, G. apply nth_error_upd_eq. lia.
Qed.

(** ** Timers *)

Lemma timers v tr uid : reach v tr -> 0 <= uid < 256 ->
  (live uid tr <-> w_armed (view_of uid tr) = Some 30000000 \/ w_armed (view_of uid tr) = Some 5000000) /\
  (~ live uid tr <-> w_armed (view_of uid tr) = None).
Proof.
  intros HR Hu. destruct (lookup v tr uid HR Hu) as (s & _ & HS & _ & _).
  rewrite (live_iff uid s tr HS). destruct HS as [_ _ _ _ _ X _ _]. unfold inactiveTimeout, aduRspTimeout in X.
  destruct (x_st s); destruct X as (X & _); rewrite X.
  - split; split; try congruence. intros [|]; discriminate.
  - split; split; intros H; try congruence; auto. exfalso. apply H. congruence.
  - split; split; intros H; try congruence; auto. exfalso. apply H. congruence.
Qed.

Lemma expiry v tr uid : reach v tr -> 0 <= uid < 256 -> live uid tr ->
  exists v', srv_enabled v (VTimer uid) = true /\
    srv_step v (VTimer uid) =
      Some (v', if Z.eqb (match w_armed (view_of uid tr) with Some t => t | None => 0 end) 5000000
                then [TDisarm uid; TArm uid 30000000] else [TDisarm uid; TFree uid]).
Proof.
  intros HR Hu HL. destruct (lookup v tr uid HR Hu) as (s & Hs & HS & En & G).
  assert (Hst := proj1 (live_iff uid s tr HS) HL). pose proof (so_st _ _ _ HS) as X.
  assert (exists t, x_timer s = Some (Some t)) as [t Ht].
  { destruct (x_st s); [congruence| |]; destruct X as (_ & X & _); eauto. }
  assert (Hen : srv_enabled v (VTimer uid) = true).
  { cbn [srv_enabled]. rewrite Hs, Ht. lia. }
  assert (Hk : exists s', s_timer uid s = Some (s', if Z.eqb (match w_armed (view_of uid tr) with Some t => t | None => 0 end) 5000000
                then [TDisarm uid; TArm uid 30000000] else [TDisarm uid; TFree uid])).
  { unfold s_timer. scbn. rewrite Ht. destruct (x_st s) eqn:Es; [congruence| |]; destruct X as (-> & _).
    - rewrite (tr_free uid _ None); [|scbn; congruence|reflexivity]. eexists. reflexivity.
    - rewrite (tr_conn uid _ None); [|scbn; congruence|reflexivity]. eexists. reflexivity. }
  destruct Hk as [s' Hk]. destruct (timer_step_ok uid s _ s' _ HS (ex_intro _ t Ht) Hk) as [_ Q].
  destruct (on_some v tr uid (fun s => s_timer uid s) s s' _ HR Hu Hs Hk Q) as [v' E]. exists v'. split; [auto|]. exact E.
Qed.

(** Two expiries at most. *)
Lemma terminates v tr uid : reach v tr -> 0 <= uid < 256 -> live uid tr ->
  exists v' tr', reach v' (tr ++ tr') /\ (length tr' <= 2)%nat /\ Forall (fun x => fst x = VTimer uid) tr' /\
    ~ live uid (tr ++ tr').
Proof.
  intros HR Hu HL.
  assert (One : forall v tr, reach v tr -> live uid tr -> w_armed (view_of uid tr) = Some 30000000 ->
    exists v', reach v' (tr ++ [(VTimer uid, [TDisarm uid; TFree uid])]) /\ ~ live uid (tr ++ [(VTimer uid, [TDisarm uid; TFree uid])])).
  { clear v tr HR HL. intros v tr HR HL Ha. destruct (expiry v tr uid HR Hu HL) as (v' & Hen & Hst). rewrite Ha in Hst.
    change (30000000 =? 5000000) with false in Hst. cbn iota in Hst.
    assert (HR' : reach v' (tr ++ [(VTimer uid, [TDisarm uid; TFree uid])])) by (eapply re_step; eauto; exact I).
    exists v'. split; [exact HR'|]. apply (proj2 (timers _ _ uid HR' Hu)). rewrite view_snoc. cbn. now rewrite Z.eqb_refl. }
  destruct (proj1 (proj1 (timers v tr uid HR Hu)) HL) as [Ha|Ha].
  - destruct (One v tr HR HL Ha) as (v' & R & N). exists v'. eexists. split; [exact R|]. cbn. split; [lia|]. split; auto.
  - destruct (expiry v tr uid HR Hu HL) as (v1 & Hen & Hst). rewrite Ha in Hst.
    change (5000000 =? 5000000) with true in Hst. cbn iota in Hst.
    set (x := (VTimer uid, [TDisarm uid; TArm uid 30000000])) in *.
    assert (HR1 : reach v1 (tr ++ [x])) by (eapply re_step; eauto; exact I).
    assert (Ha1 : w_armed (view_of uid (tr ++ [x])) = Some 30000000) by (rewrite view_snoc; cbn; now rewrite Z.eqb_refl).
    destruct (One v1 (tr ++ [x]) HR1) as (v' & R & N); [apply (proj1 (timers _ _ uid HR1 Hu)); auto|auto|].
    rewrite <- app_assoc in R, N. exists v'. eexists. split; [exact R|]. cbn. split; [lia|]. split; auto.
Qed.

(** ** Sessions *)

Lemma exclusive v tr uid : reach v tr -> 0 <= uid < 256 ->
  (w_frees (view_of uid tr) <= w_starts (view_of uid tr) <= S (w_frees (view_of uid tr)))%nat.
Proof.
  intros HR Hu. destruct (lookup v tr uid HR Hu) as (s & _ & [_ _ _ _ _ X _ _] & _ & _).
  destruct (x_st s); destruct X as (_ & _ & _ & X); lia.
Qed.

Lemma idle_clean v tr uid : reach v tr -> 0 <= uid < 256 -> ~ live uid tr ->
  srv_enabled v (VTimer uid) = false /\ forall r, srv_enabled v (VData uid r) = false.
Proof.
  intros HR Hu HL. destruct (lookup v tr uid HR Hu) as (s & Hs & HS & _ & _).
  rewrite (live_iff uid s tr HS) in HL. pose proof (so_st _ _ _ HS) as X. cbn [srv_enabled]. rewrite Hs.
  destruct (x_st s); [|elim HL; discriminate|elim HL; discriminate].
  destruct X as (_ & X1 & X2 & _). split.
  - destruct X1 as [-> | ->]; lia.
  - intros _. destruct X2 as [-> | ->]; lia.
Qed.

(** Whether an accept succeeds. *)
Lemma capacity v tr tok lok aok : reach v tr -> v_acc v = true ->
  (total frees_of tr <= total starts_of tr)%nat /\
  (total starts_of tr - total frees_of tr + total throws_of tr <= 256)%nat /\
  exists v' os, srv_step v (VAccept tok lok aok) = Some (v', os) /\
    if (total starts_of tr - total frees_of tr + total throws_of tr <? 256)%nat
    then if tok && lok && aok
         then exists uid, 0 <= uid < 256 /\ ~ live uid tr /\ os = [TArm uid 30000000]
         else os = [TThrow]
    else os = [].
Proof.
  intros HR Ha. destruct (reach_inv _ _ _ _ HR) as [L S (owned & O1 & O2 & O3) T].
  assert (Hle : (length owned <= 256)%nat).
  { destruct (pool_hist_inv _ _ _ _ (proj1 cap_ok) (proj2 cap_ok) O1) as [free HI].
    pose proof (pinv_len _ _ _ _ _ HI). lia. }
  split; [lia|]. split; [lia|].
  cbn [srv_step]. rewrite Ha. cbn [negb].
  pose proof (pool_alloc_sound _ _ _ _ (proj1 cap_ok) (proj2 cap_ok) O1) as (_ & _ & Ho). unfold alloc_ok in Ho.
  destruct (pool_alloc (v_pool v)) as [[p' [u|]]|] eqn:Ep; [| |contradiction].
  2:{ do 2 eexists. split; [reflexivity|]. destruct (Nat.ltb_spec (total starts_of tr - total frees_of tr + total throws_of tr) 256); [lia|reflexivity]. }
  destruct Ho as (Hur & Hnin & Hlt). change (0 + Z.of_nat 256) with 256 in Hur.
  destruct (Nat.ltb_spec (total starts_of tr - total frees_of tr + total throws_of tr) 256) as [Hl|]; [|lia].
  destruct (lookup v tr u HR Hur) as (s & Hs & HS & En & _).
  assert (Hi : x_st s = SInit).
  { destruct (x_st s) eqn:Es; auto; exfalso; apply Hnin; eapply O2; eauto; congruence. }
  assert (O1' : pool_hist 0 256 (u :: owned) p') by (eapply ph_alloc; eauto).
  unfold srv_on. cbn [v_pool v_sess v_acc]. rewrite (hist_get _ _ u O1') by (unfold is_u32; lia).
  destruct (Z.ltb_spec u 256); [|lia]. rewrite En.
  assert (Hp : exists s' os, s_prepare u s tok lok aok = Some (s', os)).
  { unfold s_prepare. destruct tok; cbn [negb]; [|eauto]. destruct lok; cbn [negb]; [|eauto]. destruct aok; cbn [negb]; [|eauto].
    rewrite (tr_start u _ None); [eauto|scbn; auto|reflexivity]. }
  destruct Hp as (s' & os & Hp). destruct (prepare_ok _ _ _ _ _ _ _ _ HS Hi Hp) as [_ Hc]. rewrite Hp.
  assert (Er : srv_release p' os = Some p') by (destruct Hc as [(_ & _ & _ & ->)|(_ & _ & ->)]; reflexivity).
  rewrite Er. do 2 eexists. split; [reflexivity|].
  destruct Hc as [(-> & _ & _ & ->)|(-> & _ & ->)]; [|reflexivity].
  exists u. split; [auto|]. split; [|reflexivity]. rewrite (live_iff u s tr HS). congruence.
Qed.

(** After 256 failed accepts nothing is served any more. *)
Lemma exhausted v tr uid : reach v tr -> (256 <= total throws_of tr)%nat -> 0 <= uid < 256 -> ~ live uid tr.
Proof.
  intros HR Ht Hu HL. destruct (lookup v tr uid HR Hu) as (s & Hs & HS & En & _).
  rewrite (live_iff uid s tr HS) in HL.
  destruct (reach_inv _ _ _ _ HR) as [L S (owned & O1 & O2 & O3) T].
  assert (Hle : (length owned <= 256)%nat).
  { destruct (pool_hist_inv _ _ _ _ (proj1 cap_ok) (proj2 cap_ok) O1) as [free HI].
    pose proof (pinv_len _ _ _ _ _ HI). lia. }
  assert (nactive (v_sess v) = 0%nat) as Hz by lia. unfold nactive in Hz.
  apply nth_error_In in En. assert (Hin : In s (filter activeb (v_sess v))).
  { apply filter_In. split; [auto|]. unfold activeb. destruct (x_st s); [congruence|reflexivity|reflexivity]. }
  destruct (filter activeb (v_sess v)); [contradiction|discriminate].
Qed.

Lemma can_start : mem_ok b0 q0 -> exists v, reach v [] /\ v_acc v = true.
Proof.
  intros Hm. destruct (pool_new_defined 0 maxNumSession) as [p Hp]; [unfold maxNumSession; lia|unfold size_t_ok, maxNumSession; lia|].
  eexists. split.
  - apply re_new; [exact Hm|]. unfold srv_new. rewrite Hp. reflexivity.
  - reflexivity.
Qed.

Lemma failing_accepts n : mem_ok b0 q0 -> (n <= 256)%nat ->
  exists v tr, reach v tr /\ v_acc v = true /\ length tr = n /\ total throws_of tr = n /\ total starts_of tr = 0%nat /\
    Forall (fun x => fst x = VAccept false true true) tr.
Proof.
  intros Hm. induction n as [|n IH]; intros Hn.
  - destruct (can_start Hm) as (v & H1 & H2). exists v, []. repeat split; auto.
  - destruct IH as (v & tr & R & A & H1 & H2 & H3 & H4); [lia|].
    destruct (capacity v tr false true true R A) as (C1 & C2 & v' & os & E & Ho).
    rewrite H2, H3 in Ho. destruct (Nat.ltb_spec (0 - total frees_of tr + n) 256); [|lia]. cbn [andb] in Ho. subst os.
    exists v', (tr ++ [(VAccept false true true, [TThrow])]). split; [eapply re_step; eauto; try exact I; reflexivity|].
    rewrite app_length, !total_snoc. cbn. repeat split; try lia.
    + cbn [srv_step] in E. rewrite A in E. cbn [negb] in E.
      destruct (pool_alloc (v_pool v)) as [[p' [u|]]|]; [| |discriminate].
      * unfold srv_on in E. cbn [v_pool v_sess v_acc] in E.
        destruct (pool_get p' u); [|discriminate]. destruct (nth_error (v_sess v) n0); [|discriminate].
        destruct (s_prepare u s false true true) as [[s' o]|]; [|discriminate].
        destruct (srv_release p' o); [|discriminate]. apply some2 in E as (<- & _). reflexivity.
      * apply some2 in E as (<- & _). auto.
    + apply Forall_app. split; auto.
Qed.
End Facts.
