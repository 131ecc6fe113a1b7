(** A Modbus client and server joined by a connection: single steps. *)
From Verif Require Import Base QueueModel QueueSpec QueueProofs PoolModel PoolSpec PoolProofs MsgStorageModel ModbusCodecModel ModbusCodecSpec ModbusCodecProofs
  ModbusClientModel ModbusClientSpec ModbusStoreProofs ModbusClientProofs ModbusClientRuns ModbusClientFacts
  ModbusServerModel ModbusServerSpec ModbusServerProofs ModbusServerRuns ModbusServerFacts ModbusServerWire ModbusCompModel ModbusNetModel ModbusNetSpec.
Local Open Scope Z_scope.

(** * The client *)
Definition up_st (s : cst) : bool := match s with CConnected | CSend | CReceive => true | _ => false end.

Lemma cli_req d w it d' os : CI d w -> up_st (c_st d) = true -> lc_step d (EReq it) = Some (d', os) ->
  c_fd d' = c_fd d /\ up_st (c_st d') = true /\ txs os = [] /\ cli_closes os = false /\ cli_octets os = [] /\
  timer_next (timer_of (c_st d)) (EReq it, os) = timer_of (c_st d') /\
  (c_st d = CReceive <-> c_st d' = CReceive) /\
  ((c_store d' = c_store d) \/ c_store d' = c_store d ++ [stored it]).
Proof.
  intros HI Hup H. unfold lc_step, c_step, on_req in H.
  destruct (ls_push (c_store d) it) as [[s' [|]]|] eqn:Ep; [| |discriminate H].
  - assert (Es : s' = c_store d ++ [stored it]).
    { unfold ls_push in Ep. destruct (negb _); [discriminate Ep|]. destruct (_ <? _); [discriminate Ep|].
      destruct (negb _); [discriminate Ep|]. now injection Ep as <-. }
    destruct d as [st fd tm s b p l]. cbn [c_st c_store c_fd set_store] in *.
    destruct st; try discriminate Hup; cbn in H; apply some2 in H as (<- & <-); cbn; repeat split; auto; intros; congruence.
  - assert (Es : s' = c_store d).
    { unfold ls_push in Ep. destruct (negb _); [now injection Ep as <-|]. destruct (_ <? _); [now injection Ep as <-|].
      destruct (negb _); discriminate Ep. }
    apply some2 in H as (<- & <-). subst s'. destruct d as [st fd tm s b p l]. cbn in *.
    repeat split; auto.
Qed.

Lemma cli_req_takes d w it : CI d w -> up_st (c_st d) = true -> ev_ok (EReq it) -> (length (c_store d) < 64)%nat -> q_nbytes (i_req it) <= 260 ->
  exists d' os, lc_step d (EReq it) = Some (d', os) /\ c_store d' = c_store d ++ [stored it] /\
    (c_st d = CReceive \/ c_st d' = CSend).
Proof.
  intros HI Hup Hok Hl Hn. cbn in Hok. destruct Hok as (_ & _ & _ & _ & _ & H6 & _ & H8). unfold is_u16 in H6.
  unfold lc_step, c_step, on_req, ls_push. unfold as_capacity, maxAduLen.
  destruct (Nat.ltb_spec (length (c_store d)) 64); [|lia]. cbn [negb].
  destruct (Z.ltb_spec 260 (q_nbytes (i_req it))); [lia|].
  destruct (Z.leb_spec (q_nbytes (i_req it)) (Z.of_nat (length (q_data (i_req it))))); [|lia]. cbn [negb].
  destruct d as [st fd tm s b p l]. cbn [c_st c_store set_store] in *.
  destruct st; try discriminate Hup; cbn; do 2 eexists; (split; [reflexivity|]); cbn; auto.
Qed.

Lemma cli_timer d w cok d' os : CI d w -> c_st d = CSend -> c_fd d = true -> lc_step d (ETimer true cok) = Some (d', os) ->
  c_fd d' = true /\ cli_closes os = false /\ timer_next (timer_of CSend) (ETimer true cok, os) = timer_of (c_st d') /\
  match c_store d with
  | [] => os = [OStop] /\ c_st d' = CConnected /\ c_store d' = []
  | it :: rest =>
      match encode_req (i_req it) with
      | EncOk bs => os = [OTx bs; OStop; OTimer 5000000] /\ c_st d' = CReceive /\ c_store d' = c_store d
      | EncFail _ => os = [error_for it; OTimer 10000] /\ c_st d' = CSend /\ c_store d' = rest
      | _ => False
      end
  end.
Proof.
  intros HI Hst Hfd H. unfold lc_step, c_step, on_timer in H.
  destruct d as [st fd tm s b p l]. cbn [c_st c_store c_fd set_timer] in *. subst st fd.
  unfold c_send in H. cbn [c_store c_fd] in H. destruct s as [|it rest]; cbn [ls_empty ls_front ls_pop] in H.
  - cbn in H. apply some2 in H as (<- & <-). cbn. repeat split; auto.
  - cbn in H. revert H. destruct (encode_req (i_req it)); intros H; try discriminate H; cbn in H; apply some2 in H as (<- & <-); cbn; repeat split; auto.
Qed.

Lemma cli_timer_defined d w cok it rest bs : CI d w -> c_st d = CSend -> c_fd d = true -> c_store d = it :: rest ->
  encode_req (i_req it) = EncOk bs -> exists d' os, lc_step d (ETimer true cok) = Some (d', os).
Proof.
  intros HI Hst Hfd Hs He. unfold lc_step, c_step, on_timer.
  destruct d as [st fd tm s b p l]. cbn [c_st c_store c_fd set_timer] in *. subst st fd s.
  unfold c_send. cbn. rewrite He. cbn. eauto.
Qed.

Lemma decode_multi buf a r : decode_rsp buf rsp0 = DOk a r -> a_func a = 16 -> a_nbytes a = 0.
Proof.
  intros H Hf. unfold decode_rsp, rdBe, rd in H.
  repeat match type of H with
  | context [match ?b with [] => _ | _ :: _ => _ end] => destruct b; [discriminate H|]
  | context [if ?c then _ else _] => destruct c eqn:? in H; try discriminate H
  | context [match rd_pairs ?k ?i ?d ?r with _ => _ end] => destruct (rd_pairs k i d r) as [[? ?]|] eqn:?; try discriminate H
  end; injection H as <- <-; cbn in Hf |- *; subst;
  unfold is_read_regs, is_single, is_multi in *; discriminate || reflexivity.
Qed.

(** What the client tells for a reply [a] to request [it]. *)
Definition judged (it : item) (a : adu_rsp) (o : cout) : Prop :=
  exists a', rsp_received a a' /\ (a_func a' = 16 -> a_nbytes a' = 0) /\
    o = if negb (q_tid (i_req it) =? a_tid a') then error_for it
        else if negb (q_addr (i_req it) =? a_addr a') then error_for it
        else if 143 =? a_func a' then ORsp (i_client it) (q_tid (i_req it)) true (a_error a') []
        else if negb (q_func (i_req it) =? a_func a') then error_for it
        else ORsp (i_client it) (a_tid a') true 0 (firstn (Z.to_nat (a_nbytes a')) (a_data a')).

Lemma cli_data d it rest rx bs more a : CI d (Some rx) -> c_store d = it :: rest -> c_fd d = true -> rsp_ok a ->
  encode_rsp a = EncOk (rx ++ bs ++ more) -> bs <> [] ->
  (more = [] \/ (length rx + length bs < 6)%nat \/ (6 < length more)%nat) ->
  exists d' os, lc_step d (EData (RxBytes bs)) = Some (d', os) /\ c_fd d' = true /\ cli_closes os = false /\ cli_octets os = [] /\
    timer_next (timer_of CReceive) (EData (RxBytes bs), os) = timer_of (c_st d') /\
    if (length more =? 0)%nat
    then exists o, os = [o; OStop; OTimer 10000] /\ is_rsp o = true /\ judged it a o /\ c_st d' = CSend /\ c_store d' = rest
    else os = [] /\ c_st d' = CReceive /\ c_store d' = c_store d.
Proof.
  intros HI Hs Hfd Hok He Hne Hcut. destruct (ci_wire _ _ HI) as (Est & _ & Hp & Hl & Hr).
  destruct (encode_rsp_wf _ _ Hok He) as [Hwf Hlen].
  pose proof (ci_buf _ _ HI) as Hb. pose proof (ci_len _ _ HI) as Hlr.
  set (fr := rx ++ bs ++ more) in *.
  assert (Hxl : Z.of_nat (length rx) = c_len d) by (rewrite <- Hr, firstn_length; lia).
  assert (Hlf : (length rx + length bs + length more = length fr)%nat) by (unfold fr; rewrite !app_length; lia).
  assert (Htr : firstn (Z.to_nat (bufMaxLen - c_len d)) bs = bs) by (apply firstn_all2; unfold bufMaxLen; lia).
  set (b := buf_write (c_buf d) (Z.to_nat (c_len d)) bs).
  set (k := (length rx + length bs)%nat).
  assert (Hpre : firstn k b = firstn k fr).
  { unfold k, b, fr. replace (length rx + length bs)%nat with (Z.to_nat (c_len d) + length bs)%nat by lia.
    rewrite bw_prefix by lia. rewrite Hr, app_assoc, firstn_app.
    replace (Z.to_nat (c_len d) + length bs - length (rx ++ bs))%nat with 0%nat by (rewrite app_length; lia).
    rewrite firstn_O, app_nil_r, firstn_all2; [auto|rewrite app_length; lia]. }
  assert (Hb2 : b = firstn k fr ++ skipn k b) by (rewrite <- Hpre; symmetry; apply firstn_skipn).
  pose proof (prefix_status fr (skipn k b) k Hwf Hlen ltac:(unfold k; lia)) as Hst2. rewrite <- Hb2 in Hst2.
  assert (Hlk : c_len d + Z.of_nat (length bs) = Z.of_nat k) by (unfold k; lia).
  unfold lc_step, c_step, on_data. rewrite Est. unfold c_receive.
  destruct (Z.ltb_spec maxAduLen (c_len d)) as [X|_]; [unfold maxAduLen in X; lia|].
  rewrite Hfd, Hs, Htr. cbn [ls_empty ls_front]. fold b. rewrite Hlk, Hst2.
  destruct (Nat.eqb_spec (length more) 0) as [Hm|Hm].
  - replace (k =? length fr)%nat with true by (symmetry; apply Nat.eqb_eq; unfold k; lia).
    rewrite Hp. cbn [skipn]. assert (Hkf : firstn k fr = fr) by (apply firstn_all2; unfold k; lia).
    rewrite Hkf in Hb2.
    destruct (rsp_roundtrip a fr (skipn k b) rsp0 Hok He) as (a' & Ed & Hrx); [cbn; lia|]. rewrite <- Hb2 in Ed. rewrite Ed.
    assert (Hj : forall o, judged it a o -> is_rsp o = true).
    { intros o (a2 & _ & _ & ->). repeat (destruct (negb _) || destruct (143 =? _)); reflexivity. }
    assert (Htransit : forall buf p l o, judged it a o -> exists d' os,
      andthen (Some (set_buf (set_buf d b (c_pos d) (Z.of_nat k)) buf p l, [o])) (fun c => transit ls_pop c CSend false) = Some (d', os) /\
      c_fd d' = true /\ cli_closes os = false /\ cli_octets os = [] /\
      timer_next (timer_of CReceive) (EData (RxBytes bs), os) = timer_of (c_st d') /\
      exists o, os = [o; OStop; OTimer 10000] /\ is_rsp o = true /\ judged it a o /\ c_st d' = CSend /\ c_store d' = rest).
    { intros buf p l o Ho. destruct d as [st fd tm s0 bb pp ll]. cbn [c_st c_store c_fd c_buf c_pos c_len] in *. subst st fd s0.
      cbn. do 2 eexists. split; [reflexivity|]. cbn. pose proof (Hj o Ho). destruct o; try discriminate. repeat split.
      eexists. split; [reflexivity|]. auto. }
    clear Hst2.
    assert (Hgo : forall o, o = (if negb (q_tid (i_req it) =? a_tid a') then error_for it
        else if negb (q_addr (i_req it) =? a_addr a') then error_for it
        else if 143 =? a_func a' then ORsp (i_client it) (q_tid (i_req it)) true (a_error a') []
        else if negb (q_func (i_req it) =? a_func a') then error_for it
        else ORsp (i_client it) (a_tid a') true 0 (firstn (Z.to_nat (a_nbytes a')) (a_data a'))) -> judged it a o).
    { intros o ->. exists a'. split; [exact Hrx|]. split; [exact (decode_multi _ _ _ Ed)|reflexivity]. }
    change modbusErrorFn with 143.
    destruct (negb (q_tid (i_req it) =? a_tid a')); [apply (Htransit _ _ _ _ (Hgo _ eq_refl))|].
    destruct (negb (q_addr (i_req it) =? a_addr a')); [apply (Htransit _ _ _ _ (Hgo _ eq_refl))|].
    destruct (143 =? a_func a'); [apply (Htransit _ _ _ _ (Hgo _ eq_refl))|].
    destruct (negb (q_func (i_req it) =? a_func a')); apply (Htransit _ _ _ _ (Hgo _ eq_refl)).
  - replace (k =? length fr)%nat with false by (symmetry; apply Nat.eqb_neq; unfold k; lia).
    assert (Hc : (k <? 6)%nat || (k <? length fr - 6)%nat = true).
    { apply orb_true_iff. destruct Hcut as [Hcut|[Hcut|Hcut]]; [subst more; now elim Hm|left|right]; apply Nat.ltb_lt; unfold k; lia. }
    rewrite Hc. do 2 eexists. split; [reflexivity|]. cbn [c_fd c_st c_store set_buf]. rewrite Est. repeat split; auto.
Qed.

(** * The server *)
Definition not_for (uid : Z) (e : vev) : Prop := match target e with Some u => u <> uid | None => True end.

Section Server.
Context (b1 : list Z) (q1 : adu_req).
Notation reach := (reach b1 q1).

Lemma about_other uid u os : Forall (about u) os -> u <> uid ->
  filter (is_req uid) os = [] /\ srv_octets uid os = [] /\ srv_closes uid os = false /\ existsb (is_tx uid) os = false.
Proof.
  intros H Hne. assert (Hb : (u =? uid) = false) by lia.
  induction H as [|o os Ho _ (I1 & I2 & I3 & I4)]; [repeat split; auto|].
  destruct o; cbn in Ho; subst; cbn; rewrite ?Hb; cbn; auto.
Qed.

Lemma release_get os : forall p p' uid, srv_release p os = Some p' -> pool_get p' uid = pool_get p uid.
Proof.
  induction os as [|o os IH]; intros p p' uid H; cbn in H.
  - now injection H as <-.
  - destruct o; try (now apply IH). destruct (pool_release p uid0) as [p2|] eqn:Ep; [|discriminate].
    rewrite (IH _ _ _ H). unfold pool_release in Ep. apply option_map_some in Ep as (q & _ & ->). reflexivity.
Qed.

(** The server's dealings with others leave a session alone. *)
Lemma srv_other v tr uid e v' os : reach v tr -> 0 <= uid < 256 -> live uid tr -> vev_ok e -> srv_enabled v e = true -> not_for uid e ->
  srv_step v e = Some (v', os) ->
  view_next uid (view_of uid tr) (e, os) = view_of uid tr /\ session_of v' uid = session_of v uid /\
  filter (is_req uid) os = [] /\ srv_octets uid os = [] /\ srv_closes uid os = false /\ existsb (is_tx uid) os = false.
Proof.
  intros HR Hu Hl Hev Hen Hnf H. destruct (lookup b1 q1 v tr uid HR Hu) as (s0 & Hs0 & HS0 & En0 & G0).
  apply (live_iff _ _ _ HS0) in Hl. pose proof (reach_inv _ _ _ _ HR) as HI.
  (* one session touched *)
  assert (Hon : forall u k, u <> uid -> is_u32 u -> target e = Some u -> srv_on v u k = Some (v', os) ->
    (forall s s' os, SOK u s (view_of u tr) -> session_of v u = Some s -> k s = Some (s', os) -> Forall (about u) os) ->
    view_next uid (view_of uid tr) (e, os) = view_of uid tr /\ session_of v' uid = session_of v uid /\
    filter (is_req uid) os = [] /\ srv_octets uid os = [] /\ srv_closes uid os = false /\ existsb (is_tx uid) os = false).
  { intros u k Hne Hu2 Ht Ho Hk. assert (Hur : 0 <= u < 256) by (eapply on_range; eauto).
    destruct (lookup b1 q1 v tr u HR Hur) as (s & Hs & HS & En & G).
    unfold srv_on in Ho. rewrite G, En in Ho.
    destruct (k s) as [[s' os']|] eqn:Ek; [|discriminate Ho].
    destruct (srv_release (v_pool v) os') as [p'|] eqn:Er; [|discriminate Ho].
    apply some2 in Ho as (<- & <-). pose proof (Hk _ _ _ HS Hs Ek) as Hab.
    split; [apply (view_other uid _ _ _ u); auto; now rewrite Ht|].
    split; [|now apply (about_other uid u)].
    unfold session_of. cbn [v_pool v_sess]. rewrite (release_get _ _ _ uid Er), G0.
    apply nth_error_upd_neq. lia. }
  destruct e as [tok lok aok|u r|u|u|p sok|]; cbn [srv_step not_for target] in *.
  - pose proof HI as [L S (owned & O1 & O2 & O3) T].
    destruct (v_acc v) eqn:Ea; cbn [negb] in H.
    2:{ apply some2 in H as (<- & <-). rewrite view_unchanged by (cbn; auto). repeat split; reflexivity. }
    destruct (pool_alloc (v_pool v)) as [[p' [u|]]|] eqn:Ep; [| |discriminate H].
    2:{ apply some2 in H as (<- & <-). rewrite view_unchanged by auto. split; [auto|]. split; [|auto].
        assert (O1' : pool_hist 0 256 owned p') by (eapply ph_alloc_fail; eauto).
        unfold session_of. cbn [v_pool v_sess]. rewrite (hist_get _ _ _ O1'), (hist_get _ _ _ O1) by (unfold is_u32; lia). reflexivity. }
    pose proof (pool_alloc_sound _ _ _ _ (proj1 cap_ok) (proj2 cap_ok) O1) as (Hnd & Hr & Ho). rewrite Ep in Ho.
    destruct Ho as (Hur & Hnin & Hlt). change (0 + Z.of_nat 256) with 256 in Hur.
    assert (O1' : pool_hist 0 256 (u :: owned) p') by (eapply ph_alloc; eauto).
    assert (Hne : u <> uid) by (intros ->; apply Hnin; eapply O2; eauto).
    unfold srv_on in H. cbn [v_pool v_sess v_acc] in H.
    rewrite (hist_get _ _ u O1') in H by (unfold is_u32; lia).
    destruct (Z.ltb_spec u 256); [|lia].
    destruct (nth_error (v_sess v) (Z.to_nat u)) as [s|] eqn:En; [|discriminate H].
    assert (Hi : x_st s = SInit).
    { destruct (x_st s) eqn:Es; auto; exfalso; apply Hnin; eapply O2; eauto; congruence. }
    destruct (s_prepare u s tok lok aok) as [[s' os']|] eqn:Ek; [|discriminate H].
    destruct (prepare_ok _ _ _ _ _ _ _ _ (S u s Hur En) Hi Ek) as [HS Hc].
    assert (Hab : Forall (about u) os') by (destruct Hc as [(_ & _ & _ & ->)|(_ & _ & ->)]; repeat constructor).
    assert (Er : srv_release p' os' = Some p') by (destruct Hc as [(_ & _ & _ & ->)|(_ & _ & ->)]; reflexivity).
    rewrite Er in H. apply some2 in H as (<- & <-).
    split; [apply (view_other uid _ _ _ u); auto; cbn; auto|]. split; [|now apply (about_other uid u)].
    unfold session_of. cbn [v_pool v_sess]. rewrite (hist_get _ _ _ O1'), (hist_get _ _ _ O1) by (unfold is_u32; lia).
    destruct (Z.ltb_spec uid 256); [|lia]. apply nth_error_upd_neq. lia.
  - cbn [srv_enabled] in Hen. destruct (session_of v u) as [s1|] eqn:Es1; [|rewrite andb_false_r in Hen; discriminate].
    apply (Hon u _ Hnf ltac:(unfold is_u32; lia) eq_refl H). intros s s' os' HS Es Ek. rewrite Es1 in Es. injection Es as <-.
    eapply qu_about, data_ok; eauto. destruct (x_link s1) as [[]|]; auto; rewrite andb_false_r in Hen; discriminate.
  - cbn [srv_enabled] in Hen. apply (Hon u _ Hnf ltac:(unfold is_u32; lia) eq_refl H). intros s s' os' HS Es Ek. apply some2 in Ek as (<- & <-). constructor.
  - cbn [srv_enabled] in Hen. destruct (session_of v u) as [s1|] eqn:Es1; [|rewrite andb_false_r in Hen; discriminate].
    apply (Hon u _ Hnf ltac:(unfold is_u32; lia) eq_refl H). intros s s' os' HS Es Ek. rewrite Es1 in Es. injection Es as <-.
    eapply qu_about, timer_step_ok; eauto. destruct (x_timer s1) as [[]|]; eauto; rewrite andb_false_r in Hen; discriminate.
  - apply (Hon _ _ Hnf ltac:(apply Hev) eq_refl H). intros s s' os' HS Es Ek. eapply qu_about, reply_step_ok; eauto.
  - apply some2 in H as (<- & <-). rewrite view_unchanged by (cbn; auto). repeat split; reflexivity.
Qed.

Lemma link_enabled v uid s : 0 <= uid < 256 -> session_of v uid = Some s ->
  ((forall r, srv_enabled v (VData uid r) = true) <-> x_link s = Some true).
Proof.
  intros Hu Hs. unfold srv_enabled. rewrite Hs. split.
  - intros H. specialize (H RxNa). destruct (x_link s) as [[|]|]; [auto|lia..].
  - intros -> _. lia.
Qed.

(** A reply of the application to the request the session waits with. *)
Lemma srv_reply v tr uid p v' os : reach v tr -> 0 <= uid < 256 -> waiting uid tr -> (forall r, srv_enabled v (VData uid r) = true) ->
  p_session p = uid -> srv_step v (VReply p true) = Some (v', os) ->
  exists pre, os = pre ++ [TDisarm uid; TArm uid 30000000] /\ (forall r, srv_enabled v' (VData uid r) = true) /\
    (pre = [] \/ exists bs q, pre = [TTx uid bs] /\ adu_ok q /\ p_tid p = q_tid q /\ p_nbytes p <= 260 /\
       encode_rsp (reply_adu q p) = EncOk bs /\
       forall os0 t f a st n nb d, w_last (view_of uid tr) = Some os0 -> In (TReq uid t f a st n nb d) os0 ->
         TReq uid t f a st n nb d = req_msg uid q /\ fwd_ok q).
Proof.
  intros HR Hu Hw Hen <- H. cbn [srv_step] in H.
  destruct (on_inv b1 q1 v tr _ _ v' os HR Hu H) as (s & s' & Hs & HS & Ek & Hs' & _).
  apply (waiting_iff _ s tr HS) in Hw. apply (link_enabled v _ s Hu Hs) in Hen.
  pose proof (so_st _ _ _ HS) as X. rewrite Hw in X. destruct X as (_ & Xt & _ & _).
  unfold s_reply in Ek. rewrite Hw in Ek.
  destruct (s_send (p_session p) s p true) as [[[s1 o] res]|] eqn:Es; [|discriminate Ek].
  assert (Hres : res = SrDone).
  { unfold s_send in Es. rewrite Hen in Es. cbn [andb] in Es.
    repeat match type of Es with
    | (if ?c then _ else _) = _ => destruct c; [first [discriminate Es | now injection Es as _ _ <-]|]
    end.
    destruct (encode_rsp _) in Es; [|now injection Es as _ _ <-|discriminate Es..].
    destruct (negb _) in Es; now injection Es as _ _ <-. }
  subst res. destruct (send_spec _ _ _ _ _ _ _ Es) as (-> & _ & Ho).
  cbn [s_then] in Ek. rewrite (tr_conn _ s _ Hw Xt) in Ek. apply some2 in Ek as (<- & <-).
  exists o. split; [reflexivity|]. split.
  { apply (link_enabled v' _ _ Hu Hs'). exact Hen. }
  destruct Ho as [->|(bs & -> & _ & Hok & Htid & Hn & He)]; [now left|right].
  exists bs, (x_adu s). split; [reflexivity|]. split; [apply (so_adu _ _ _ HS)|]. do 2 (split; [auto|]). split; [exact He|].
  intros os0 t f a st n nb d Hl Hin. exact (so_last _ _ _ HS _ _ Hl Hin).
Qed.
End Server.
