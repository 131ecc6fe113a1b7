(** Theorems about a reactor under load, C138-C142. *)
From Verif Require Import Base QueueModel PoolModel ModbusCodecModel ModbusCodecSpec ModbusClientModel ModbusServerModel ModbusServerSpec
  UaCodecModel UaTcpModel UaTcpSpec UaTcpProofs UaTcpRuns UaTcpFacts OverloadModel OverloadSpec OverloadProofs OverloadFacts OverloadQueue.
From Verif Require Props_UaTcp Props_ModbusServer.
Local Open Scope Z_scope.

(** ** Histories used below *)
Definition hel : list Z := [72; 69; 76; 70; 32; 0; 0; 0] ++ repeat 0 24.
Definition next0 : hev := HNext true true [] false (Some 28%nat).
(** [n] clients connect and are accepted. *)
Definition join (n : nat) : list hev := flat_map (fun _ => [HConnect; HWait [NAccept]; next0]) (seq 1 n).
Definition hstate (es : list hev) : option (host * htrace) := hstart (tsrv_new maxConn Props_UaTcp.zbuf) es.
Lemma hstate_reach es h tr : forallb hev_okb es = true -> hstate es = Some (h, tr) -> hreach Props_UaTcp.zbuf h tr.
Proof.
  unfold hstate. pose proof (@eq_refl _ (tsrv_new maxConn Props_UaTcp.zbuf)) as E. revert E. generalize (tsrv_new maxConn Props_UaTcp.zbuf) at 2 3 as o.
  intros o E Ok H. exact (hstart_reach _ o es h tr Props_UaTcp.zbuf_ok Ok E H).
Qed.
Lemma serving_live b0 h tr u c : hreach b0 h tr -> conn_at (h_srv h) u = Some c -> (ulive u (served tr) <-> t_st c <> UInit).
Proof.
  intros R Ec. apply conn_at_inv in Ec as [Hu Ec]. destruct (conn_inv _ _ u (reach_inv _ _ _ (hi_reach _ _ _ (hreach_inv _ _ _ R))) Hu) as (d & Ed & HT & _).
  rewrite Ec in Ed. injection Ed as <-. exact (live_iff _ _ _ HT).
Qed.
Lemma live_serving b0 h tr u : hreach b0 h tr -> ulive u (served tr) -> exists c, conn_at (h_srv h) u = Some c /\ t_st c <> UInit.
Proof.
  intros R L. pose proof (hi_reach _ _ _ (hreach_inv _ _ _ R)) as UR. pose proof (live_range _ _ _ _ UR L) as Hu.
  destruct (conn_inv _ _ u (reach_inv _ _ _ UR) Hu) as (c & Ec & HT & _). exists c. rewrite conn_at_of by auto. split; [exact Ec|]. now apply (live_iff _ _ _ HT).
Qed.

(** * C138 *)

(** What the transport reads of a connection is what its peer sent, from the start and in order. *)
Theorem C138_prefix b0 h tr u : hreach b0 h tr -> ulive u (served tr) -> c_broken (cview_of u tr) = false ->
  exists rest, c_sent (cview_of u tr) = c_read (cview_of u tr) ++ rest.
Proof.
  intros R L B. destruct (live_serving _ _ _ _ R L) as (c & Ec & Hst). destruct (hi_conn _ _ _ (hreach_inv _ _ _ R) u c Ec Hst B) as [_ [E _]]. eauto.
Qed.

(** When the loop has come to rest about a connection, all its peer sent has been read, unless a read filled the buffer or an event was dropped. *)
Theorem C138_all_partial b0 h tr u : hreach b0 h tr -> ulive u (served tr) -> at_rest h u ->
  c_broken (cview_of u tr) = false -> c_full (cview_of u tr) = false -> c_lost (cview_of u tr) = false -> c_read (cview_of u tr) = c_sent (cview_of u tr).
Proof.
  intros R L [Hb Hr] B F Lo. destruct (live_serving _ _ _ _ R L) as (c & Ec & Hst). destruct (hi_conn _ _ _ (hreach_inv _ _ _ R) u c Ec Hst B) as [Hl [E U]].
  cbn [ready] in Hr. unfold is_open in Hr. rewrite Ec, Hl, andb_true_r in Hr. rewrite Hb in U. destruct U as [U|[U|[[]|[U|U]]]]; try congruence. rewrite E, U. now rewrite app_nil_r.
Qed.

Example C138_case : exists h tr, hreach Props_UaTcp.zbuf h tr /\ ulive 1 (served tr) /\ at_rest h 1 /\ c_broken (cview_of 1 tr) = false /\ c_full (cview_of 1 tr) = false /\
  c_lost (cview_of 1 tr) = false /\ c_sent (cview_of 1 tr) = hel /\ uacked 1 (served tr).
Proof.
  pose (es := join 1 ++ [HArrive 1 (firstn 5 hel); HWait [NData 1]; HArrive 1 (skipn 5 hel); next0; HWait [NData 1]; next0]).
  destruct (hstate es) as [[h tr]|] eqn:E; [|vm_compute in E; discriminate E].
  assert (P : option_map (fun x => (h_batch (fst x), ready (fst x) (NData 1), cview_of 1 (snd x), (g_starts (uview_of 1 (served (snd x))), g_frees (uview_of 1 (served (snd x))), g_acked (uview_of 1 (served (snd x)))))) (hstate es)
      = Some ([], false, mkCv hel hel false false false, (1%nat, 0%nat, true))) by (vm_compute; reflexivity).
  assert (R := hstate_reach es h tr ltac:(vm_compute; reflexivity) E). rewrite E in P. clear E. cbn [option_map fst snd] in P. injection P as P1 P2 P3 P4 P5 P6.
  exists h, tr. unfold ulive, uacked, at_rest. rewrite P3, P4, P5, P6. auto 10.
Qed.

(** A message that fills the buffer: what follows it is not read, and nothing will report it. *)
Definition bighello : list Z := [72; 69; 76; 70; 0; 16; 0; 0] ++ repeat 0 (Z.to_nat 4088).
Definition big_run : list hev := join 1 ++ [HArrive 1 (bighello ++ [79; 80; 78]); HWait [NData 1]; next0].
Theorem C138_refuted : exists h tr, hreach Props_UaTcp.zbuf h tr /\ uacked 1 (served tr) /\ at_rest h 1 /\ c_broken (cview_of 1 tr) = false /\ c_lost (cview_of 1 tr) = false /\
  c_sent (cview_of 1 tr) = c_read (cview_of 1 tr) ++ [79; 80; 78] /\
  forall tr' h', hrun h tr' h' -> no_event (from_peer 1) tr' -> no_effect (frees 1) tr' -> no_effect (serves 1) tr'.
Proof.
  destruct (hstate big_run) as [[h tr]|] eqn:E; [|vm_compute in E; discriminate E].
  assert (P : option_map (fun x => (h_batch (fst x), n_edge (h_sk (fst x) 1), (c_broken (cview_of 1 (snd x)), c_lost (cview_of 1 (snd x))), (g_starts (uview_of 1 (served (snd x))), g_frees (uview_of 1 (served (snd x))), g_acked (uview_of 1 (served (snd x)))), n_in (h_sk (fst x) 1))) (hstate big_run)
      = Some ([], false, (false, false), (1%nat, 0%nat, true), [79; 80; 78])) by (vm_compute; reflexivity).
  assert (R := hstate_reach big_run h tr ltac:(vm_compute; reflexivity) E). rewrite E in P. clear E. cbn [option_map fst snd] in P. injection P as P1 P2 P3 P4 P5 P6 P7 P8.
  assert (L : ulive 1 (served tr)) by (unfold ulive; congruence). destruct (live_serving _ _ _ _ R L) as (c & Ec & Hst).
  exists h, tr. split; [exact R|]. split; [exact P7|]. split; [split; [exact P1|]; cbn [ready]; now rewrite P2|]. split; [exact P3|]. split; [exact P4|]. split.
  - destruct (hi_conn _ _ _ (hreach_inv _ _ _ R) 1 c Ec Hst P3) as [_ [U _]]. now rewrite U, P8.
  - intros tr' h' Hr Hp Hf. refine (proj2 (stuck_run _ 1 h tr' h' Hr tr R _ Hp Hf)). unfold stuck. rewrite P1, P2. split; [eauto|]. split; [reflexivity|intros []].
Qed.

(** * C139 *)

(** Events are dropped only by a client that cannot be accepted, by a faulty first message, or by the expiry of a timer released meanwhile. *)
Theorem C139_causes_partial b0 h tr e h' o : hreach b0 h tr -> h_step h e = Some (h', o) -> o_lost o <> [] ->
  exists aok tok early rerr w hd, e = HNext aok tok early rerr w /\ h_batch h = hd :: o_lost o /\
  match hd with
  | NAccept => links_used (h_srv h) = 32%nat \/ aok = false \/ tok = false
  | NData t => ulive t (served tr) /\ ~ uacked t (served tr)
  | NTimer t => ~ ulive t (served tr)
  | _ => False
  end.
Proof. apply lost_cause. Qed.

(** A connection whose data event was dropped is not served again before its peer sends more. *)
Theorem C139_stuck b0 h tr u tr' h' : hreach b0 h tr -> ulive u (served tr) -> n_edge (h_sk h u) = false -> ~ In (NData u) (h_batch h) ->
  hrun h tr' h' -> no_event (from_peer u) tr' -> no_effect (frees u) tr' -> no_effect (serves u) tr'.
Proof.
  intros R L E B Hr Hp Hf. destruct (live_serving _ _ _ _ R L) as (c & Ec & Hst). refine (proj2 (stuck_run _ u h tr' h' Hr tr R _ Hp Hf)). unfold stuck. eauto.
Qed.

(** Thirty-two connections and one more client: the hello of a served client is lost, and it gets no acknowledge. *)
Definition crowd : list hev := join 32 ++ [HConnect; HArrive 1 hel; HWait [NAccept; NData 1]; next0].
Theorem C139_refuted : exists h tr, hreach Props_UaTcp.zbuf h tr /\ ulive 1 (served tr) /\ c_broken (cview_of 1 tr) = false /\ c_sent (cview_of 1 tr) = hel /\ c_read (cview_of 1 tr) = [] /\
  forall tr' h', hrun h tr' h' -> no_event (from_peer 1) tr' -> no_effect (frees 1) tr' -> no_effect (serves 1) tr'.
Proof.
  destruct (hstate crowd) as [[h tr]|] eqn:E; [|vm_compute in E; discriminate E].
  assert (P : option_map (fun x => (h_batch (fst x), n_edge (h_sk (fst x) 1), cview_of 1 (snd x), (g_starts (uview_of 1 (served (snd x))), g_frees (uview_of 1 (served (snd x)))))) (hstate crowd)
      = Some ([], false, mkCv hel [] false true false, (1%nat, 0%nat))) by (vm_compute; reflexivity).
  assert (R := hstate_reach crowd h tr ltac:(vm_compute; reflexivity) E). rewrite E in P. clear E. cbn [option_map fst snd] in P. injection P as P1 P2 P3 P4 P5.
  assert (L : ulive 1 (served tr)) by (unfold ulive; congruence).
  exists h, tr. split; [exact R|]. split; [exact L|]. rewrite P3. split; [reflexivity|]. split; [reflexivity|]. split; [reflexivity|].
  intros tr' h' Hr Hp Hf. apply (C139_stuck _ h tr 1 tr' h' R L P2); auto. rewrite P1. intros [].
Qed.

(** A round in which an event is dropped. *)
Example C139_case : exists h tr h' o, hreach Props_UaTcp.zbuf h tr /\ h_step h (HNext true true [] false (Some 28%nat)) = Some (h', o) /\ o_lost o = [NData 1].
Proof.
  destruct (hstate (removelast crowd)) as [[h tr]|] eqn:E; [|vm_compute in E; discriminate E].
  assert (P : match hstate (removelast crowd) with Some (h, _) => option_map (fun x => o_lost (snd x)) (h_step h (HNext true true [] false (Some 28%nat))) | None => None end = Some [NData 1]) by (vm_compute; reflexivity).
  assert (R := hstate_reach (removelast crowd) h tr ltac:(vm_compute; reflexivity) E). rewrite E in P.
  destruct (h_step h _) as [[h' o]|] eqn:S; [|discriminate P]. exists h, tr, h', o. injection P as P. auto.
Qed.

(** * C140 *)

(** An expired timer has been or will be dealt with, unless its event was dropped. *)
Theorem C140_reported_partial b0 h tr u : hreach b0 h tr -> ulive u (served tr) -> n_tick (h_sk h u) = KOver -> tlost u tr = false -> In (NTimer u) (h_batch h).
Proof.
  intros R L K T. destruct (live_serving _ _ _ _ R L) as (c & Ec & Hst). destruct (reach_tick _ _ _ R u c Ec Hst K) as [X|X]; [exact X|congruence].
Qed.
(** Dealing with it ends the connection and gives its link back. *)
Theorem C140_reclaimed b0 h tr u rest aok tok early rerr w : hreach b0 h tr -> ulive u (served tr) -> h_batch h = NTimer u :: rest -> n_tick (h_sk h u) <> KRun ->
  exists h' o os, h_step h (HNext aok tok early rerr w) = Some (h', o) /\ o_seen o = [(EvTimer u, os)] /\ In (UFree u) os /\ o_lost o = [] /\ h_batch h' = rest.
Proof.
  intros R L Hb K. pose proof (hi_reach _ _ _ (hreach_inv _ _ _ R)) as UR. destruct (live_serving _ _ _ _ R L) as (c & Ec & Hst). destruct (timer_total _ _ _ _ UR L) as (En & v' & St).
  pose proof (conn_at_inv _ _ _ Ec) as [Hu Ec']. destruct (conn_inv _ _ u (reach_inv _ _ _ UR) Hu) as (d & Ed & HT & _). rewrite Ec' in Ed. injection Ed as <-.
  assert (Ha : t_timer c = Some (Some uaTimeout)) by (pose proof (to_st _ _ _ HT) as X; destruct (t_st c); [congruence|tauto|tauto]).
  cbn [h_step]. rewrite Hb. unfold h_timer. rewrite Ec, Ha. unfold give. cbn [h_srv h_sk h_wait h_batch]. rewrite St.
  assert (T : existsb is_uthrow (closing u (uchan u (served tr))) = false) by (destruct (uchan u (served tr)); reflexivity). rewrite T.
  assert (F : In (UFree u) (closing u (uchan u (served tr)))) by (destruct (uchan u (served tr)); cbn; auto).
  destruct (n_tick (h_sk h u)); [congruence| |]; (eexists _, _, _; split; [reflexivity|]; split; [reflexivity|]; split; [exact F|]; split; reflexivity).
Qed.

(** Thirty-two idle connections, one waiting client, and every expiry dropped: nothing is reclaimed and nobody is accepted any more, whatever the loop does, until a
    peer sends something. *)
Definition idle_run : list hev :=
  join 32 ++ [HConnect] ++ map (fun i => HTick (Z.of_nat i)) (seq 1 32) ++
  [HWait (NAccept :: map (fun i => NTimer (Z.of_nat i)) (seq 1 9)); next0; HWait (NAccept :: map (fun i => NTimer (Z.of_nat i)) (seq 10 9)); next0;
   HWait (NAccept :: map (fun i => NTimer (Z.of_nat i)) (seq 19 9)); next0; HWait (NAccept :: map (fun i => NTimer (Z.of_nat i)) (seq 28 5)); next0].
Definition lapsed (h : host) (u : Z) : bool :=
  match conn_at (h_srv h) u with Some c => negb (ust_eqb (t_st c) UInit) | None => false end && negb (n_edge (h_sk h u)) &&
  match n_tick (h_sk h u) with KOver => true | _ => false end.
Definition all_lapsed (h : host) : bool := forallb (lapsed h) uids.
Theorem C140_refuted : exists h tr, hreach Props_UaTcp.zbuf h tr /\ (0 < h_wait h)%nat /\ (forall u, 1 <= u <= 32 -> ulive u (served tr) /\ n_tick (h_sk h u) = KOver) /\
  forall tr' h', hrun h tr' h' -> (forall u, 1 <= u <= 32 -> no_event (disturbs u) tr') ->
    Forall (fun x => exists aok tok, x = (EvAccept false aok tok, [UThrow])) (served tr').
Proof.
  destruct (hstate idle_run) as [[h tr]|] eqn:E; [|vm_compute in E; discriminate E].
  assert (P : option_map (fun x => (h_batch (fst x), h_wait (fst x),
     all_lapsed (fst x))) (hstate idle_run)
      = Some ([], 1%nat, true)) by (vm_compute; reflexivity).
  assert (R := hstate_reach idle_run h tr ltac:(vm_compute; reflexivity) E). rewrite E in P. clear E. cbn [option_map fst snd] in P. injection P as P1 P2 P3.
  assert (F : forall u, 1 <= u <= 32 -> exists c, forgotten h u c).
  { intros u Hu. unfold all_lapsed in P3. rewrite forallb_forall in P3. specialize (P3 u). unfold lapsed in P3. rewrite andb_true_iff, andb_true_iff in P3. destruct P3 as [[X1 X2] X3].
    { unfold uids. apply in_map_iff. exists (Z.to_nat u). split; [lia|]. apply in_seq. unfold maxConn. lia. }
    destruct (conn_at (h_srv h) u) as [c|] eqn:Ec; [|discriminate]. exists c. unfold forgotten. rewrite P1. split; [exact Ec|]. split; [intros Y; rewrite Y in X1; discriminate|].
    split; [destruct (n_edge (h_sk h u)); [discriminate X2|reflexivity]|]. split; [destruct (n_tick (h_sk h u)); try discriminate X3; reflexivity|constructor]. }
  exists h, tr. split; [exact R|]. split; [lia|]. split.
  - intros u Hu. destruct (F u Hu) as (c & Ec & Hst & _ & Ht & _). split; [now apply (serving_live _ _ _ _ _ R Ec)|exact Ht].
  - intros tr' h' Hr Hp. exact (hopeless_run _ h tr' h' Hr tr R F Hp).
Qed.

Example C140_case : exists h tr, hreach Props_UaTcp.zbuf h tr /\ ulive 1 (served tr) /\ h_batch h = [NTimer 1] /\ n_tick (h_sk h 1) = KOver /\ tlost 1 tr = false.
Proof.
  pose (es := join 1 ++ [HTick 1; HWait [NTimer 1]]).
  destruct (hstate es) as [[h tr]|] eqn:E; [|vm_compute in E; discriminate E].
  assert (P : option_map (fun x => (h_batch (fst x), n_tick (h_sk (fst x) 1), tlost 1 (snd x), (g_starts (uview_of 1 (served (snd x))), g_frees (uview_of 1 (served (snd x)))))) (hstate es)
      = Some ([NTimer 1], KOver, false, (1%nat, 0%nat))) by (vm_compute; reflexivity).
  assert (R := hstate_reach es h tr ltac:(vm_compute; reflexivity) E). rewrite E in P. clear E. cbn [option_map fst snd] in P. injection P as P1 P2 P3 P4 P5.
  exists h, tr. unfold ulive. rewrite P4, P5. auto.
Qed.

(** * C141 *)

(** A waiting client is reported by every epoll_wait that does not return ten other events. *)
Theorem C141_reported h es : (0 < h_wait h)%nat -> may_return h es = true -> In NAccept es \/ length es = 10%nat.
Proof.
  intros Hw M. unfold may_return in M. apply andb_prop in M as [M C]. apply andb_prop in M as [M _]. apply andb_prop in M as [M _]. apply Nat.leb_le in M. unfold batchMax in M.
  unfold complete in C. apply orb_prop in C as [C|C].
  - right. apply negb_true_iff, Nat.ltb_ge in C. unfold batchMax in C. lia.
  - left. cbn [forallb ready] in C. apply andb_prop in C as [C _]. apply orb_prop in C as [C|C].
    + apply negb_true_iff, Nat.ltb_ge in C. lia.
    + apply existsb_exists in C as (x & Hi & Hx). destruct x; try discriminate. exact Hi.
Qed.
(** With a free link it is then accepted, by a connection serving nobody. *)
Theorem C141_accepted_partial b0 h tr rest early rerr w : hreach b0 h tr -> h_batch h = NAccept :: rest -> (links_used (h_srv h) < 32)%nat -> utotal unotimer (served tr) = 0%nat ->
  exists h' u, h_step h (HNext true true early rerr w) = Some (h', mkHo [(EvAccept true true true, [UArm u 30000000])] None []) /\
    1 <= u <= 32 /\ ~ ulive u (served tr) /\ h_wait h' = pred (h_wait h) /\ h_batch h' = rest.
Proof. apply accepted. Qed.
(** Without one the loop does not wait any more: every round throws, drops the rest of its events and changes nothing else. *)
Theorem C141_spins h rest aok tok early rerr w : h_batch h = NAccept :: rest -> links_used (h_srv h) = 32%nat ->
  h_step h (HNext aok tok early rerr w) = Some (mkH (h_srv h) (h_sk h) (h_wait h) [], mkHo [(EvAccept false aok tok, [UThrow])] None rest).
Proof. apply full_accept. Qed.

Example C141_case : exists h tr, hreach Props_UaTcp.zbuf h tr /\ h_batch h = [NAccept; NData 1] /\ links_used (h_srv h) = 32%nat /\ h_wait h = 1%nat /\ may_return (mkH (h_srv h) (h_sk h) (h_wait h) []) [] = false.
Proof.
  destruct (hstate (removelast crowd)) as [[h tr]|] eqn:E; [|vm_compute in E; discriminate E].
  assert (P : option_map (fun x => (h_batch (fst x), links_used (h_srv (fst x)), h_wait (fst x), may_return (mkH (h_srv (fst x)) (h_sk (fst x)) (h_wait (fst x)) []) [])) (hstate (removelast crowd))
      = Some ([NAccept; NData 1], 32%nat, 1%nat, false)) by (vm_compute; reflexivity).
  assert (R := hstate_reach (removelast crowd) h tr ltac:(vm_compute; reflexivity) E). rewrite E in P. clear E. cbn [option_map fst snd] in P. injection P as P1 P2 P3 P4.
  exists h, tr. auto.
Qed.

(** So the loop never waits in such a state. *)
Theorem C141_refuted : exists h tr, hreach Props_UaTcp.zbuf h tr /\ h_batch h = [] /\ (0 < h_wait h)%nat /\ links_used (h_srv h) = 32%nat /\
  forall es, may_return h es = true -> In NAccept es \/ length es = 10%nat.
Proof.
  destruct (hstate crowd) as [[h tr]|] eqn:E; [|vm_compute in E; discriminate E].
  assert (P : option_map (fun x => (h_batch (fst x), h_wait (fst x), links_used (h_srv (fst x)))) (hstate crowd) = Some ([], 1%nat, 32%nat)) by (vm_compute; reflexivity).
  assert (R := hstate_reach crowd h tr ltac:(vm_compute; reflexivity) E). rewrite E in P. clear E. cbn [option_map fst snd] in P. injection P as P1 P2 P3.
  exists h, tr. split; [exact R|]. split; [exact P1|]. split; [lia|]. split; [exact P3|]. intros es M. apply (C141_reported h es); [lia|exact M].
Qed.

Example C141_case_free : exists h tr, hreach Props_UaTcp.zbuf h tr /\ h_batch h = [NAccept] /\ links_used (h_srv h) = 31%nat /\ utotal unotimer (served tr) = 0%nat.
Proof.
  pose (es := join 31 ++ [HConnect; HWait [NAccept]]).
  destruct (hstate es) as [[h tr]|] eqn:E; [|vm_compute in E; discriminate E].
  assert (P : option_map (fun x => (h_batch (fst x), links_used (h_srv (fst x)), utotal unotimer (served (snd x)))) (hstate es) = Some ([NAccept], 31%nat, 0%nat)) by (vm_compute; reflexivity).
  assert (R := hstate_reach es h tr ltac:(vm_compute; reflexivity) E). rewrite E in P. clear E. cbn [option_map fst snd] in P. injection P as P1 P2 P3.
  exists h, tr. auto.
Qed.

(** * C142 *)

(** However long the Modbus server was full, a waiting client is served once a session ends, as long as accept(2) itself has not failed. *)
Theorem C142_recovers_partial b0 q0 other h tr : qreach b0 q0 other h tr -> no_failure tr -> v_acc (q_srv h) = true -> (0 < q_wait h)%nat -> (other + in_use tr < 32)%nat ->
  exists h' uid, q_step h (QAccept true) = Some (h', [(VAccept true true true, [TArm uid 30000000])]) /\ 0 <= uid < 256 /\ ~ live uid (qserved tr) /\ q_wait h' = pred (q_wait h).
Proof. apply full_recovers. Qed.
(** While it is full a waiting client costs a session id in every round, until none is left. *)
Theorem C142_costs b0 q0 other h tr aok : qreach b0 q0 other h tr -> no_failure tr -> v_acc (q_srv h) = true -> (0 < q_wait h)%nat -> (32 <= other + in_use tr)%nat ->
  (in_use tr + total throws_of (qserved tr) <= 256)%nat /\
  exists h', q_step h (QAccept aok) = Some (h', [(VAccept false false aok, if (in_use tr + total throws_of (qserved tr) <? 256)%nat then [TThrow] else [])]) /\ q_wait h' = q_wait h.
Proof. apply full_leaks. Qed.

(** 256 failures of accept(2) use up the ids: with every session, timer and link free, no waiting client is served any more. *)
Theorem C142_refuted : exists h tr, qreach Props_ModbusServer.zb Props_ModbusServer.zq 0 h tr /\ v_acc (q_srv h) = true /\ (0 < q_wait h)%nat /\ in_use tr = 0%nat /\
  forall h' tr' aok, qreach Props_ModbusServer.zb Props_ModbusServer.zq 0 h' (tr ++ tr') -> v_acc (q_srv h') = true -> (0 < q_wait h')%nat ->
    exists h2 e, q_step h' (QAccept aok) = Some (h2, [(e, [])]) /\ q_wait h2 = q_wait h'.
Proof.
  pose (es := QConnect :: repeat (QAccept false) 256).
  destruct (qstart (srv_new maxNumSession Props_ModbusServer.zb Props_ModbusServer.zq) 0 es) as [[h tr]|] eqn:E; [|vm_compute in E; discriminate E].
  assert (P : option_map (fun x => (v_acc (q_srv (fst x)), q_wait (fst x), in_use (snd x), total throws_of (qserved (snd x))))
     (qstart (srv_new maxNumSession Props_ModbusServer.zb Props_ModbusServer.zq) 0 es) = Some (true, 1%nat, 0%nat, 256%nat)) by (vm_compute; reflexivity).
  assert (R : qreach Props_ModbusServer.zb Props_ModbusServer.zq 0 h tr).
  { revert E. pose proof (@eq_refl _ (srv_new maxNumSession Props_ModbusServer.zb Props_ModbusServer.zq)) as E0. revert E0.
    generalize (srv_new maxNumSession Props_ModbusServer.zb Props_ModbusServer.zq) at 2 3 as o. intros o E0 E. refine (qstart_reach _ _ 0 o es h tr Props_ModbusServer.zmem _ E0 E).
    apply Forall_forall. intros e [<-|He]; [exact Logic.I|]. apply repeat_spec in He as ->. exact Logic.I. }
  rewrite E in P. clear E es. unfold option_map, fst, snd in P. assert (P1 : v_acc (q_srv h) = true) by congruence. assert (P2 : q_wait h = 1%nat) by congruence.
  assert (P3 : in_use tr = 0%nat) by congruence. assert (P4 : total throws_of (qserved tr) = 256%nat) by congruence. clear P.
  exists h, tr. split; [exact R|]. split; [exact P1|]. split; [rewrite P2; lia|]. split; [exact P3|]. intros h' tr' aok R' Ha Hw.
  apply (all_spent _ _ _ _ _ aok R' Ha Hw). unfold qserved. rewrite flat_map_app, total_app. fold (qserved tr). rewrite P4. lia.
Qed.

(** Thirty of the 32 timers and links belong to others; two sessions and a third client, which costs two ids; then a session ends. *)
Definition qfull : list qev := [QConnect; QConnect; QConnect; QAccept true; QAccept true; QAccept true; QAccept true].
Lemma qstate es h tr : Forall qev_ok es -> qstart (srv_new maxNumSession Props_ModbusServer.zb Props_ModbusServer.zq) 30 es = Some (h, tr) ->
  qreach Props_ModbusServer.zb Props_ModbusServer.zq 30 h tr.
Proof.
  pose proof (@eq_refl _ (srv_new maxNumSession Props_ModbusServer.zb Props_ModbusServer.zq)) as E. revert E. generalize (srv_new maxNumSession Props_ModbusServer.zb Props_ModbusServer.zq) at 2 3 as o.
  intros o E Ok H. exact (qstart_reach _ _ 30 o es h tr Props_ModbusServer.zmem Ok E H).
Qed.
Definition quse (x : mhost * qtrace) := (v_acc (q_srv (fst x)), q_wait (fst x), in_use (snd x), total throws_of (qserved (snd x)), existsb (fun y => match fst y with QAccept false => true | _ => false end) (snd x)).
Lemma no_failure_of tr : existsb (fun y : qev * list (vev * list sout) => match fst y with QAccept false => true | _ => false end) tr = false -> no_failure tr.
Proof.
  intros H x Hx E. assert (existsb (fun y : qev * list (vev * list sout) => match fst y with QAccept false => true | _ => false end) tr = true); [|congruence].
  apply existsb_exists. exists x. rewrite E. auto.
Qed.
Example C142_case_full : exists h tr, qreach Props_ModbusServer.zb Props_ModbusServer.zq 30 h tr /\ no_failure tr /\ v_acc (q_srv h) = true /\ q_wait h = 1%nat /\
  in_use tr = 2%nat /\ total throws_of (qserved tr) = 2%nat.
Proof.
  destruct (qstart (srv_new maxNumSession Props_ModbusServer.zb Props_ModbusServer.zq) 30 qfull) as [[h tr]|] eqn:E; [|vm_compute in E; discriminate E].
  assert (P : option_map quse (qstart (srv_new maxNumSession Props_ModbusServer.zb Props_ModbusServer.zq) 30 qfull) = Some (true, 1%nat, 2%nat, 2%nat, false)) by (vm_compute; reflexivity).
  assert (R := qstate qfull h tr ltac:(repeat constructor) E). rewrite E in P. clear E. unfold quse in P. cbn [option_map fst snd] in P. injection P as P1 P2 P3 P4 P5.
  exists h, tr. split; [exact R|]. split; [apply no_failure_of, P5|]. auto.
Qed.
Example C142_case_free : exists h tr, qreach Props_ModbusServer.zb Props_ModbusServer.zq 30 h tr /\ no_failure tr /\ v_acc (q_srv h) = true /\ q_wait h = 1%nat /\
  in_use tr = 1%nat /\ total throws_of (qserved tr) = 2%nat.
Proof.
  destruct (qstart (srv_new maxNumSession Props_ModbusServer.zb Props_ModbusServer.zq) 30 (qfull ++ [QOther (VTimer 1)])) as [[h tr]|] eqn:E; [|vm_compute in E; discriminate E].
  assert (P : option_map quse (qstart (srv_new maxNumSession Props_ModbusServer.zb Props_ModbusServer.zq) 30 (qfull ++ [QOther (VTimer 1)])) = Some (true, 1%nat, 1%nat, 2%nat, false)) by (vm_compute; reflexivity).
  assert (R := qstate (qfull ++ [QOther (VTimer 1)]) h tr ltac:(repeat constructor) E). rewrite E in P. clear E. unfold quse in P. cbn [option_map fst snd] in P. injection P as P1 P2 P3 P4 P5.
  exists h, tr. split; [exact R|]. split; [apply no_failure_of, P5|]. auto.
Qed.

Print Assumptions C138_prefix.
Print Assumptions C138_all_partial.
Print Assumptions C138_refuted.
Print Assumptions C139_causes_partial.
Print Assumptions C139_stuck.
Print Assumptions C139_refuted.
Print Assumptions C140_reported_partial.
Print Assumptions C140_reclaimed.
Print Assumptions C140_refuted.
Print Assumptions C141_reported.
Print Assumptions C141_accepted_partial.
Print Assumptions C141_spins.
Print Assumptions C141_refuted.
Print Assumptions C142_recovers_partial.
Print Assumptions C142_refuted.
Print Assumptions C142_costs.
