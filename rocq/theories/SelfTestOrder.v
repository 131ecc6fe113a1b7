(** The self-test: what is answered, and in which order. *)
From Verif Require Import Base QueueModel QueueSpec QueueProofs PoolModel PoolSpec PoolProofs MsgStorageModel ModbusCodecModel ModbusCodecSpec ModbusCodecProofs
  ModbusClientModel ModbusClientSpec ModbusStoreProofs ModbusClientProofs ModbusClientRuns ModbusClientFacts
  ModbusServerModel ModbusServerSpec ModbusServerProofs ModbusServerRuns ModbusServerFacts ModbusServerWire ModbusCompModel ModbusCompSpec ModbusCompRuns ModbusNetModel ModbusNetSpec
  ModbusNetProofs ModbusNetRuns ModbusNetFacts ControllerModel AppModel SelfTestModel SelfTestSpec SelfTestTable SelfTestCore SelfTestLink SelfTestRound SelfTestWire SelfTestProofs.
Local Open Scope Z_scope.

Section Order.
Context (g : list Z) (Hg : octets g).
Definition full : list crsp := map (ans g) ord.
(** The responses [rs] sent so far, and [n] batches. *)
Definition tally (c : core) (rs : list crsp) (n : nat) : Prop :=
  exists k, match m_st (o_mt c) with
            | MRun => n = S k /\ rs = concat (repeat full k) ++ firstn (Z.to_nat (m_count (o_mt c))) full ++ answers_in (o_up c)
            | _ => n = k /\ rs = concat (repeat full k)
            end.
Definition batches (l : list amsg) : nat := length (filter is_batch l).

Lemma rsps_app l l' : answers_in (l ++ l') = answers_in l ++ answers_in l'.
Proof. apply flat_map_app. Qed.
Lemma rsps_rsp b : answers_in (map (rsp g) b) = map (ans g) b.
Proof. induction b as [|i b IH]; [reflexivity|]. cbn. f_equal. exact IH. Qed.
Lemma batches_up l : all is_up l -> batches l = 0%nat.
Proof. unfold batches. induction 1 as [|m l Hm _ IH]; cbn; [reflexivity|]. destruct m; try discriminate Hm; exact IH. Qed.
Lemma no_rsps l : all (fun m => negb (is_up m)) l -> answers_in l = [].
Proof. induction 1 as [|m l Hm _ IH]; [reflexivity|]. destruct m; try exact IH; discriminate Hm. Qed.

Definition wants (u : Z) (i : nat) (m : amsg) : Prop :=
  exists t f ad st n nb da, m = GFromModbus (TvReq (mkMreq 0 u t f st n nb da)) /\ (i < 16)%nat /\ wired i = true /\ forwards u (i_req (itm g i)) (TReq u t f ad st n nb da).
Lemma up_shape c n : INV g c n -> m_st (o_mt c) = MRun -> exists wr a b r rest, o_mt c = mkMt MRun None (Z.of_nat (length a)) (cases_of g wr) /\ a ++ b ++ r = ord /\
  (forall i, In i b -> needs i = true -> wr i = true) /\ o_up c = map (rsp g) b ++ rest /\ (rest = [] \/ exists u i m, rest = [m] /\ wants u i m).
Proof.
  intros [Hc|Hb] Hm.
  - destruct Hc as [K1 K2 K3 K4 K5 K6 K7 K8|K1 K2 K3 K4 K5 K6 K7 K8|K1 K2 K3 K4 K5 K6 K7 K8|cl d v HL K1 K2 K3|cl d v wr HL K1 K2 K3|cl d v wr k HL K1 K2 K3 K4 K5];
    rewrite K1 in Hm; try discriminate Hm. exists wr, [], [], ord, []. rewrite K1. repeat split; auto.
  - destruct Hb as [d b1 q1 v tr u wr a b r HR Hne B1 B2 B3 B4 B5 B6 B7|d b1 q1 v tr u wr a b i r HR W B1 B2 B3 B4 B5|
    d b1 q1 v tr u wr a b i r os t f ad st nn nb da HR W B1 B2 B3 B4 B5 B6 B7 B8|
    d b1 q1 v tr u wr a i r os t f ad st nn nb da HR W B0 B1 B2 B3 B4 B5 B6 B7 B8|d b1 q1 v tr u wr a i r q rx HR W N15 Hw B1 B2 B3 B4 B5 B6 B7 B8 B9 B10 B11|
    d b1 q1 v tr u wr a r HR B1 B2 B3 B4 B5 B6]; pose proof HR as [R1 R2 R3 R4 R5 R6 R7 R8 R9 R10 R11 R12].
    + exists wr, a, b, r, []. rewrite app_nil_r. auto 10.
    + exists wr, a, b, (i :: r), []. rewrite app_nil_r. auto 10.
    + exists wr, a, b, (i :: r). eexists. do 4 (split; [eassumption|]). right. exists u, i. eexists. split; [reflexivity|]. do 7 eexists. split; [reflexivity|].
      split; [eapply (ord_in a b (i :: r)); [exact R5|cbn; auto]|]. eauto.
    + exists wr, a, [], (i :: r), []. auto 10.
    + exists wr, a, [], (i :: r), []. auto 10.
    + exists wr, a, [], (15%nat :: r), []. auto 10.
Qed.
Lemma up_none c n : INV g c n -> m_st (o_mt c) <> MRun -> answers_in (o_up c) = [].
Proof.
  intros [Hc|Hb] Hm.
  - destruct Hc as [K1 K2 K3 K4 K5 K6 K7 K8|K1 K2 K3 K4 K5 K6 K7 K8|K1 K2 K3 K4 K5 K6 K7 K8|cl d v HL K1 K2 K3|cl d v wr HL K1 K2 K3|cl d v wr k HL K1 K2 K3 K4 K5];
    rewrite ?K2, ?K3; reflexivity.
  - destruct (busy_running g c n Hb) as (d & b1 & q1 & v & tr & u & w & wr & a & b & r & HR & _). rewrite (rn_mt _ _ _ _ _ _ _ _ _ _ _ _ _ HR) in Hm. now elim Hm.
Qed.

Lemma mod_tally c e x down c' outs n n' rs k : INV g c n -> co_mod c e x down = Some (c', outs) -> INV g c' n' -> tally c rs k -> tally c' (rs ++ answers_in outs) (k + batches outs).
Proof.
  intros HI H HI' (j & T). unfold co_mod in H. destruct (mb_step (o_mb c) x) as [[b os]|]; [|discriminate]. destruct (m_ends os); [discriminate|]. injection H as <- <-.
  rewrite (batches_up _ (m_sends_up os)), Nat.add_0_r. exists j. cbn [o_mt o_up].
  destruct (m_st (o_mt c)) eqn:Em.
  1, 2, 4: pose proof (up_none _ _ HI' ltac:(cbn [o_mt]; congruence)) as X; cbn [o_up] in X; rewrite rsps_app in X; apply app_eq_nil in X as [_ X]; rewrite X, app_nil_r; exact T.
  destruct T as [-> ->]. split; [reflexivity|]. rewrite rsps_app, !app_assoc. reflexivity.
Qed.

Lemma firstn_pre {A} (a l : list A) : firstn (length a) (a ++ l) = a.
Proof. rewrite firstn_app, Nat.sub_diag, firstn_all. cbn. apply app_nil_r. Qed.
Lemma full_take (a b : list nat) : a ++ b = ord -> firstn (length a) full = map (ans g) a.
Proof. intros H. unfold full. rewrite <- H, map_app. rewrite <- (map_length (ans g) a). apply firstn_pre. Qed.

Lemma step_tally c e n c' outs n' rs k : INV g c n -> co_legit c e -> co_next c e = Some (c', outs) -> INV g c' n' -> tally c rs k -> tally c' (rs ++ answers_in outs) (k + batches outs).
Proof.
  intros HI HL H HI' HT. destruct e as [| |x|x].
  - destruct HL as (t & up & Hup). destruct (m_st (o_mt c)) eqn:Em.
    3:{ destruct (up_shape c n HI Em) as (wr & a & b & r & rest & Hmt & Hord & Hwr & Hu & Hrest). destruct HT as (j & T). rewrite Em in T. destruct T as [-> ->].
        destruct b as [|i b].
        - destruct Hrest as [->|(u & i & m & -> & (t1 & f & ad & st & n1 & nb & da & -> & Hi & W & F))]; [cbn in Hu; congruence|]. cbn [map List.app] in Hu.
          rewrite (ctl_serve g Hg c [] wr _ u i t1 f ad st n1 nb da Hmt Hi W Hu F) in H. injection H as <- <-.
          exists j. cbn [o_mt m_st m_count o_up]. rewrite Hmt, Hu. cbn. rewrite !app_nil_r. split; [lia|reflexivity].
        - cbn [map List.app] in Hu. assert (Hwi : needs i = true -> wr i = true) by (apply Hwr; now left).
          destruct (list_eq_dec Nat.eq_dec (b ++ r) []) as [E|E].
          + apply app_eq_nil in E as [-> ->]. change (a ++ [i] = ord) in Hord. rewrite (ctl_last g Hg c _ wr a i Hmt Hu Hord Hwi) in H. injection H as <- <-. exists (S j). cbn [o_mt m_st].
            split; [cbn; lia|]. pose proof (up_none _ _ HI' ltac:(discriminate)) as X. cbn [o_up List.app map] in X.
            rewrite Hmt, Hu. cbn [m_count]. rewrite Nat2Z.id, (full_take a [i] Hord). cbn [answers_in flat_map rsp List.app]. cbn [map List.app]. fold (answers_in rest). rewrite X, !app_nil_r.
            change [ans g i] with (map (ans g) [i]). rewrite <- map_app, Hord. fold full. change (repeat full (S j)) with (full :: repeat full j). rewrite repeat_cons, concat_app. cbn [concat]. rewrite app_nil_r. reflexivity.
          + rewrite (ctl_more g Hg c _ wr a i b r Hmt Hu Hord Hwi E) in H. injection H as <- <-. exists j. cbn [o_mt m_st m_count o_up].
            rewrite Hmt, Hu. cbn [m_count]. rewrite !Nat2Z.id, (full_take a (i :: b ++ r) Hord).
            rewrite (full_take (a ++ [i]) (b ++ r)) by (rewrite <- app_assoc; exact Hord). rewrite map_app.
            cbn [batches filter length answers_in flat_map rsp map]. rewrite app_nil_r. split; [lia|]. fold (answers_in (map (rsp g) b ++ rest)). rewrite <- !app_assoc. reflexivity. }
    all: destruct HI as [Hc|Hb]; [|destruct (busy_running g c n Hb) as (d & b1 & q1 & v & tr & u & w & wr & a & b & r & HR & _);
      rewrite (rn_mt _ _ _ _ _ _ _ _ _ _ _ _ _ HR) in Em; discriminate Em].
    all: destruct Hc as [K1 K2 K3 K4 K5 K6 K7 K8|K1 K2 K3 K4 K5 K6 K7 K8|K1 K2 K3 K4 K5 K6 K7 K8|cl d v HL K1 K2 K3|cl d v wr HL K1 K2 K3|cl d v wr j HL K1 K2 K3 K4 K5];
      rewrite K1 in Em; try discriminate Em; try congruence; destruct HT as (j0 & T); rewrite K1 in T; cbn in T; destruct T as [-> ->].
    + unfold co_next, co_ctl in H. rewrite K3, K1 in H. cbn in H. injection H as <- <-. exists j0. cbn. rewrite app_nil_r. split; [lia|reflexivity].
    + unfold co_next, co_ctl in H. rewrite K2, K1 in H. cbn in H. injection H as <- <-. exists j0. cbn. rewrite !app_nil_r. split; [lia|reflexivity].
  - cbn in HL. destruct HI as [Hc|Hb]; [|destruct (busy_running g c n Hb) as (d & b1 & q1 & v & tr & u & w & wr & a & b & r & HR & _);
      rewrite (rn_mt _ _ _ _ _ _ _ _ _ _ _ _ _ HR) in HL; now elim HL].
    destruct Hc as [K1 K2 K3 K4 K5 K6 K7 K8|K1 K2 K3 K4 K5 K6 K7 K8|K1 K2 K3 K4 K5 K6 K7 K8|cl d v HLk K1 K2 K3|cl d v wr HLk K1 K2 K3|cl d v wr j HLk K1 K2 K3 K4 K5];
      rewrite K1 in HL; cbn in HL; try congruence.
    destruct HT as (j0 & T). rewrite K1 in T. cbn in T. destruct T as [-> ->].
    unfold co_next, co_ctl in H. rewrite K1 in H. cbn in H. injection H as <- <-. exists j0. cbn. rewrite K2. cbn. rewrite !app_nil_r. split; [lia|reflexivity].
  - unfold co_next in H. destruct (o_down c) as [|m down]; [discriminate|]. exact (mod_tally _ _ _ _ _ _ _ _ _ _ HI H HI' HT).
  - unfold co_next in H. exact (mod_tally _ _ _ _ _ _ _ _ _ _ HI H HI' HT).
Qed.

(** * The application *)
Definition answers (w : world) (rs : list crsp) (k : nat) : Prop := exists mt n, WI w mt /\ INV g (proj w mt) n /\ tally (proj w mt) rs k.
Lemma answers_step w e s rs k : answers w rs k -> fine w e -> astep g (w_app w) e = ANext s -> answers (settle w e s) (rs ++ answers_in (sent_by e s)) (k + batches (sent_by e s)).
Proof.
  intros (mt & n & HW & HI & HT) Hf Hs. destruct (world_step g w mt e HW Hf) as [U|[D|(ce & F & L & S)]]; [|congruence|].
  - destruct U as (s' & Ea & HW' & Ep & Hm & Hq). rewrite Hs in Ea. injection Ea as <-. exists mt, n. rewrite Ep. split; [auto|]. split; [auto|].
    destruct (not_down_quiet _ Hq) as [Q _]. unfold batches. rewrite Q. rewrite no_rsps.
    + cbn. now rewrite app_nil_r, Nat.add_0_r.
    + eapply Forall_impl; [|exact Hq]. intros m X. cbn in X. destruct (is_up m); [rewrite orb_true_r in X; discriminate|reflexivity].
  - destruct (inv_step g Hg _ n ce HI L F) as (c' & outs & n' & En & HI' & _). destruct (S c' outs En) as (s' & Ea & HW' & Ep & Hm & Eo).
    rewrite Hs in Ea. injection Ea as <-. exists (o_mt c'), n'. rewrite Ep. split; [auto|]. split; [auto|]. rewrite Eo. exact (step_tally _ _ _ _ _ _ _ _ HI L En HI' HT).
Qed.
Lemma healthy_answers w h : healthy g w h -> h = [] /\ w = world0 \/ answers w (answers_in (flat_map snd h)) (rounds h).
Proof.
  induction 1 as [|w h e w' Hh IH Hf Hs]; [auto|]. right. unfold wstep in Hs. destruct (astep g (w_app w) e) as [| | |s] eqn:Ea; try discriminate. injection Hs as <-.
  unfold rounds. rewrite flat_map_app, filter_app, app_length, rsps_app. cbn [flat_map snd]. rewrite app_nil_r. cbn [settle w_app].
  destruct IH as [[-> ->]|IH].
  - destruct e as [st k|r k|tok|acc lis|x| |x]; cbn [fine] in Hf; try contradiction; try discriminate Ea.
    + destruct r; discriminate Ea.
    + subst tok. cbn in Ea. injection Ea as <-. exists (m_new g), 100. split; [constructor; cbn; try discriminate; auto; repeat constructor|].
      split; [left; rewrite settle_quiet by (cbn; auto); apply cc_init; reflexivity|]. exists 0%nat. cbn. auto.
    + exfalso. destruct x; try contradiction; destruct Hf as (_ & y & Hy & _); discriminate Hy.
  - exact (answers_step _ _ _ _ _ IH Hf Ea).
Qed.
Lemma healthy_order w h : healthy g w h -> exists k part, answers_in (flat_map snd h) = concat (repeat full k) ++ part /\
  ((rounds h = k /\ part = []) \/ (rounds h = S k /\ exists rest, part ++ rest = full)).
Proof.
  intros Hh. destruct (healthy_answers w h Hh) as [[-> ->]|(mt & n & HW & HI & (k & T))]; [exists 0%nat, []; cbn; auto|].
  destruct (m_st (o_mt (proj w mt))) eqn:Em; destruct T as [T1 T2].
  1, 2, 4: exists k, []; rewrite app_nil_r; auto.
  destruct (up_shape _ n HI Em) as (wr & a & b & r & rest & Hmt & Hord & _ & Hu & Hrest).
  rewrite Hmt, Hu in T2. cbn [m_count] in T2. rewrite Nat2Z.id, (full_take a (b ++ r) Hord), rsps_app, rsps_rsp in T2.
  assert (answers_in rest = []) as E by (destruct Hrest as [->|(u & i & m & -> & (t1 & f & ad & st & n1 & nb & da & -> & _))]; reflexivity).
  rewrite E, app_nil_r in T2. exists k. eexists. split; [exact T2|]. right. split; [exact T1|]. exists (map (ans g) r). unfold full. now rewrite <- Hord, !map_app, app_assoc.
Qed.
Lemma full_round : full = round_of g.
Proof.
  unfold full, ord, ans, round_of. cbn [map]. unfold ans_data. rewrite (g_part g Hg 1780 240), (g_part g Hg 20 250), (g_len g Hg 2) by lia. reflexivity.
Qed.
End Order.
