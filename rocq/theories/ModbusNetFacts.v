(** The facts behind the theorems of Props_ModbusNet. *)
From Verif Require Import Base QueueModel QueueSpec QueueProofs PoolModel PoolSpec PoolProofs MsgStorageModel ModbusCodecModel ModbusCodecSpec ModbusCodecProofs
  ModbusClientModel ModbusClientSpec ModbusStoreProofs ModbusClientProofs ModbusClientRuns ModbusClientFacts
  ModbusServerModel ModbusServerSpec ModbusServerProofs ModbusServerRuns ModbusServerFacts ModbusServerWire ModbusCompModel ModbusNetModel ModbusNetSpec ModbusNetProofs ModbusNetRuns.
Local Open Scope Z_scope.

Lemma f2_nth {A B} (R : A -> B -> Prop) l m i x y : Forall2 R l m -> nth_error l i = Some x -> nth_error m i = Some y -> R x y.
Proof. intros H. revert i. induction H; intros [|i] Hx Hy; cbn in *; try discriminate; [congruence|eauto]. Qed.
Lemma combine_nth_error {A B} (l : list A) (m : list B) i x y : nth_error l i = Some x -> nth_error m i = Some y -> nth_error (combine l m) i = Some (x, y).
Proof. revert m i. induction l as [|a l IH]; intros [|b m] [|i] Hx Hy; cbn in *; try discriminate; [congruence|eauto]. Qed.

Lemma phase_sizes uid w vw c2s s2c cur fx ax r : phase uid w vw c2s s2c cur fx ax r ->
  (length ax <= length fx <= length cur)%nat /\ (length cur <= 1)%nat /\ (forall it m, cur = [it] -> fx = [m] -> forwards uid (i_req (stored it)) m).
Proof. intros H. destruct H; cbn; (split; [lia|]); (split; [lia|]); intros ? ? E1 E2; try discriminate; injection E1 as <-; injection E2 as <-; assumption. Qed.

Lemma nth_app_l {A} (l m : list A) i : (i < length l)%nat -> nth_error (l ++ m) i = nth_error l i.
Proof. apply nth_error_app1. Qed.

Lemma sublist_in {A} (l m : list A) x : sublist l m -> In x l -> In x m.
Proof. intros H. induction H; cbn; intuition. Qed.

Theorem in_step_all s h : nreach calm s h ->
  n_up s = true /\ exists its, sublist its (submitted_in h) /\ length its = length (transmitted (cli_hist h)) /\
    in_step (n_uid s) its (forwarded_in (n_uid s) h) (sent_in (n_uid s) h) (delivered_in h).
Proof.
  intros H. apply calm_ni in H as (b1 & q1 & d & trs & done & cur & todo & f0 & fx & a0 & ax & r & Hup & HC & HS & [] & HP).
  split; [exact Hup|]. exists (done ++ cur). split; [eapply sublist_prefix; eauto|]. split; [auto|].
  pose proof (f2_length _ _ _ bk_f) as Lf. destruct (phase_sizes _ _ _ _ _ _ _ _ _ HP) as (S1 & S2 & S3).
  rewrite bk_fwd, bk_sent. unfold in_step. rewrite !app_length. split; [lia|]. split; [lia|]. split.
  - intros i it m Hi Hm. destruct (Nat.lt_ge_cases i (length done)) as [Hlt|Hge].
    + rewrite nth_error_app1 in Hi, Hm by lia. exact (f2_nth _ _ _ _ _ _ bk_f Hi Hm).
    + rewrite nth_error_app2 in Hi, Hm by lia. rewrite <- Lf in Hm.
      destruct cur as [|c [|]]; cbn in S2; try lia; [destruct (i - length done)%nat; discriminate|].
      destruct (i - length done)%nat as [|k]; [|destruct k; discriminate]. cbn in Hi. injection Hi as ->.
      destruct fx as [|f [|]]; cbn in S1; try lia; [discriminate|]. cbn in Hm. injection Hm as ->.
      apply forwards_stored; auto. pose proof (cv_ok _ _ _ _ HC) as X. now inversion X.
  - intros i it p o Hi Hp Ho. assert (Hlt : (i < length done)%nat).
    { rewrite <- bk_d. apply nth_error_Some. congruence. }
    rewrite nth_error_app1 in Hi, Hp by lia.
    exact (f2_nth _ _ _ _ _ _ bk_told Hi (combine_nth_error _ _ _ _ _ Hp Ho)).
Qed.

(** * Progress *)
Lemma cli_event_some s e d d' os : RC (n_cli s) d -> ev_ok e -> enabled d e = true -> lc_step d e = Some (d', os) ->
  exists c', RC c' d' /\ cli_event s e = Some (mkNet c' (n_srv s) (n_uid s) (n_c2s s ++ cli_octets os) (n_s2c s) (n_up s && negb (cli_closes os)), os).
Proof.
  intros HC Hok En Es. unfold cli_event. rewrite (enabled_sim _ _ _ HC), En. rewrite <- (enabled_sim _ _ _ HC) in En.
  assert (Hs : req_sane e) by (pose proof (ev_sane [e] ltac:(auto)) as P; now inversion P).
  pose proof (c_step_sim _ d e HC Hs En) as P. unfold lc_step in Es. rewrite Es in P. unfold Ro in P. unfold ac_step.
  destruct (c_step as_empty as_front as_pop as_push (n_cli s) e) as [[c' o2]|]; [|contradiction]. destruct P as [P ->]. eauto.
Qed.
Lemma srv_event_some s e v' os : srv_enabled (n_srv s) e = true -> srv_step (n_srv s) e = Some (v', os) ->
  srv_event s e = Some (mkNet (n_cli s) v' (n_uid s) (n_c2s s) (n_s2c s ++ srv_octets (n_uid s) os) (n_up s && negb (srv_closes (n_uid s) os)), os).
Proof. intros En Es. unfold srv_event. now rewrite En, Es. Qed.

Lemma readable_all bs room : bs <> [] -> Z.of_nat (length bs) <= room -> readable bs bs room = true.
Proof.
  intros Hne Hl. unfold readable. apply andb_true_iff. split; [|lia]. apply andb_true_iff. split; [destruct bs; [congruence|reflexivity]|].
  clear. induction bs; cbn; [auto|]. now rewrite Z.eqb_refl.
Qed.

Lemma told_stored it it' p o : stored it = stored it' -> told it p o -> told it' p o.
Proof.
  intros E. assert (E1 : i_client it = i_client it') by (apply (f_equal i_client) in E; exact E).
  apply (f_equal i_req) in E. assert (E2 : q_tid (i_req it) = q_tid (i_req it')) by (apply (f_equal q_tid) in E; exact E).
  assert (E3 : q_func (i_req it) = q_func (i_req it')) by (apply (f_equal q_func) in E; exact E).
  unfold told, error_for. rewrite E1, E2, E3. auto.
Qed.

Lemma wr_pairs_firstn n data : forall k i, (i + 2 * k <= n)%nat -> wr_pairs k i (firstn n data) = wr_pairs k i data.
Proof.
  assert (N : forall i, (i < n)%nat -> nth_error (firstn n data) i = nth_error data i).
  { intros i Hi. rewrite <- (firstn_skipn n data) at 2. destruct (Nat.lt_ge_cases i (length (firstn n data))) as [Hl|Hl].
    - now rewrite nth_error_app1.
    - rewrite firstn_length in Hl. rewrite (proj2 (nth_error_None _ _)) by (rewrite firstn_length; lia).
      symmetry. apply nth_error_None. rewrite firstn_skipn. lia. }
  induction k as [|k IH]; intros i Hi; cbn [wr_pairs]; [reflexivity|]. rewrite !N by lia. rewrite IH by lia. reflexivity.
Qed.
Lemma encode_stored it : req_ok (i_req it) -> encode_req (i_req (stored it)) = encode_req (i_req it).
Proof.
  intros (_ & _ & _ & _ & _ & H6 & _ & H8). unfold is_u16 in H6. unfold encode_req.
  cbn [stored i_req q_tid q_func q_addr q_start q_nitems q_nbytes q_data].
  destruct (negb (q_addr (i_req it) <=? maxAddr)); [reflexivity|].
  destruct (is_read_bits (q_func (i_req it)) || is_read_regs (q_func (i_req it))); [reflexivity|].
  destruct (is_single (q_func (i_req it))).
  - destruct (negb (q_nitems (i_req it) =? 0)); [reflexivity|].
    destruct (Z.eqb_spec (q_nbytes (i_req it)) 2) as [E|]; cbn [negb]; [|reflexivity]. rewrite E in *.
    destruct (q_data (i_req it)) as [|a [|b l]]; cbn in H8; try lia. reflexivity.
  - destruct (is_multi (q_func (i_req it))); [|reflexivity].
    destruct (Z.eqb_spec (q_nbytes (i_req it)) (q_nitems (i_req it) * 2)) as [E|]; cbn [negb]; [|reflexivity].
    rewrite wr_pairs_firstn; [reflexivity|]. unfold pairs. lia.
Qed.

Lemma stores_eq c d d' : RC c d -> RC c d' -> c_store d = c_store d'.
Proof. intros H H'. apply held_rc in H, H'. congruence. Qed.

Lemma serve s h it fr p : nreach calm s h -> idle h -> ev_ok (EReq it) -> q_nbytes (i_req it) <= 260 -> encode_req (i_req it) = EncOk fr ->
  reply_ok p -> p_session p = n_uid s -> p_tid p = q_tid (i_req it) mod 65536 -> p_ok p = true -> p_nbytes p <= 260 ->
  expressible (q_func (i_req it)) p = true ->
  exists s' h' bs m o, nreach calm s' (h ++ h') /\ idle (h ++ h') /\ n_uid s' = n_uid s /\
    map ev_of h' = [NCli (EReq it); NCli (ETimer true true); NToSrv fr; NSrv (VReply p true); NToCli bs; NCli (ETimer true true)] /\
    forwarded_in (n_uid s) h' = [m] /\ forwards (n_uid s) (i_req it) m /\ delivered_in h' = [o] /\ told it p o.
Proof.
  intros HR Hidle Hit Hn260 He Hp Hps Hpt Hpo Hpn Hex. cbn in Hit.
  rewrite <- (encode_stored it Hit) in He. pose proof (encode_req_wf _ _ (stored_ok it Hit) He) as [(Hfb & Hfl & _) Hfl2].
  assert (Hne : fr <> []) by (intros ->; cbn in Hfl; lia).
  (* idle *)
  destruct (calm_ni _ _ HR) as (b1 & q1 & d & trs & done & cur & todo & f0 & fx & a0 & ax & r & Hup & HC & HS & HB & HP).
  unfold idle in Hidle. assert (Hst : c_st d = CConnected).
  { pose proof (cv_armed _ _ _ _ HC) as X. rewrite Hidle in X. pose proof (cv_up _ _ _ _ HC). destruct (c_st d); try discriminate; reflexivity. }
  pose proof (cv_ci _ _ _ _ HC) as HI.
  assert (Hw0 : wire_after None (cli_hist h) = None).
  { pose proof (ci_wire _ _ HI) as X. destruct (wire_after None (cli_hist h)); [|auto]. destruct X. congruence. }
  rewrite Hw0 in *. destruct (idle_phase _ _ _ _ _ _ _ _ _ HP eq_refl) as (P1 & P2 & P3 & P4 & -> & -> & -> & ->).
  assert (Hs0 : c_store d = []) by (apply (ci_idle _ _ HI); now rewrite Hst).
  assert (Hn : length (forwarded_in (n_uid s) h) = length (replied_in (n_uid s) h)).
  { rewrite (bk_fwd _ _ _ _ _ _ _ _ _ _ HB), app_nil_r, <- (f2_length _ _ _ (bk_f _ _ _ _ _ _ _ _ _ _ HB)), (bk_rep _ _ _ _ _ _ _ _ _ _ HB). lia. }
  clear HB HP.
  (* 1: the request *)
  assert (En1 : enabled d (EReq it) = true) by (cbn; destruct Hit as (_ & _ & _ & _ & _ & _ & _ & X); lia).
  destruct (cli_req_takes d _ it HI (cv_up _ _ _ _ HC) Hit) as (d1 & os1 & Es1 & St1 & Cs1); [rewrite Hs0; cbn; lia|auto|].
  destruct Cs1 as [Cs1|Cs1]; [congruence|]. rewrite Hs0 in St1. cbn [app] in St1.
  destruct (cli_req d _ it d1 os1 HI (cv_up _ _ _ _ HC) Es1) as (K1 & K2 & K3 & K4 & K5 & K6 & _).
  pose proof (sf_inv _ _ _ _ _ (step_ok _ _ _ _ _ HI (Hit : ev_ok (EReq it)) En1 Es1)) as HI1. cbn [wire_next] in HI1.
  destruct (cli_event_some s (EReq it) d d1 os1 (cv_rc _ _ _ _ HC) Hit En1 Es1) as (c1 & RC1 & Ev1).
  rewrite K4, K5, P1, P2, Hup in Ev1. cbn [app andb negb] in Ev1.
  set (s1 := mkNet c1 (n_srv s) (n_uid s) [] [] true) in *.
  set (x1 := (NCli (EReq it), os1, []) : nev * list cout * list sout).
  assert (R1 : nreach calm s1 (h ++ [x1])) by (eapply nr_step; [exact HR|exact Hit|exact I|cbn [n_step plain_cli]; now rewrite Ev1]).
  assert (A1 : armed_for (cli_hist (h ++ [x1])) = Some 10000).
  { rewrite cli_hist_snoc, armed_app. cbn [cli_hist flat_map ev_of cli_of x1 fst snd app fold_left]. rewrite Hidle.
    rewrite Hst in K6. cbn [timer_of] in K6. rewrite K6, Cs1. reflexivity. }
  assert (W1 : wire_after None (cli_hist (h ++ [x1])) = None) by (rewrite cli_hist_snoc, wire_app, Hw0; reflexivity).
  (* 2: the transmission *)
  assert (Fd1 : c_fd d1 = true) by (rewrite K1; apply HC).
  destruct (cli_timer_defined d1 _ true (stored it) [] fr HI1 Cs1 Fd1 St1 He) as (d2 & os2 & Es2).
  destruct (cli_timer d1 _ true d2 os2 HI1 Cs1 Fd1 Es2) as (L1 & L2 & L3 & L4). rewrite St1, He in L4. destruct L4 as (-> & L5 & L6).
  assert (En2 : enabled d1 (ETimer true true) = true) by (cbn; rewrite (ci_timer _ _ HI1), Cs1; reflexivity).
  destruct (cli_event_some s1 (ETimer true true) d1 d2 _ RC1 I En2 Es2) as (c2 & RC2 & Ev2).
  cbn [cli_octets flat_map cli_closes existsb app n_srv n_uid n_c2s n_s2c n_up s1 andb negb orb] in Ev2. rewrite app_nil_r in Ev2.
  set (s2 := mkNet c2 (n_srv s) (n_uid s) fr [] true) in *.
  set (x2 := (NCli (ETimer true true), [OTx fr; OStop; OTimer 5000000], []) : nev * list cout * list sout).
  assert (R2 : nreach calm s2 ((h ++ [x1]) ++ [x2])) by (eapply nr_step; [exact R1|exact I|split; [reflexivity|exact A1]|cbn [n_step plain_cli]; now rewrite Ev2]).
  assert (W2 : wire_after None (cli_hist ((h ++ [x1]) ++ [x2])) = Some []) by (rewrite cli_hist_snoc, wire_app, W1; reflexivity).
  (* 3: the server reads it *)
  assert (X3 : exists v3 os3 m, srv_step (n_srv s) (VData (n_uid s) (RxBytes fr)) = Some (v3, os3) /\ (forall r, srv_enabled v3 (VData (n_uid s) r) = true) /\
    forwards (n_uid s) (i_req it) m /\ os3 = [m; TDisarm (n_uid s); TArm (n_uid s) 5000000]).
  { destruct (forward b1 q1 (n_srv s) trs (n_uid s) _ fr fr [] (sv_reach _ _ _ _ HS) (sv_open _ _ _ _ HS _) (stored_ok it Hit) He Hne) as (v3 & os3 & E3 & O3 & _ & Q3);
    [rewrite P4, app_nil_r; reflexivity|]. cbn in Q3. destruct Q3 as (m & M1 & M2). exists v3, os3, m. split; [auto|]. split; [auto|].
    split; [now apply forwards_stored|]. rewrite M2. unfold waitingb. now rewrite P3. }
  destruct X3 as (v3 & os3 & m & Es3 & O3 & Hm & ->).
  assert (exists t f a st n nb da, m = TReq (n_uid s) t f a st n nb da) as (t & f & a & st & n & nb & da & Em).
  { destruct m; try contradiction. destruct Hm as (-> & _). do 7 eexists. reflexivity. }
  pose proof (srv_event_some (mkNet c2 (n_srv s) (n_uid s) (skipn (length fr) fr) [] true) _ _ _ (sv_open _ _ _ _ HS _) Es3) as Ev3.
  cbn [n_cli n_srv n_uid n_c2s n_s2c n_up] in Ev3. rewrite skipn_all in Ev3.
  assert (Room3 : Z.of_nat (length fr) <= srv_room s2).
  { unfold srv_room, s2. cbn [n_srv n_uid]. destruct (enabled_open b1 q1 _ _ _ _ (sv_reach _ _ _ _ HS) (sv_open _ _ _ _ HS RxNa)) as (_ & x & Hx & HX & _ & Hxs).
    rewrite Hx. destruct (so_rx _ _ _ HX Hxs) as [X _]. rewrite P4 in X. cbn in X. unfold bufMaxLen. lia. }
  set (s3 := mkNet c2 v3 (n_uid s) [] [] true).
  set (x3 := (NToSrv fr, [], [m; TDisarm (n_uid s); TArm (n_uid s) 5000000]) : nev * list cout * list sout).
  assert (Ns3 : n_step s2 (NToSrv fr) = Some (s3, [], [m; TDisarm (n_uid s); TArm (n_uid s) 5000000])).
  { cbn [n_step]. cbn [n_up s2 n_c2s]. rewrite readable_all by auto. cbn [andb n_cli n_srv n_uid n_c2s n_s2c n_up s2]. rewrite skipn_all, Ev3.
    rewrite Em. reflexivity. }
  assert (R3 : nreach calm s3 (((h ++ [x1]) ++ [x2]) ++ [x3])) by (eapply nr_step; [exact R2|exact I|exact I|exact Ns3]).
  set (h3 := ((h ++ [x1]) ++ [x2]) ++ [x3]) in *.
  assert (F3 : forwarded_in (n_uid s) h3 = forwarded_in (n_uid s) h ++ [m]).
  { unfold h3. rewrite !forwarded_snoc. cbn. rewrite Em. cbn. rewrite Z.eqb_refl, !app_nil_r. reflexivity. }
  assert (G3 : replied_in (n_uid s) h3 = replied_in (n_uid s) h).
  { unfold h3. rewrite !replied_snoc. cbn. rewrite !app_nil_r. reflexivity. }
  (* 4: the application replies *)
  set (trs3 := trs ++ [(VData (n_uid s) (RxBytes fr), [m; TDisarm (n_uid s); TArm (n_uid s) 5000000])]).
  assert (HR3 : reach b1 q1 v3 trs3) by (eapply re_step; [apply HS|exact Hfb|apply HS|exact Es3]).
  assert (V3 : waiting (n_uid s) trs3 /\ w_last (view_of (n_uid s) trs3) = Some [m; TDisarm (n_uid s); TArm (n_uid s) 5000000]).
  { unfold waiting, trs3. rewrite view_snoc, Em. cbn. rewrite Z.eqb_refl. auto. }
  destruct V3 as [V3 V3'].
  assert (Hfs := Hm). rewrite Em in Hfs. cbn in Hfs. destruct Hfs as (_ & Ht & Hf & _).
  pose proof (reply_outcome b1 q1 v3 trs3 (n_uid s) _ t f a st n nb da p HR3 (sv_uid _ _ _ _ HS) V3 (O3 RxNa) V3' (or_introl Em) Hp Hps ltac:(congruence) Hpo) as X4.
  destruct (Z.ltb_spec 260 (p_nbytes p)); [lia|]. destruct X4 as (v4 & os4 & Es4 & X4). rewrite Hf, Hex in X4. destruct X4 as (bs & -> & Hans).
  cbn [app] in Es4.
  pose proof (srv_event_some s3 (VReply p true) _ _ eq_refl Es4) as Ev4.
  cbn [n_cli n_srv n_uid n_c2s n_s2c n_up s3 srv_octets srv_closes flat_map existsb app andb negb orb] in Ev4. rewrite Z.eqb_refl, !app_nil_r in Ev4.
  set (s4 := mkNet c2 v4 (n_uid s) [] bs true) in *.
  set (x4 := (NSrv (VReply p true), [], [TTx (n_uid s) bs; TDisarm (n_uid s); TArm (n_uid s) 30000000]) : nev * list cout * list sout).
  assert (R4 : nreach calm s4 (h3 ++ [x4])).
  { eapply nr_step; [exact R3|exact Hp| |cbn [n_step plain_srv]; now rewrite Ev4]. intros _. split; [reflexivity|].
    cbn [n_uid s3]. rewrite F3, G3, app_length. cbn. lia. }
  assert (W4 : wire_after None (cli_hist (h3 ++ [x4])) = Some []).
  { unfold x4. rewrite srv_hist. unfold h3, x3. rewrite tosrv_hist. exact W2. }
  (* 5: the client reads it *)
  destruct (calm_ni _ _ R4) as (b1' & q1' & d4 & trs4 & done4 & cur4 & todo4 & f04 & fx4 & a04 & ax4 & r4 & _ & HC4 & HS4 & HB4 & HP4).
  cbn [n_uid n_c2s n_s2c s4] in HP4, HB4. rewrite W4 in HP4.
  assert (Hbs : bs <> []).
  { intros ->. unfold answers in Hans. destruct (p_error p =? 0); [|destruct Hans as (c & X & _); discriminate].
    rewrite <- Hf in Hans. clear - Hans. destruct f as [|f|f]; try contradiction. do 5 (try (destruct f as [f|f|]; try contradiction)); cbn [app] in Hans;
    repeat match goal with H : _ /\ _ |- _ => destruct H | H : exists _, _ |- _ => destruct H end; discriminate. }
  inversion HP4 as [X|? ? X|? ? ? ? ? X| it4 m4 p4 q4 rx4 B1 B2 B3 B4 B5 B6 B7 B8 B9 B10 B11 B12 B13|? ? ? ? X]; try congruence; subst.
  injection B1 as <-. cbn [app] in B13.
  assert (Hp4 : p4 = p).
  { pose proof (bk_sent _ _ _ _ _ _ _ _ _ _ HB4) as X. rewrite sent_snoc in X. cbn in X. rewrite Z.eqb_refl in X. cbn in X.
    apply app_inj_tail in X as [_ X]. congruence. }
  subst p4.
  pose proof (stores_eq _ _ _ (cv_rc _ _ _ _ HC4) RC2) as St4. rewrite (cv_store _ _ _ _ HC4), L6 in St4.
  assert (todo4 = [] /\ stored it4 = stored it) as [-> Hst4].
  { try rewrite St1 in St4; cbn in St4; destruct todo4; [|discriminate]. split; [auto|congruence]. }
  pose proof (cv_ci _ _ _ _ HC4) as HI4. rewrite W4 in HI4.
  assert (Hi4 : req_ok (i_req it4)) by (pose proof (cv_ok _ _ _ _ HC4) as X; now inversion X).
  pose proof (reply_adu_ok _ _ B9 B10 B12) as Hrok.
  pose proof (encode_rsp_wf _ _ Hrok B13) as [(Hbb & _) Hbl].
  destruct (cli_data d4 (stored it4) [] [] bs [] (reply_adu q4 p) HI4 (cv_store _ _ _ _ HC4) (cv_fd _ _ _ _ HC4) Hrok) as (d5 & os5 & Es5 & M1 & M2 & M3 & M4 & M5);
    [rewrite app_nil_r; exact B13|auto|auto|]. cbn in M5. destruct M5 as (o & -> & Ho & Hj & M6 & M7).
  assert (Ht5 : told it p o).
  { eapply told_stored; [exact Hst4|]. eapply judged_told; eauto. }
  assert (Room5 : Z.of_nat (length bs) <= cli_room s4).
  { unfold cli_room. cbn [n_cli s4]. destruct (ci_wire _ _ HI4) as (_ & _ & _ & _ & X).
    assert (c_len d4 = 0) as Hcl.
    { apply (f_equal (@length Z)) in X. rewrite firstn_length, (ci_buf _ _ HI4) in X. pose proof (ci_len _ _ HI4). cbn in X. lia. }
    destruct (cv_rc _ _ _ _ HC4) as (_ & _ & _ & _ & _ & _ & Y). cbn [n_cli s4] in Y. rewrite Y, Hcl. unfold bufMaxLen. lia. }
  assert (En5 : enabled d4 (EData (RxBytes bs)) = true) by exact (cv_fd _ _ _ _ HC4).
  destruct (cli_event_some (mkNet c2 v4 (n_uid s) [] (skipn (length bs) bs) true) (EData (RxBytes bs)) d4 d5 _ (cv_rc _ _ _ _ HC4) Hbb En5 Es5) as (c5 & RC5 & Ev5).
  cbn [n_cli n_srv n_uid n_c2s n_s2c n_up] in Ev5. rewrite skipn_all, M2, M3 in Ev5. cbn [app andb negb] in Ev5.
  set (s5 := mkNet c5 v4 (n_uid s) [] [] true) in *.
  set (x5 := (NToCli bs, [o; OStop; OTimer 10000], []) : nev * list cout * list sout).
  assert (R5 : nreach calm s5 ((h3 ++ [x4]) ++ [x5])).
  { eapply nr_step; [exact R4|exact I| |].
    - intros rx _. left. reflexivity.
    - cbn [n_step]. cbn [n_up s4 n_s2c]. rewrite readable_all by auto. cbn [andb n_cli n_srv n_uid n_c2s n_s2c n_up s4]. now rewrite skipn_all, Ev5. }
  set (h5 := (h3 ++ [x4]) ++ [x5]) in *.
  assert (A5 : armed_for (cli_hist h5) = Some 10000).
  { unfold h5. rewrite cli_hist_snoc, armed_app. cbn [cli_hist flat_map ev_of cli_of x5 fst snd app fold_left].
    rewrite (cv_armed _ _ _ _ HC4), (proj1 (ci_wire _ _ HI4)), M4, M6. reflexivity. }
  (* 6: the client settles *)
  pose proof (sf_inv _ _ _ _ _ (step_ok _ _ _ _ _ HI4 (Hbb : ev_ok (EData (RxBytes bs))) En5 Es5)) as HI5.
  assert (En6 : enabled d5 (ETimer true true) = true) by (cbn; rewrite (ci_timer _ _ HI5), M6; reflexivity).
  assert (exists d6, lc_step d5 (ETimer true true) = Some (d6, [OStop])) as [d6 Es6].
  { destruct d5 as [st5 fd5 tm5 sto5 bf5 ps5 ln5]. cbn [c_st c_store c_fd] in *. subst. eexists. reflexivity. }
  destruct (cli_event_some s5 (ETimer true true) d5 d6 _ RC5 I En6 Es6) as (c6 & RC6 & Ev6).
  cbn [cli_octets flat_map cli_closes existsb app n_srv n_uid n_c2s n_s2c n_up s5 andb negb orb] in Ev6.
  set (s6 := mkNet c6 v4 (n_uid s) [] [] true) in *.
  set (x6 := (NCli (ETimer true true), [OStop], []) : nev * list cout * list sout).
  assert (R6 : nreach calm s6 (h5 ++ [x6])) by (eapply nr_step; [exact R5|exact I|split; [reflexivity|exact A5]|cbn [n_step plain_cli]; now rewrite Ev6]).
  exists s6, [x1; x2; x3; x4; x5; x6], bs. eexists. exists o.
  assert (Eh : h ++ [x1; x2; x3; x4; x5; x6] = h5 ++ [x6]) by (unfold h5, h3; now rewrite <- !app_assoc).
  rewrite Eh. split; [exact R6|]. split.
  { unfold idle. rewrite cli_hist_snoc, armed_app, A5. reflexivity. }
  split; [reflexivity|]. split; [reflexivity|]. split.
  { unfold forwarded_in. cbn. rewrite Z.eqb_refl. reflexivity. }
  split; [exact Hm|]. split; [|exact Ht5]. unfold delivered_in. cbn. rewrite Ho. reflexivity.
Qed.

Lemma submitted_app h h' : submitted_in (h ++ h') = submitted_in h ++ submitted_in h'.
Proof. unfold submitted_in, submitted, cli_hist. now rewrite !flat_map_app. Qed.

Theorem serve_all uid js : Forall (job_ok uid) js -> forall s h, nreach calm s h -> idle h -> n_uid s = uid ->
  exists s' h', nreach calm s' (h ++ h') /\ idle (h ++ h') /\ submitted_in h' = map fst js /\
    Forall2 (fun j m => forwards uid (i_req (fst j)) m) js (forwarded_in uid h') /\
    Forall2 (fun j o => told (fst j) (snd j) o) js (delivered_in h').
Proof.
  induction 1 as [|[it p] js (H1 & H2 & (fr & H3) & H4 & H5 & H6 & H7 & H8 & H9) _ IH]; intros s h HR Hi Hu.
  - exists s, []. rewrite app_nil_r. repeat split; auto; constructor.
  - cbn [fst snd] in *.
    destruct (serve s h it fr p HR Hi H1 H2 H3 H4 (eq_trans H5 (eq_sym Hu)) H6 H7 H8 H9) as (s1 & h1 & bs & m & o & R1 & I1 & U1 & M1 & F1 & F2 & D1 & D2).
    rewrite Hu in *.
    destruct (IH s1 (h ++ h1) R1 I1 U1) as (s2 & h2 & R2 & I2 & S2 & F3 & D3).
    exists s2, (h1 ++ h2). rewrite app_assoc. split; [auto|]. split; [auto|]. split.
    + rewrite submitted_app, S2. cbn [map fst]. change (it :: map fst js) with ([it] ++ map fst js). f_equal.
      do 6 (destruct h1 as [|[[? ?] ?] h1]; [discriminate M1|]). destruct h1; [|discriminate M1].
      cbn in M1. injection M1 as -> -> -> -> -> ->. reflexivity.
    + unfold forwarded_in, delivered_in in *. rewrite !flat_map_app, filter_app, F1, D1. cbn. split; constructor; auto.
Qed.

(** * Runs *)
Definition calmb (s : net) (h : nhist) (e : nev) : bool :=
  match e with
  | NCli (EReq _) => true
  | NCli (ETimer sok _) => sok && match armed_for (cli_hist h) with Some t => t =? 10000 | None => false end
  | NCli _ => false
  | NSrv (VData u _) | NSrv (VError u) | NSrv (VTimer u) => negb (u =? n_uid s)
  | NSrv (VReply p sok) => negb (p_session p =? n_uid s) || (sok && (length (replied_in (n_uid s) h) <? length (forwarded_in (n_uid s) h))%nat)
  | NSrv (VAccept _ _ _) | NSrv VStop => true
  | NToSrv _ => true
  | NToCli bs => match wire_after None (cli_hist h) with
                 | Some rx => ((length bs =? length (n_s2c s))%nat || (length rx + length bs <? 6)%nat || (length bs + 6 <? length (n_s2c s))%nat)
                 | None => true
                 end
  end.

Fixpoint n_run (b : net -> nhist -> nev -> bool) (s : net) (h : nhist) (es : list nev) : option (net * nhist) :=
  match es with
  | [] => Some (s, h)
  | e :: r => if b s h e then match n_step s e with Some (s', oc, os) => n_run b s' (h ++ [(e, oc, os)]) r | None => None end else None
  end.
Definition anyb (s : net) (h : nhist) (e : nev) : bool := true.

Lemma is_prefix_full bs l : is_prefix bs l = true -> length bs = length l -> bs = l.
Proof. revert l. induction bs as [|x bs IH]; intros [|y l] H L; cbn in *; try lia; auto. apply andb_true_iff in H as [H1 H2]. f_equal; [lia|]. apply IH; auto. Qed.

Lemma calmb_calm s h e r : n_step s e = Some r -> calmb s h e = true -> calm s h e.
Proof.
  intros Hs H. destruct e as [[]|[]|bs|bs]; cbn [calmb calm n_step] in *; try discriminate; auto.
  - apply andb_true_iff in H as [H1 H2]. destruct (armed_for _); [|discriminate]. split; [auto|]. f_equal. lia.
  - lia.
  - lia.
  - lia.
  - intros E. rewrite E, Z.eqb_refl in H. cbn [negb orb] in H. apply andb_true_iff in H as [H1 H2]. split; [auto|]. now apply Nat.ltb_lt.
  - intros rx Hrx. rewrite Hrx in H. destruct (n_up s && _) eqn:Ee; [|discriminate]. apply andb_true_iff in Ee as [_ Ee].
    unfold readable in Ee. apply andb_true_iff in Ee as [Ee _]. apply andb_true_iff in Ee as [_ Ee].
    apply orb_true_iff in H as [H|H]; [apply orb_true_iff in H as [H|H]|]; [left|right; left; lia|right; right; lia].
    apply is_prefix_full; auto. apply Nat.eqb_eq in H. auto.
Qed.

Lemma run_calm es : forall s h s' h', nreach calm s h -> Forall nev_ok es -> n_run calmb s h es = Some (s', h') -> nreach calm s' h'.
Proof.
  induction es as [|e es IH]; intros s h s' h' HR Hok H; cbn [n_run] in H; [injection H as <- <-; auto|].
  inversion Hok; subst. destruct (calmb s h e) eqn:Hc; [|discriminate]. destruct (n_step s e) as [[[s1 oc] os]|] eqn:Es; [|discriminate].
  eapply IH; [| |exact H]; auto. eapply nr_step; eauto. eapply calmb_calm; eauto.
Qed.
Lemma run_any es : forall s h s' h', nreach any s h -> Forall nev_ok es -> n_run anyb s h es = Some (s', h') -> nreach any s' h'.
Proof.
  induction es as [|e es IH]; intros s h s' h' HR Hok H; cbn [n_run] in H; [injection H as <- <-; auto|].
  inversion Hok; subst. unfold anyb in H. destruct (n_step s e) as [[[s1 oc] os]|] eqn:Es; [|discriminate].
  eapply IH; [| |exact H]; auto. eapply nr_step; eauto. exact I.
Qed.

Lemma n_step_uid s e s' oc os : n_step s e = Some (s', oc, os) -> n_uid s' = n_uid s.
Proof.
  assert (C : forall s e s' os, cli_event s e = Some (s', os) -> n_uid s' = n_uid s).
  { intros s0 e0 s1 o0 H. unfold cli_event in H. destruct (enabled _ _); [|discriminate]. destruct (ac_step _ _) as [[c o]|]; [|discriminate].
    now injection H as <- <-. }
  assert (V : forall s e s' os, srv_event s e = Some (s', os) -> n_uid s' = n_uid s).
  { intros s0 e0 s1 o0 H. unfold srv_event in H. destruct (srv_enabled _ _); [|discriminate]. destruct (srv_step _ _) as [[c o]|]; [|discriminate].
    now injection H as <- <-. }
  intros H. destruct e as [e|e|bs|bs]; cbn [n_step] in H.
  - destruct (plain_cli e); [|discriminate]. destruct (cli_event s e) as [[s1 o]|] eqn:E; [|discriminate]. injection H as <- _ _. eauto.
  - destruct (plain_srv _ e); [|discriminate]. destruct (srv_event s e) as [[s1 o]|] eqn:E; [|discriminate]. injection H as <- _ _. eauto.
  - destruct (_ && _); [|discriminate]. destruct (srv_event _ _) as [[s1 o]|] eqn:E; [|discriminate]. injection H as <- _ _. apply V in E. exact E.
  - destruct (_ && _); [|discriminate]. destruct (cli_event _ _) as [[s1 o]|] eqn:E; [|discriminate]. injection H as <- _ _. apply C in E. exact E.
Qed.
Lemma run_uid b es : forall s h s' h', n_run b s h es = Some (s', h') -> n_uid s' = n_uid s.
Proof.
  induction es as [|e es IH]; intros s h s' h' H; cbn [n_run] in H; [now injection H as <- <-|].
  destruct (b s h e); [|discriminate]. destruct (n_step s e) as [[[s1 oc] os]|] eqn:Es; [|discriminate].
  apply IH in H. rewrite H. eapply n_step_uid; eauto.
Qed.
