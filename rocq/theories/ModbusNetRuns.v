(** A Modbus client and server joined by a connection: what holds after every calm history. *)
From Verif Require Import Base QueueModel QueueSpec QueueProofs PoolModel PoolSpec PoolProofs MsgStorageModel ModbusCodecModel ModbusCodecSpec ModbusCodecProofs
  ModbusClientModel ModbusClientSpec ModbusStoreProofs ModbusClientProofs ModbusClientRuns ModbusClientFacts
  ModbusServerModel ModbusServerSpec ModbusServerProofs ModbusServerRuns ModbusServerFacts ModbusServerWire ModbusCompModel ModbusNetModel ModbusNetSpec ModbusNetProofs.
Local Open Scope Z_scope.

(** * What the requester is told *)
Lemma forwards_stored uid it m : req_ok (i_req it) -> (forwards uid (i_req (stored it)) m <-> forwards uid (i_req it) m).
Proof.
  intros Hok. destruct m; try tauto. cbn. rewrite firstn_firstn, Nat.min_id. tauto.
Qed.
Lemma error_stored it : error_for (stored it) = error_for it.
Proof. reflexivity. Qed.

Lemma judged_told uid it m q p o bs : req_ok (i_req it) -> forwards uid (i_req (stored it)) m -> m = req_msg uid q -> fwd_ok q -> adu_ok q ->
  reply_ok p -> p_tid p = q_tid q -> p_nbytes p <= 260 -> encode_rsp (reply_adu q p) = EncOk bs ->
  judged (stored it) (reply_adu q p) o -> told it p o.
Proof.
  intros Hit Hf -> Hw Hq Hp Ht Hn He (a' & (R1 & R2 & R3 & R4 & _ & _ & R7) & R16 & Ho).
  pose proof (reply_answers q p bs Hq Hp Hw Ht Hn He) as Hans.
  cbn in Hf. destruct Hf as (_ & F1 & F2 & F3 & _). destruct Hw as (Wa & Wf & Wt). rewrite (u16_id _ Wt) in F1.
  destruct Hit as (T1 & _ & T3 & _). unfold is_u32 in T1. destruct Hp as (_ & P2 & _ & P4 & P5 & P6). unfold is_u16 in *.
  assert (Haddr : a_addr a' = q_addr (i_req it)).
  { rewrite R3. cbn [reply_adu a_addr]. rewrite F3. rewrite Z.mod_small; lia. }
  cbn [reply_adu a_tid] in R1. rewrite Ht, F1 in R1. rewrite Z.mod_mod in R1 by lia.
  cbn [stored i_req i_client q_tid q_addr q_func] in Ho. rewrite R1, Haddr, Z.eqb_refl in Ho. cbn [negb] in Ho.
  unfold told. destruct (Z.leb_spec 65536 (q_tid (i_req it))) as [Hbig|Hsmall].
  - assert ((q_tid (i_req it) =? q_tid (i_req it) mod 65536) = false) as E by lia. rewrite E in Ho. exact Ho.
  - assert (q_tid (i_req it) mod 65536 = q_tid (i_req it)) as E by (apply Z.mod_small; lia). rewrite E, Z.eqb_refl in Ho. cbn [negb] in Ho.
    rewrite R2 in Ho. cbn [reply_adu a_func a_error] in Ho, R2, R4. unfold answers in Hans.
    destruct (Z.eqb_spec (p_error p) 0) as [E0|E0]; cbn [negb] in Ho, R2, R4.
    + assert (H143 : (143 =? q_func q) = false) by (clear - Wf; cbn in Wf; lia). rewrite H143, F2, Z.eqb_refl in Ho. cbn [negb] in Ho.
      rewrite Ho. f_equal. unfold payload. rewrite <- F2.
      assert (Hd : forall n, In (q_func q) [3; 4; 5; 6] -> p_nbytes p = n ->
        firstn (Z.to_nat (a_nbytes a')) (a_data a') = firstn (Z.to_nat n) (p_data p)).
      { intros n Hin <-. specialize (R7). cbn [reply_adu a_func a_nbytes a_data] in R7. rewrite E0 in R7. cbn [Z.eqb negb] in R7.
        destruct (R7 Hin) as [N1 N2]. unfold same_prefix in N2. rewrite N1, N2.
        rewrite firstn_app, firstn_firstn, Nat.min_id, firstn_length_le by lia.
        replace (Z.to_nat (p_nbytes p) - Z.to_nat (p_nbytes p))%nat with 0%nat by lia. now rewrite firstn_O, app_nil_r. }
      cbn [In] in Wf. destruct Wf as [W|[W|[W|[W|[W|[W|[W|[]]]]]]]]; rewrite <- W in *; cbn [Z.eqb orb Pos.eqb] in *; try contradiction.
      * apply Hd; auto. cbn; auto.
      * apply Hd; auto. cbn; auto.
      * apply (Hd 2); [cbn; auto|apply Hans].
      * apply (Hd 2); [cbn; auto|apply Hans].
      * rewrite (R16 R2). reflexivity.
    + change (143 =? modbusErrorFn) with true in Ho. cbv iota in Ho. eexists. split; [exact Ho|].
      intros Hin. apply R4; [reflexivity|]. right. exact Hin.
Qed.

(** * Histories *)
Lemma cli_hist_snoc h x : cli_hist (h ++ [x]) = cli_hist h ++ cli_hist [x].
Proof. unfold cli_hist. now rewrite flat_map_app. Qed.
Lemma submitted_snoc h x : submitted_in (h ++ [x]) = submitted_in h ++ submitted_in [x].
Proof. unfold submitted_in, submitted. now rewrite cli_hist_snoc, flat_map_app. Qed.
Lemma forwarded_snoc uid h x : forwarded_in uid (h ++ [x]) = forwarded_in uid h ++ filter (is_req uid) (srv_of x).
Proof. unfold forwarded_in. rewrite flat_map_app, filter_app. cbn. now rewrite app_nil_r. Qed.
Lemma replied_snoc uid h x : replied_in uid (h ++ [x]) = replied_in uid h ++ replied_in uid [x].
Proof. unfold replied_in. now rewrite flat_map_app. Qed.
Lemma sent_snoc uid h x : sent_in uid (h ++ [x]) = sent_in uid h ++ sent_in uid [x].
Proof. unfold sent_in. now rewrite flat_map_app. Qed.
Lemma delivered_snoc h x : delivered_in (h ++ [x]) = delivered_in h ++ delivered_in [x].
Proof. unfold delivered_in. now rewrite flat_map_app. Qed.
Lemma transmitted_snoc h x : transmitted (cli_hist (h ++ [x])) = transmitted (cli_hist h) ++ transmitted (cli_hist [x]).
Proof. unfold transmitted. now rewrite cli_hist_snoc, flat_map_app. Qed.
Lemma wire_app : forall t1 t2 w, wire_after w (t1 ++ t2) = wire_after (wire_after w t1) t2.
Proof. induction t1 as [|[e os] t1 IH]; intros t2 w; cbn; auto. Qed.
Lemma armed_app t1 t2 : armed_for (t1 ++ t2) = fold_left timer_next t2 (armed_for t1).
Proof. unfold armed_for. apply fold_left_app. Qed.

Lemma sublist_snoc {A} (l m : list A) x : sublist l m -> sublist l (m ++ [x]).
Proof. induction 1; cbn; constructor; auto. Qed.
Lemma sublist_both {A} (l m : list A) x : sublist l m -> sublist (l ++ [x]) (m ++ [x]).
Proof.
  induction 1; cbn; [|constructor; auto..]. induction l; cbn; [repeat constructor|]. now apply sub_skip.
Qed.
Lemma sublist_drop {A} (a b m : list A) x : sublist (a ++ x :: b) m -> sublist (a ++ b) m.
Proof.
  remember (a ++ x :: b) as l eqn:E. intros H. revert a E. induction H; intros a E.
  - destruct a; discriminate.
  - destruct a as [|y a]; cbn in *.
    + injection E as -> ->. now apply sub_skip.
    + injection E as -> ->. apply sub_take. now apply IHsublist.
  - apply sub_skip. now apply IHsublist.
Qed.
Lemma sublist_prefix {A} (a b m : list A) : sublist (a ++ b) m -> sublist a m.
Proof.
  revert b m. induction a as [|x a IH]; intros b m H; [constructor|]. cbn in H.
  remember (x :: a ++ b) as l eqn:E. induction H; [discriminate| |].
  - injection E as -> ->. apply sub_take. eapply IH; eauto.
  - apply sub_skip; auto.
Qed.

(** * The invariant *)
(** Where the exchange at the head stands: [cur] the request on its way, [fx] its copy at the application, [ax] the reply sent, [r]
    replies made. *)
Inductive phase (uid : Z) (w : option (list Z)) (vw : view) (c2s s2c : list Z) : list item -> list sout -> list areply -> nat -> Prop :=
| ph_idle : w = None -> c2s = [] -> s2c = [] -> w_armed vw = Some 30000000 -> w_rx vw = [] -> phase uid w vw c2s s2c [] [] [] 0
| ph_out it : w = Some [] -> s2c = [] -> c2s <> [] -> encode_req (i_req (stored it)) = EncOk (w_rx vw ++ c2s) ->
    phase uid w vw c2s s2c [it] [] [] 0
| ph_app it m os : w = Some [] -> c2s = [] -> s2c = [] -> w_armed vw = Some 5000000 -> w_last vw = Some os -> In m os ->
    forwards uid (i_req (stored it)) m -> phase uid w vw c2s s2c [it] [m] [] 0
| ph_back it m p q rx : w = Some rx -> c2s = [] -> s2c <> [] -> w_armed vw = Some 30000000 -> w_rx vw = [] ->
    forwards uid (i_req (stored it)) m -> m = req_msg uid q -> fwd_ok q -> adu_ok q -> reply_ok p -> p_tid p = q_tid q -> p_nbytes p <= 260 ->
    encode_rsp (reply_adu q p) = EncOk (rx ++ s2c) -> phase uid w vw c2s s2c [it] [m] [p] 1
| ph_stall it m : w = Some [] -> c2s = [] -> s2c = [] -> w_armed vw = Some 30000000 -> w_rx vw = [] ->
    forwards uid (i_req (stored it)) m -> phase uid w vw c2s s2c [it] [m] [] 1.

(** The client's side, the server's side, and the books. *)
Record cli_inv (s : net) (h : nhist) (d : lclient) (pend : list item) : Prop := {
  cv_rc : RC (n_cli s) d;
  cv_ci : CI d (wire_after None (cli_hist h));
  cv_up : up_st (c_st d) = true;
  cv_fd : c_fd d = true;
  cv_armed : armed_for (cli_hist h) = timer_of (c_st d);
  cv_store : c_store d = map stored pend;
  cv_ok : Forall (fun it => req_ok (i_req it)) pend
}.
Record srv_inv (b1 : list Z) (q1 : adu_req) (s : net) (trs : strace) : Prop := {
  sv_reach : reach b1 q1 (n_srv s) trs;
  sv_uid : 0 <= n_uid s < 256;
  sv_open : forall r, srv_enabled (n_srv s) (VData (n_uid s) r) = true
}.
Record books (uid : Z) (h : nhist) (done cur todo : list item) (f0 fx : list sout) (a0 ax : list areply) (r : nat) : Prop := {
  bk_sub : sublist ((done ++ cur) ++ todo) (submitted_in h);
  bk_tx : length (transmitted (cli_hist h)) = length (done ++ cur);
  bk_fwd : forwarded_in uid h = f0 ++ fx;
  bk_sent : sent_in uid h = a0 ++ ax;
  bk_rep : length (replied_in uid h) = (length done + r)%nat;
  bk_a : length a0 = length done;
  bk_d : length (delivered_in h) = length done;
  bk_f : Forall2 (fun it m => forwards uid (i_req it) m) done f0;
  bk_told : Forall2 (fun it x => told it (fst x) (snd x)) done (combine a0 (delivered_in h))
}.
Definition NI (s : net) (h : nhist) : Prop :=
  exists b1 q1 d trs done cur todo f0 fx a0 ax r,
    n_up s = true /\ cli_inv s h d (cur ++ todo) /\ srv_inv b1 q1 s trs /\ books (n_uid s) h done cur todo f0 fx a0 ax r /\
    phase (n_uid s) (wire_after None (cli_hist h)) (view_of (n_uid s) trs) (n_c2s s) (n_s2c s) cur fx ax r.

Lemma f2_length {A B} (R : A -> B -> Prop) l m : Forall2 R l m -> length l = length m.
Proof. induction 1; cbn; auto. Qed.

(** ** The client's steps *)
Lemma cli_event_inv s e s' os d : RC (n_cli s) d -> ev_ok e -> cli_event s e = Some (s', os) ->
  exists d', enabled d e = true /\ lc_step d e = Some (d', os) /\ RC (n_cli s') d' /\ n_srv s' = n_srv s /\ n_uid s' = n_uid s /\
    n_c2s s' = n_c2s s ++ cli_octets os /\ n_s2c s' = n_s2c s /\ n_up s' = n_up s && negb (cli_closes os).
Proof.
  intros HC Hok H. unfold cli_event in H. destruct (enabled (n_cli s) e) eqn:En; [|discriminate].
  destruct (ac_step (n_cli s) e) as [[c o1]|] eqn:Es; [|discriminate]. apply some2 in H as (<- & <-). cbn.
  assert (Hs : req_sane e) by (pose proof (ev_sane [e] ltac:(auto)) as P; now inversion P).
  pose proof (c_step_sim _ d e HC Hs En) as P. unfold ac_step in Es. rewrite Es in P. unfold Ro in P. unfold lc_step.
  destruct (c_step ls_empty ls_front ls_pop ls_push d e) as [[d' o2]|]; [|contradiction]. destruct P as [P ->].
  rewrite (enabled_sim _ _ _ HC) in En. exists d'. auto 10.
Qed.

Lemma stored_ok it : req_ok (i_req it) -> req_ok (i_req (stored it)).
Proof.
  intros (H1 & H2 & H3 & H4 & H5 & H6 & H7 & H8). unfold req_ok, stored. cbn [i_req q_tid q_func q_addr q_start q_nitems q_nbytes q_data].
  do 6 (split; [assumption|]). unfold is_u16 in H6. split.
  - unfold bytes_ok in *. rewrite <- (firstn_skipn (Z.to_nat (q_nbytes (i_req it))) (q_data (i_req it))) in H7. now apply Forall_app in H7 as [H7 _].
  - rewrite firstn_length_le; lia.
Qed.

Lemma books_cli uid h done cur todo f0 fx a0 ax r e oc : books uid h done cur todo f0 fx a0 ax r -> txs oc = [] ->
  match e with EReq _ => False | _ => True end -> books uid (h ++ [(NCli e, oc, [])]) done cur todo f0 fx a0 ax r.
Proof.
  intros [] Ht He. unfold txs in Ht. constructor; rewrite ?submitted_snoc, ?forwarded_snoc, ?sent_snoc, ?replied_snoc, ?delivered_snoc, ?transmitted_snoc;
  cbn; rewrite ?Ht; cbn; rewrite ?app_nil_r; auto.
  all: destruct e; try contradiction; cbn; rewrite ?app_nil_r; auto.
Qed.
Lemma books_todo uid h done cur todo todo' f0 fx a0 ax r : books uid h done cur todo f0 fx a0 ax r ->
  sublist ((done ++ cur) ++ todo') (submitted_in h) -> books uid h done cur todo' f0 fx a0 ax r.
Proof. intros [] H. constructor; auto. Qed.

Lemma step_req s h it s' oc : NI s h -> ev_ok (EReq it) -> cli_event s (EReq it) = Some (s', oc) -> NI s' (h ++ [(NCli (EReq it), oc, [])]).
Proof.
  intros (b1 & q1 & d & trs & done & cur & todo & f0 & fx & a0 & ax & r & Hup & [] & [] & HB & HP) Hok H.
  destruct (cli_event_inv _ _ _ _ d cv_rc0 Hok H) as (d' & En & Es & HC & E1 & E2 & E3 & E4 & E5).
  destruct (cli_req d _ it d' oc cv_ci0 cv_up0 Es) as (K1 & K2 & K3 & K4 & K5 & K6 & K7 & K8).
  pose proof (sf_inv _ _ _ _ _ (step_ok _ _ _ _ _ cv_ci0 Hok En Es)) as HI'. cbn [wire_next] in HI'.
  set (x := (NCli (EReq it), oc, []) : nev * list cout * list sout).
  assert (Hw : wire_after None (cli_hist (h ++ [x])) = wire_after None (cli_hist h)) by (rewrite cli_hist_snoc, wire_app; reflexivity).
  assert (exists todo', (todo' = todo \/ todo' = todo ++ [it]) /\ c_store d' = map stored (cur ++ todo')) as (todo' & Ht & Est).
  { destruct K8 as [K8|K8]; rewrite K8, cv_store0; [exists todo; auto|]. exists (todo ++ [it]). split; [auto|].
    rewrite !map_app, app_assoc. reflexivity. }
  exists b1, q1, d', trs, done, cur, todo', f0, fx, a0, ax, r. rewrite E2, Hw, E3, E4, E5, K4, K5, app_nil_r, Hup.
  split; [reflexivity|]. split; [|split; [constructor; rewrite ?E1, ?E2; auto|split; [|exact HP]]].
  - constructor; rewrite ?Hw; auto; [congruence| |].
    + rewrite cli_hist_snoc, armed_app. cbn [cli_hist flat_map ev_of cli_of x fst snd app fold_left]. rewrite cv_armed0. exact K6.
    + destruct Ht as [->| ->]; auto. rewrite app_assoc. apply Forall_app. auto.
  - unfold txs in K3. destruct HB. constructor; unfold x; rewrite ?submitted_snoc, ?forwarded_snoc, ?sent_snoc, ?replied_snoc, ?delivered_snoc, ?transmitted_snoc;
    cbn; rewrite ?K3; cbn; rewrite ?app_nil_r; auto.
    destruct Ht as [->| ->]; [now apply sublist_snoc|]. rewrite app_assoc. now apply sublist_both.
Qed.

Lemma idle_phase uid w vw c2s s2c cur fx ax r : phase uid w vw c2s s2c cur fx ax r -> w = None ->
  c2s = [] /\ s2c = [] /\ w_armed vw = Some 30000000 /\ w_rx vw = [] /\ cur = [] /\ fx = [] /\ ax = [] /\ r = 0%nat.
Proof. intros H E. destruct H; [auto 10|congruence..]. Qed.

Lemma step_timer s h cok s' oc : NI s h -> armed_for (cli_hist h) = Some 10000 -> cli_event s (ETimer true cok) = Some (s', oc) ->
  NI s' (h ++ [(NCli (ETimer true cok), oc, [])]).
Proof.
  intros (b1 & q1 & d & trs & done & cur & todo & f0 & fx & a0 & ax & r & Hup & [] & [] & HB & HP) Ha H.
  assert (Hst : c_st d = CSend).
  { rewrite cv_armed0 in Ha. destruct (c_st d); try discriminate. reflexivity. }
  assert (Hw0 : wire_after None (cli_hist h) = None).
  { pose proof (ci_wire _ _ cv_ci0) as X. destruct (wire_after None (cli_hist h)); [|auto]. destruct X. congruence. }
  rewrite Hw0 in *. destruct (idle_phase _ _ _ _ _ _ _ _ _ HP eq_refl) as (P1 & P2 & P3 & P4 & -> & -> & -> & ->).
  destruct (cli_event_inv _ _ _ _ d cv_rc0 (I : ev_ok (ETimer true cok)) H) as (d' & En & Es & HC & E1 & E2 & E3 & E4 & E5).
  destruct (cli_timer d _ cok d' oc cv_ci0 Hst cv_fd0 Es) as (K1 & K2 & K3 & K4).
  pose proof (sf_inv _ _ _ _ _ (step_ok _ _ _ _ _ cv_ci0 (I : ev_ok (ETimer true cok)) En Es)) as HI'.
  set (x := (NCli (ETimer true cok), oc, []) : nev * list cout * list sout).
  assert (Hw : wire_after None (cli_hist (h ++ [x])) = wire_next None (ETimer true cok) oc) by (rewrite cli_hist_snoc, wire_app, Hw0; reflexivity).
  assert (Har : armed_for (cli_hist (h ++ [x])) = timer_of (c_st d')).
  { rewrite cli_hist_snoc, armed_app. cbn [cli_hist flat_map ev_of cli_of x fst snd app fold_left]. rewrite cv_armed0, Hst. exact K3. }
  assert (HS' : srv_inv b1 q1 s' trs) by (constructor; rewrite ?E1, ?E2; auto).
  cbn [app] in *. rewrite cv_store0 in K4.
  destruct todo as [|it todo]; cbn [map] in K4.
  - destruct K4 as (-> & K5 & K6). cbn in Hw. exists b1, q1, d', trs, done, [], [], f0, [], a0, [], 0%nat.
    rewrite E2, E3, E4, E5, Hup, Hw, P1, P2. split; [reflexivity|]. split; [|split; [exact HS'|split]].
    + constructor; rewrite ?Hw; auto. now rewrite K5.
    + now apply books_cli.
    + now apply ph_idle.
  - inversion cv_ok0 as [|? ? Hit Hrest]; subst. destruct (encode_req (i_req (stored it))) as [bs|bs| |] eqn:Ee; try contradiction.
    + destruct K4 as (-> & K5 & K6). cbn in Hw. exists b1, q1, d', trs, done, [it], todo, f0, [], a0, [], 0%nat.
      rewrite E2, E3, E4, E5, Hup, Hw, P1, P2. split; [reflexivity|]. split; [|split; [exact HS'|split]].
      * constructor; rewrite ?Hw; auto; rewrite ?K5, ?K6; auto.
      * destruct HB. constructor; unfold x; rewrite ?submitted_snoc, ?forwarded_snoc, ?sent_snoc, ?replied_snoc, ?delivered_snoc, ?transmitted_snoc;
        cbn; rewrite ?app_nil_r in *; auto.
        -- rewrite <- app_assoc. exact bk_sub0.
        -- rewrite !app_length. cbn. lia.
      * apply ph_out; auto.
        -- cbn. rewrite app_nil_r. destruct (encode_req_wf _ _ (stored_ok it Hit) Ee) as [(_ & X & _) _]. intros ->. cbn in X. lia.
        -- cbn. rewrite P4, app_nil_r. exact Ee.
    + destruct K4 as (-> & K5 & K6). cbn in Hw. exists b1, q1, d', trs, done, [], todo, f0, [], a0, [], 0%nat.
      rewrite E2, E3, E4, E5, Hup, Hw, P1, P2. split; [reflexivity|]. split; [|split; [exact HS'|split]].
      * constructor; rewrite ?Hw; auto. now rewrite K5.
      * apply books_cli; auto. eapply books_todo; [exact HB|]. destruct HB. eapply sublist_drop; eauto.
      * now apply ph_idle.
Qed.

(** ** The server's steps *)
Lemma srv_event_inv s e s' os : srv_event s e = Some (s', os) ->
  srv_enabled (n_srv s) e = true /\ srv_step (n_srv s) e = Some (n_srv s', os) /\ n_cli s' = n_cli s /\ n_uid s' = n_uid s /\
  n_c2s s' = n_c2s s /\ n_s2c s' = n_s2c s ++ srv_octets (n_uid s) os /\ n_up s' = n_up s && negb (srv_closes (n_uid s) os).
Proof.
  intros H. unfold srv_event in H. destruct (srv_enabled (n_srv s) e) eqn:En; [|discriminate].
  destruct (srv_step (n_srv s) e) as [[v o1]|] eqn:Es; [|discriminate]. apply some2 in H as (<- & <-). cbn. auto 10.
Qed.

Lemma open_live b1 q1 v tr uid : reach b1 q1 v tr -> (forall r, srv_enabled v (VData uid r) = true) -> live uid tr.
Proof.
  intros HR Ho. destruct (enabled_open b1 q1 v tr uid RxNa HR (Ho RxNa)) as (_ & s & Hs & HS & _ & Hst).
  now apply (live_iff uid s tr HS).
Qed.

(** A step of the server that leaves the client alone. *)
Lemma srv_books uid h done cur todo f0 fx a0 ax r e os : books uid h done cur todo f0 fx a0 ax r ->
  filter (is_req uid) os = [] -> existsb (is_tx uid) os = false -> match e with VReply p _ => p_session p <> uid | _ => True end ->
  books uid (h ++ [(NSrv e, [], os)]) done cur todo f0 fx a0 ax r.
Proof.
  intros [] Hq Ht He. constructor; rewrite ?submitted_snoc, ?forwarded_snoc, ?sent_snoc, ?replied_snoc, ?delivered_snoc, ?transmitted_snoc;
  cbn; rewrite ?Hq, ?Ht; rewrite ?app_nil_r; auto.
  all: destruct e; cbn; rewrite ?app_nil_r; auto.
  destruct (Z.eqb_spec (p_session p) uid); [congruence|]. cbn. now rewrite app_nil_r.
Qed.

Lemma srv_hist h e os : cli_hist (h ++ [(NSrv e, [], os)]) = cli_hist h.
Proof. rewrite cli_hist_snoc. cbn. apply app_nil_r. Qed.
Lemma tosrv_hist h bs os : cli_hist (h ++ [(NToSrv bs, [], os)]) = cli_hist h.
Proof. rewrite cli_hist_snoc. cbn. apply app_nil_r. Qed.

Lemma cli_inv_srv s s' h h' d pend : cli_inv s h d pend -> n_cli s' = n_cli s -> cli_hist h' = cli_hist h -> cli_inv s' h' d pend.
Proof. intros [] E Eh. constructor; rewrite ?E, ?Eh; auto. Qed.

Lemma step_other s h e s' os : NI s h -> vev_ok e -> not_for (n_uid s) e -> srv_event s e = Some (s', os) -> NI s' (h ++ [(NSrv e, [], os)]).
Proof.
  intros (b1 & q1 & d & trs & done & cur & todo & f0 & fx & a0 & ax & r & Hup & HC & [] & HB & HP) Hok Hnf H.
  apply srv_event_inv in H as (En & Es & E1 & E2 & E3 & E4 & E5).
  destruct (srv_other b1 q1 (n_srv s) trs (n_uid s) e _ _ sv_reach0 sv_uid0 (open_live _ _ _ _ _ sv_reach0 sv_open0) Hok En Hnf Es) as (V1 & V2 & V3 & V4 & V5 & V6).
  assert (HR' : reach b1 q1 (n_srv s') (trs ++ [(e, os)])) by (eapply re_step; eauto).
  exists b1, q1, d, (trs ++ [(e, os)]), done, cur, todo, f0, fx, a0, ax, r.
  rewrite E2, E3, E4, E5, V4, V5, app_nil_r, Hup, srv_hist, view_snoc, V1.
  split; [reflexivity|]. split; [eapply cli_inv_srv; eauto using srv_hist|]. split; [|split; [|exact HP]].
  - constructor; rewrite ?E2; auto. intros r0. specialize (sv_open0 r0). cbn [srv_enabled] in *. now rewrite V2.
  - apply srv_books; auto. destruct e; auto.
Qed.

Lemma step_reply s h p s' os : NI s h -> reply_ok p -> p_session p = n_uid s ->
  (length (replied_in (n_uid s) h) < length (forwarded_in (n_uid s) h))%nat ->
  srv_event s (VReply p true) = Some (s', os) -> NI s' (h ++ [(NSrv (VReply p true), [], os)]).
Proof.
  intros (b1 & q1 & d & trs & done & cur & todo & f0 & fx & a0 & ax & r & Hup & HC & [] & HB & HP) Hok Hp Hlt H.
  apply srv_event_inv in H as (En & Es & E1 & E2 & E3 & E4 & E5).
  assert (HR' : reach b1 q1 (n_srv s') (trs ++ [(VReply p true, os)])) by (eapply re_step; eauto).
  rewrite (bk_rep _ _ _ _ _ _ _ _ _ _ HB), (bk_fwd _ _ _ _ _ _ _ _ _ _ HB), app_length in Hlt.
  pose proof (f2_length _ _ _ (bk_f _ _ _ _ _ _ _ _ _ _ HB)) as Hf0.
  destruct HP as [|it|it m os0 P1 P2 P3 P4 P5 P6 P7|it m p0 q rx|it m]; cbn [length] in Hlt; try lia.
  assert (Hw : waiting (n_uid s) trs) by exact P4.
  destruct (srv_reply b1 q1 (n_srv s) trs (n_uid s) p _ _ sv_reach0 sv_uid0 Hw sv_open0 Hp Es) as (pre & -> & Hopen & Hpre).
  assert (HS' : srv_inv b1 q1 s' (trs ++ [(VReply p true, pre ++ [TDisarm (n_uid s); TArm (n_uid s) 30000000])])) by (constructor; rewrite ?E2; auto).
  assert (Hbk : forall tx, existsb (is_tx (n_uid s)) pre = tx -> filter (is_req (n_uid s)) pre = [] ->
    books (n_uid s) (h ++ [(NSrv (VReply p true), [], pre ++ [TDisarm (n_uid s); TArm (n_uid s) 30000000])]) done [it] todo f0 [m] a0 (if tx then [p] else []) 1).
  { intros tx Htx Hpq. destruct HB. constructor; rewrite ?submitted_snoc, ?forwarded_snoc, ?sent_snoc, ?replied_snoc, ?delivered_snoc, ?transmitted_snoc;
    cbn; rewrite ?existsb_app, ?filter_app, ?Htx, ?Hpq, ?Hp; cbn; rewrite ?orb_false_r, ?app_nil_r in *; auto.
    - rewrite bk_sent0. destruct tx; cbn; rewrite ?app_nil_r; reflexivity.
    - rewrite Z.eqb_refl, app_length. cbn. lia. }
  exists b1, q1, d, (trs ++ [(VReply p true, pre ++ [TDisarm (n_uid s); TArm (n_uid s) 30000000])]), done, [it], todo, f0, [m], a0.
  rewrite E2, E3, E4, E5, Hup, srv_hist, view_snoc, P1, P2, P3.
  destruct Hpre as [->|(bs & q & -> & Hq & Htid & Hn & He & Hlast)].
  - exists [], 1%nat. cbn [app srv_octets flat_map srv_closes existsb orb negb andb]. split; [reflexivity|].
    split; [eapply cli_inv_srv; eauto using srv_hist|]. split; [exact HS'|]. split; [now apply (Hbk false)|].
    apply ph_stall; auto; cbn; now rewrite Z.eqb_refl.
  - exists [p], 1%nat. cbn [app srv_octets flat_map srv_closes existsb orb negb andb]. rewrite Z.eqb_refl, !app_nil_r. split; [reflexivity|].
    split; [eapply cli_inv_srv; eauto using srv_hist|]. split; [exact HS'|]. split; [apply (Hbk true); cbn; rewrite ?Z.eqb_refl; reflexivity|].
    destruct m as [u t f a st n nb da| | | | |]; try contradiction. assert (u = n_uid s) as -> by apply P7.
    destruct (Hlast _ _ _ _ _ _ _ _ P5 P6) as [Em Hfw].
    eapply ph_back with (rx := []); try reflexivity; eauto; try (cbn; rewrite Z.eqb_refl; reflexivity).
    destruct (encode_rsp_wf _ _ (reply_adu_ok q p Hq Hok Hn) He) as [(_ & X & _) _]. intros ->. cbn in X. lia.
Qed.

Lemma readable_split bs stream room : readable bs stream room = true -> bs <> [] /\ exists more, stream = bs ++ more /\ skipn (length bs) stream = more.
Proof.
  intros H. unfold readable in H. apply andb_true_iff in H as [H _]. apply andb_true_iff in H as [H1 H2].
  split; [intros ->; discriminate|]. clear H1. revert stream H2. induction bs as [|x bs IH]; intros stream H; cbn in *; [eauto|].
  destruct stream as [|y stream]; [discriminate|]. apply andb_true_iff in H as [Hx H]. apply Z.eqb_eq in Hx as ->.
  destruct (IH _ H) as (more & -> & E). exists more. auto.
Qed.

Lemma step_tosrv s h bs s' oc os : NI s h -> n_step s (NToSrv bs) = Some (s', oc, os) -> NI s' (h ++ [(NToSrv bs, oc, os)]).
Proof.
  intros (b1 & q1 & d & trs & done & cur & todo & f0 & fx & a0 & ax & r & Hup & HC & [] & HB & HP) H.
  cbn [n_step] in H. rewrite Hup in H. cbn [andb] in H.
  destruct (readable bs (n_c2s s) (srv_room s)) eqn:Er; [|discriminate]. apply readable_split in Er as (Hne & more & Ec & Esk).
  destruct (srv_event _ _) as [[s1 o1]|] eqn:Ev in H; [|discriminate]. injection H as <- <- <-.
  apply srv_event_inv in Ev as (En & Es & E1 & E2 & E3 & E4 & E5). cbn [n_srv n_cli n_uid n_c2s n_s2c n_up] in *.
  destruct HP as [P1 P2|it P1 P2 P3 P4|it m os0 P1 P2 P3 P4 P5 P6 P7|it m p0 q rx P1 P2|it m P1 P2];
    try (exfalso; rewrite P2 in Ec; destruct bs; [congruence|discriminate]).
  rewrite Ec in P4. set (uid := n_uid s) in *.
  assert (Hok : req_ok (i_req (stored it))) by (apply stored_ok; pose proof (cv_ok _ _ _ _ HC) as X; now inversion X).
  destruct (encode_req_wf _ _ Hok P4) as [(Hby & _) _]. unfold bytes_ok in Hby. apply Forall_app in Hby as [_ Hby]. apply Forall_app in Hby as [Hby _].
  destruct (forward b1 q1 (n_srv s) trs uid (i_req (stored it)) _ bs more sv_reach0 En Hok P4 Hne eq_refl) as (v2 & o2 & Es2 & Hopen & Hrdy & Hout).
  rewrite Es in Es2. apply some2 in Es2 as (<- & <-).
  assert (HR' : reach b1 q1 (n_srv s1) (trs ++ [(VData uid (RxBytes bs), o1)])) by (eapply re_step; eauto; exact Hby).
  assert (HS' : srv_inv b1 q1 s1 (trs ++ [(VData uid (RxBytes bs), o1)])) by (constructor; rewrite ?E2; auto).
  assert (HC' : cli_inv s1 (h ++ [(NToSrv bs, [], o1)]) d ([it] ++ todo)) by (eapply cli_inv_srv; eauto using tosrv_hist).
  assert (Hbk : forall f1, filter (is_req uid) o1 = f1 -> books uid (h ++ [(NToSrv bs, [], o1)]) done [it] todo f0 f1 a0 [] 0).
  { intros f1 Hf. destruct HB. constructor; rewrite ?submitted_snoc, ?forwarded_snoc, ?sent_snoc, ?replied_snoc, ?delivered_snoc, ?transmitted_snoc;
    cbn; rewrite ?Hf, ?app_nil_r in *; auto. now rewrite bk_fwd0. }
  destruct (Nat.eqb_spec (length more) 0) as [Hm|Hm].
  - apply length_zero_iff_nil in Hm as ->. destruct Hout as (m & Hfw & Eo).
    destruct m as [u t f a st n nb da| | | | |]; try contradiction. assert (u = uid) as -> by apply Hfw.
    set (m := TReq uid t f a st n nb da) in *.
    assert (Hq : filter (is_req uid) o1 = [m] /\ srv_octets uid o1 = [] /\ srv_closes uid o1 = false /\
                 fold_left (arm_next uid) o1 (w_armed (view_of uid trs)) = Some 5000000).
    { subst o1. unfold waitingb, m. cbn. rewrite Z.eqb_refl. destruct (w_armed (view_of uid trs)) as [t0|]; [destruct (Z.eqb_spec t0 5000000) as [->|]|];
      cbn; rewrite ?Z.eqb_refl; auto. }
    destruct Hq as (Q1 & Q2 & Q3 & Q4).
    exists b1, q1, d, (trs ++ [(VData uid (RxBytes bs), o1)]), done, [it], todo, f0, [m], a0, [], 0%nat.
    rewrite E2, E3, E4, E5, tosrv_hist, view_snoc, P1, P2, Q2, Q3, Esk. split; [reflexivity|].
    split; [exact HC'|]. split; [exact HS'|]. split; [now apply Hbk|].
    apply ph_app with (os := o1); auto.
    + cbn. rewrite Z.eqb_refl. reflexivity.
    + subst o1. now left.
  - assert (Hq : filter (is_req uid) o1 = [] /\ srv_octets uid o1 = [] /\ srv_closes uid o1 = false) by (destruct Hout as [->| ->]; auto).
    destruct Hq as (Q1 & Q2 & Q3).
    exists b1, q1, d, (trs ++ [(VData uid (RxBytes bs), o1)]), done, [it], todo, f0, [], a0, [], 0%nat.
    rewrite E2, E3, E4, E5, tosrv_hist, view_snoc, P1, P2, Q2, Q3, Esk. split; [reflexivity|].
    split; [exact HC'|]. split; [exact HS'|]. split; [now apply Hbk|].
    apply ph_out; auto.
    + intros ->. now apply Hm.
    + cbn [view_next w_rx]. rewrite Hrdy, Z.eqb_refl, <- app_assoc. exact P4.
Qed.

(** ** Delivery to the client *)
Lemma combine_snoc {A B} (l : list A) (m : list B) x y : length l = length m -> combine (l ++ [x]) (m ++ [y]) = combine l m ++ [(x, y)].
Proof. revert m. induction l as [|a l IH]; intros [|b m] H; cbn in *; try discriminate; auto. f_equal. auto. Qed.

Lemma step_tocli s h bs s' oc os : NI s h -> calm s h (NToCli bs) -> n_step s (NToCli bs) = Some (s', oc, os) -> NI s' (h ++ [(NToCli bs, oc, os)]).
Proof.
  intros (b1 & q1 & d & trs & done & cur & todo & f0 & fx & a0 & ax & r & Hup & [] & [] & HB & HP) Hcalm H.
  cbn [n_step] in H. rewrite Hup in H. cbn [andb] in H.
  destruct (readable bs (n_s2c s) (cli_room s)) eqn:Er; [|discriminate]. apply readable_split in Er as (Hne & more & Ec & Esk).
  destruct (cli_event _ _) as [[s1 o1]|] eqn:Ev in H; [|discriminate]. injection H as <- <- <-.
  cbn [calm] in Hcalm.
  destruct HP as [P1 P2 P3|it P1 P3|it m os0 P1 P2 P3 P4 P5 P6 P7|it m p q rx P1 P2 P3 P4 P5 P6 P7 P8 P9 P10 P11 P12 P13|it m P1 P2 P3];
    try (exfalso; rewrite P3 in Ec; destruct bs; [congruence|discriminate]).
  specialize (Hcalm rx P1). rewrite P1 in cv_ci0. rewrite Ec in P13.
  pose proof (reply_adu_ok q p P9 P10 P12) as Hrok.
  destruct (encode_rsp_wf _ _ Hrok P13) as [(Hby & _) Hlen]. unfold bytes_ok in Hby. apply Forall_app in Hby as [_ Hby]. apply Forall_app in Hby as [Hby _].
  apply (cli_event_inv _ _ _ _ d) in Ev as (d' & En & Es & HC & E1 & E2 & E3 & E4 & E5); [|exact cv_rc0|exact Hby].
  cbn [n_srv n_cli n_uid n_c2s n_s2c n_up app map] in *.
  assert (Hcut : more = [] \/ (length rx + length bs < 6)%nat \/ (6 < length more)%nat).
  { destruct Hcalm as [Hc|[Hc|Hc]]; auto.
    - left. rewrite Ec in Hc. rewrite <- (app_nil_r bs) in Hc at 1. now apply app_inv_head in Hc.
    - right. right. rewrite Ec, app_length in Hc. lia. }
  destruct (cli_data d (stored it) (map stored todo) rx bs more (reply_adu q p) cv_ci0 cv_store0 cv_fd0 Hrok P13 Hne Hcut)
    as (d2 & o2 & Es2 & K1 & K2 & K3 & K4 & K5).
  rewrite Es in Es2. apply some2 in Es2 as (<- & <-).
  pose proof (sf_inv _ _ _ _ _ (step_ok _ _ _ _ _ cv_ci0 (Hby : ev_ok (EData (RxBytes bs))) En Es)) as HI'.
  set (x := (NToCli bs, o1, []) : nev * list cout * list sout).
  assert (Hw : wire_after None (cli_hist (h ++ [x])) = wire_next (Some rx) (EData (RxBytes bs)) o1) by (rewrite cli_hist_snoc, wire_app, P1; reflexivity).
  assert (Hcr : c_st d = CReceive) by apply (ci_wire _ _ cv_ci0).
  assert (Har : armed_for (cli_hist (h ++ [x])) = timer_of (c_st d')).
  { rewrite cli_hist_snoc, armed_app. cbn [cli_hist flat_map ev_of cli_of x fst snd app fold_left]. rewrite cv_armed0, Hcr. exact K4. }
  assert (HS' : srv_inv b1 q1 s1 trs) by (constructor; rewrite ?E1, ?E2; auto).
  apply Forall_cons_iff in cv_ok0 as [Hit Hrest]. subst m.
  destruct (Nat.eqb_spec (length more) 0) as [Hm|Hm].
  - apply length_zero_iff_nil in Hm as ->. destruct K5 as (o & -> & Ho & Hj & K6 & K7).
    assert (Hw' : wire_next (Some rx) (EData (RxBytes bs)) [o; OStop; OTimer 10000] = None).
    { destruct (wire_next _ _ _) eqn:Ew; [|auto]. pose proof (ci_wire _ _ HI') as [X _]. congruence. }
    rewrite Hw' in *.
    exists b1, q1, d', trs, (done ++ [it]), [], todo, (f0 ++ [req_msg (n_uid s) q]), [], (a0 ++ [p]), [], 0%nat.
    rewrite E2, E3, E4, E5, Hw, K2, K3, P2, Esk. split; [reflexivity|]. split; [|split; [exact HS'|split; [|now apply ph_idle]]].
    + constructor; rewrite ?Hw; auto. now rewrite K6.
    + destruct HB. assert (Hdel : delivered_in [x] = [o]) by (unfold x; cbn; rewrite Ho; reflexivity).
      assert (Htx : transmitted (cli_hist [x]) = []) by (unfold x; cbn; destruct o; try discriminate; reflexivity).
      constructor; rewrite ?submitted_snoc, ?forwarded_snoc, ?sent_snoc, ?replied_snoc, ?delivered_snoc, ?transmitted_snoc, ?Hdel, ?Htx;
      unfold x; cbn; rewrite ?app_nil_r in *; auto.
      * rewrite app_length. cbn. lia.
      * rewrite !app_length. cbn. lia.
      * rewrite !app_length. cbn. lia.
      * apply Forall2_app; auto. constructor; [|constructor]. now apply forwards_stored.
      * rewrite combine_snoc by congruence. apply Forall2_app; auto. constructor; [|constructor]. cbn.
        eapply judged_told; eauto.
  - destruct K5 as (-> & K6 & K7).
    assert (Hw' : wire_next (Some rx) (EData (RxBytes bs)) [] = Some (rx ++ bs)).
    { pose proof (ci_wire _ _ HI') as X. revert X. destruct (wire_next _ _ _) eqn:Ew; intros X; [|congruence]. unfold wire_next in Ew. cbn [has rsps flat_map] in Ew. cbv zeta in Ew. destruct (bad_length _) in Ew; [discriminate|].
      rewrite <- Ew. f_equal. apply firstn_all2. rewrite !app_length in *. lia. }
    rewrite Hw' in *.
    exists b1, q1, d', trs, done, [it], todo, f0, [req_msg (n_uid s) q], a0, [p], 1%nat.
    rewrite E2, E3, E4, E5, Hw, K2, K3, P2, Esk. split; [reflexivity|]. split; [|split; [exact HS'|split]].
    + constructor; rewrite ?Hw; auto; rewrite ?K6, ?K7; auto. now constructor.
    + destruct HB. constructor; rewrite ?submitted_snoc, ?forwarded_snoc, ?sent_snoc, ?replied_snoc, ?delivered_snoc, ?transmitted_snoc;
      unfold x; cbn; rewrite ?app_nil_r in *; auto.
    + eapply ph_back; eauto; [intros ->; now apply Hm|]. rewrite <- app_assoc. exact P13.
Qed.

(** ** The start *)
Lemma start_ni m0 b0 es c tr b1 q1 v trs uid : length b0 = 512%nat -> bytes_ok b0 -> Forall ev_ok es ->
  boot m0 b0 (es ++ [EConnected]) = Some (c, tr ++ [(EConnected, [OStop])]) ->
  reach b1 q1 v (trs ++ [(VAccept true true true, [TArm uid 30000000])]) ->
  NI (mkNet c v uid [] [] true) [].
Proof.
  intros Hl Hb Hev E HR.
  assert (Hev' : Forall ev_ok (es ++ [EConnected])) by (apply Forall_app; split; [auto|repeat constructor]).
  destruct (boot_list _ _ _ _ _ Hl Hb Hev' E) as (d & R & HC & HI).
  destruct (run_app _ _ _ _ _ R) as (d1 & t1 & t2 & R1 & R2 & Et).
  assert (Hd : c_st d = CConnected /\ c_fd d = true).
  { unfold lc_run in R2. cbn [c_run] in R2. destruct (enabled d1 EConnected) eqn:En; [|discriminate].
    destruct (c_step _ _ _ _ d1 EConnected) as [[d2 o2]|] eqn:Es; [|discriminate]. apply some2 in R2 as (-> & <-).
    apply app_inj_tail in Et as [_ Et]. injection Et as <-. cbn in En.
    unfold c_step in Es. destruct d1 as [st fd tm s b p l]. cbn in En. subst fd. destruct st; cbn in Es; apply some2 in Es as (<- & Eo); try (discriminate Eo); auto. }
  destruct Hd as [Hst Hfd].
  assert (Hw : CI d None).
  { pose proof (ci_wire _ _ HI) as X. destruct (wire_after None _) eqn:Ew in HI; rewrite ?Ew in *; [|exact HI]. destruct X. congruence. }
  apply reach_snoc in HR as HR0. destruct HR0 as (v0 & HR0 & _ & Hen & Hs).
  assert (Hx : 0 <= uid < 256 /\ forall r, srv_enabled v (VData uid r) = true).
  { cbn [srv_step] in Hs. pose proof (reach_inv _ _ _ _ HR0) as [L S (owned & O1 & O2 & O3) T].
    destruct (v_acc v0) eqn:Ea; cbn [negb] in Hs; [|discriminate].
    destruct (pool_alloc (v_pool v0)) as [[p' [u|]]|] eqn:Ep; [| discriminate|discriminate].
    pose proof (pool_alloc_sound _ _ _ _ (proj1 cap_ok) (proj2 cap_ok) O1) as (Hnd & Hr & Ho). rewrite Ep in Ho.
    destruct Ho as (Hur & Hnin & Hlt). change (0 + Z.of_nat 256) with 256 in Hur.
    assert (O1' : pool_hist 0 256 (u :: owned) p') by (eapply ph_alloc; eauto).
    unfold srv_on in Hs. cbn [v_pool v_sess v_acc] in Hs.
    rewrite (hist_get _ _ u O1') in Hs by (unfold is_u32; lia).
    destruct (Z.ltb_spec u 256); [|lia].
    destruct (nth_error (v_sess v0) (Z.to_nat u)) as [s|] eqn:En; [|discriminate Hs].
    assert (Hi : x_st s = SInit).
    { destruct (x_st s) eqn:Es; auto; exfalso; apply Hnin; eapply O2; eauto; congruence. }
    destruct (s_prepare u s true true true) as [[s' os']|] eqn:Ek; [|discriminate Hs].
    destruct (prepare_ok _ _ _ _ _ _ _ _ (S u s Hur En) Hi Ek) as [HS Hc].
    destruct Hc as [(_ & _ & Hlk & ->)|(Hc & _)]; [|discriminate Hc]. cbn [srv_release] in Hs.
    injection Hs as <- Eu. subst u. split; [auto|]. intros r. apply (link_enabled _ _ s'); auto.
    unfold session_of. cbn [v_pool v_sess]. rewrite (hist_get _ _ _ O1') by (unfold is_u32; lia).
    destruct (Z.ltb_spec uid 256); [|lia]. apply nth_error_upd_eq. lia. }
  destruct Hx as [Hu Hopen].
  exists b1, q1, d, (trs ++ [(VAccept true true true, [TArm uid 30000000])]), [], [], [], [], [], [], [], 0%nat.
  cbn. split; [reflexivity|]. split; [|split; [|split]].
  - constructor; cbn; auto; rewrite ?Hst; auto. apply (ci_idle _ _ HI). now rewrite Hst.
  - constructor; cbn; auto.
  - constructor; cbn; auto; constructor.
  - apply ph_idle; auto; rewrite view_snoc; cbn; now rewrite Z.eqb_refl.
Qed.

Theorem calm_ni s h : nreach calm s h -> NI s h.
Proof.
  induction 1 as [m0 b0 es c tr b1 q1 v trs uid Hl Hb Hev E HR|s h e s' oc os _ IH Hok Hcalm H].
  - eapply start_ni; eauto.
  - destruct e as [e|e|bs|bs].
    + cbn [n_step] in H. destruct (plain_cli e); [|discriminate]. destruct (cli_event s e) as [[s1 o1]|] eqn:Ev; [|discriminate].
      injection H as <- <- <-. destruct e as [cok|it| |rx| |sok cok]; cbn [calm] in Hcalm; try contradiction.
      * eapply step_req; eauto.
      * destruct Hcalm as [-> Ha]. eapply step_timer; eauto.
    + cbn [n_step] in H. destruct (plain_srv (n_uid s) e); [|discriminate]. destruct (srv_event s e) as [[s1 o1]|] eqn:Ev; [|discriminate].
      injection H as <- <- <-. cbn [nev_ok] in Hok.
      destruct e as [tok lok aok|u r|u|u|p sok|]; cbn [calm] in Hcalm; try (eapply step_other; eauto; exact Hcalm || exact I).
      destruct (Z.eq_dec (p_session p) (n_uid s)) as [Hp|Hp].
      * destruct (Hcalm Hp) as [-> Hlt]. eapply step_reply; eauto.
      * eapply step_other; eauto.
    + eapply step_tosrv; eauto.
    + eapply step_tocli; eauto.
Qed.
