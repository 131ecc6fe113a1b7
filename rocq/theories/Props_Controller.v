(** C56, C99-C103: the controller component and its Modbus and OPC UA parts. *)
From Verif Require Import Base MsgStorageModel ModbusCodecModel ModbusCodecSpec ModbusClientModel ModbusClientProofs ModbusCompModel ModbusCompSpec Props_ModbusComp.
From Verif Require Import ControllerModel ControllerSpec ControllerProofs ControllerFacts.
Local Open Scope Z_scope.

(** Octets for the examples. *)
Definition g0 : list Z := map (fun n => Z.of_nat n mod 256) (seq 0 2048).
Lemma g0_ok : octets2048 g0.
Proof. vm_compute. reflexivity. Qed.
Lemma kfeed_reach g : forall es c tr c' tr', kreach g c tr -> Forall msg_ok es -> (forall e, In e es -> is_tick e = false) ->
  kfeed g c tr es = Some (c', tr') -> kreach g c' tr'.
Proof.
  induction es as [|e es IH]; intros c tr c' tr' Hr Ho Ht H; cbn [kfeed] in H; [injection H as <- <-; exact Hr|].
  destruct (k_step g c e) as [[c1 os]|] eqn:E; [|discriminate H]. inversion Ho; subst.
  apply (IH c1 (tr ++ [(e, os)]) c' tr'); auto; [|intros; apply Ht; now right]. apply kr_step with (c := c); auto.
  specialize (Ht e (or_introl eq_refl)). destruct e as [| |[]| |]; cbn in *; congruence.
Qed.

(** * C56 *)
(** A start sends the four initialisation requests; whatever ran before is replaced. *)
Theorem C56_start g c tr : octets2048 g -> kreach g c tr ->
  exists c', k_step g c (KStart true) =
    Some (c', [KoTimerNew] ++ (if started tr then [KoTimerFree] else []) ++ [KoModbusInit 1 1; KoInit LChannel; KoInit LTransport; KoInit LService]) /\
  k_step g c (KStart false) = Some (c, [KoThrow]).
Proof.
  intros Hg Hr. rewrite (inv_started g c tr (kreach_inv g c tr Hg Hr)). eexists. split; [|reflexivity]. cbn [k_step negb m_step m_new m_st app ua_start].
  destruct (k_modbus c); reflexivity.
Qed.
Print Assumptions C56_start.
(** The initialisation of a layer is answered by its configuration, of the transport with the address 127.0.0.1:4369. *)
Theorem C56_layers g c tr l : octets2048 g -> kreach g c tr ->
  k_step g c (KInited l) = Some (c, if started tr then [KoConfig l (match l with LTransport => [127; 0; 0; 1; 17; 17] | _ => [] end)] else []).
Proof.
  intros Hg Hr. pose proof (kreach_inv g c tr Hg Hr) as I. rewrite (inv_started g c tr I). unfold KInv in I. cbn [k_step]. unfold ua_inited, uaAddr.
  destruct (k_modbus c); destruct I as (-> & _); destruct l; reflexivity.
Qed.
Print Assumptions C56_layers.
(** The requests of a round: client, function, device, register, registers, octets to write. *)
Definition round_table : list (Z * Z * Z * Z * Z * Z) :=
  [ (0, 16, 1, 890, 120, 240); (0, 4, 1, 0, 126, 0); (0, 4, 1, 10, 10, 0); (0, 4, 1, 890, 120, 0); (0, 6, 1, 190, 0, 2); (0, 6, 1, 190, 10, 2);
    (0, 6, 1, 190, 0, 0); (0, 16, 1, 890, 120, 240); (0, 16, 1, 256, 1, 2); (0, 16, 1, 256, 1, 4); (0, 4, 1, 10, 125, 0); (0, 4, 1, 0, 0, 0);
    (99, 4, 1, 10, 125, 0); (0, 99, 1, 10, 125, 0); (0, 4, 248, 10, 125, 0); (0, 6, 1, 190, 0, 2) ].
Definition round_item (g : list Z) (x : nat * (Z * Z * Z * Z * Z * Z)) : item :=
  let '(i, (cl, f, dev, s, n, b)) := x in mkItem cl (mkReq (Z.of_nat i) f dev s n b (firstn (Z.to_nat b) g)).
Definition round_items (g : list Z) : list item := map (round_item g) (combine (seq 0 16) round_table).

Lemma case_items_map : forall cs i, case_items i cs = map (fun x => case_item (fst x) (snd x)) (combine (seq i (length cs)) cs).
Proof. induction cs as [|c cs IH]; intros i; [reflexivity|]. cbn [case_items length seq combine map fst snd]. now rewrite IH. Qed.
Lemma case_item_image i t v : case_item i (set_image t v) = case_item i t.
Proof. reflexivity. Qed.
Lemma items_fixed g tr cs : octets2048 g -> cases_ok g tr cs -> case_items 0 cs = case_items 0 (test_cases g).
Proof.
  intros Hg [Hl Hc]. rewrite !case_items_map, Hl. change (length (test_cases g)) with 16%nat.
  apply nth_error_ext. intros i. rewrite !nth_error_map.
  assert (N : forall l : list tcase, length l = 16%nat -> nth_error (combine (seq 0 16) l) i = match nth_error l i with Some t => Some (i, t) | None => None end).
  { intros l L. destruct (nth_error l i) as [t|] eqn:E.
    - assert (i < 16)%nat by (rewrite <- L; apply nth_error_Some; congruence).
      assert (G : forall n s (l : list tcase) j t, length l = n -> nth_error l j = Some t -> nth_error (combine (seq s n) l) j = Some (s + j, t)%nat).
      { clear. induction n as [|n IH]; intros s l j t L E; destruct l as [|x l]; try discriminate L; [destruct j; discriminate E|].
        destruct j as [|j]; cbn [seq combine nth_error] in *; [injection E as <-; now rewrite Nat.add_0_r|].
        rewrite (IH (S s) l j t) by (congruence || (cbn in L; lia)). f_equal. f_equal. lia. }
      exact (G 16%nat 0%nat l i t L E).
    - apply nth_error_None. rewrite combine_length, seq_length, L. apply nth_error_None in E. lia. }
  rewrite !N by (exact Hl || reflexivity). clear N.
  destruct (nth_error cs i) as [t|] eqn:E.
  - destruct (Hc i t E) as (A & _). rewrite A. reflexivity.
  - apply nth_error_None in E. replace (nth_error (test_cases g) i) with (@None tcase); [reflexivity|]. symmetry. apply nth_error_None. change (length (test_cases g)) with 16%nat. lia.
Qed.
Lemma items_round g : octets2048 g -> case_items 0 (test_cases g) = round_items g.
Proof.
  intros Hg. unfold octets2048 in Hg. unfold round_items. cbn [seq combine round_table map round_item].
  assert (L : forall n, (n <= 240)%nat -> Z.of_nat (length (firstn n g)) = Z.of_nat n) by (intros n Hn; rewrite firstn_length; lia).
  cbn [case_items test_cases]. unfold case_item, write_many, write_one, read_regs. cbn [tc_client tc_addr tc_func tc_start tc_num tc_write].
  rewrite !L by lia. reflexivity.
Qed.
(** The Modbus part advances from initialised to configured to a round of requests, each on the response to the previous step; out of step the
    responses have no effect.  One client and one server are configured, both on 127.0.0.1:12145. *)
Theorem C56_modbus g c tr : octets2048 g -> kreach g c tr ->
  (exists c', k_step g c (KModbus TvInitRsp) =
     Some (c', match stage_of tr with GInit => [KoModbusConfig [(0, true, [127; 0; 0; 1; 47; 113]); (0, false, [127; 0; 0; 1; 47; 113])]] | _ => [] end)) /\
  (exists c', k_step g c (KModbus TvConfigRsp) = Some (c', match stage_of tr with GConfig => [KoBatch (round_items g)] | _ => [] end)) /\
  (stage_of tr = GPause -> exists c', k_step g c (KModbus TvTimer) = Some (c', [KoDisarm; KoBatch (round_items g)])) /\
  (stage_of tr <> GInit -> k_step g c (KModbus TvInitRsp) = Some (c, [])) /\
  (stage_of tr <> GConfig -> k_step g c (KModbus TvConfigRsp) = Some (c, [])) /\
  k_step g c (KModbus TvReleaseRsp) = Some (c, []).
Proof.
  intros Hg Hr. pose proof (kreach_inv g c tr Hg Hr) as I. unfold KInv in I. destruct c as [[m|] ua]; cbn [k_modbus k_ua] in I.
  - destruct I as (_ & (I1 & I2 & I3 & I4 & I5) & _). rewrite I1. pose proof (items_fixed g tr _ Hg I5) as F. rewrite (items_round g Hg) in F.
    cbn [k_step k_modbus k_ua]. destruct m as [st tm cnt cs]. cbn [m_st m_cases m_timer m_count] in *.
    destruct st; cbn [stage_st m_step m_st pauses] in *;
      try rewrite !transit_spec by (cbn [m_st n_timer]; discriminate); cbn [m_st m_cases m_timer n_timer m_count pauses polls app]; rewrite ?F;
      repeat apply conj; try (intros D; exfalso; (discriminate D || (apply D; reflexivity))); try (eexists; reflexivity); try reflexivity;
      try (intros _; eexists; reflexivity); intros _; reflexivity.
  - destruct I as (_ & I1 & _). rewrite I1. cbn [k_step k_modbus]. repeat apply conj; try (intros D; discriminate D); try (eexists; reflexivity); intros; reflexivity.
Qed.
Print Assumptions C56_modbus.
(** A round fits the message that carries it, and the receiver reads exactly its requests. *)
Theorem C56_round_fits g m : octets2048 g -> bytes_ok g -> length m = 4096%nat ->
  exists m' n, write_batch m (round_items g) = Some m' /\ msg_size m' = Some n /\ n <= 4096 /\
    length (round_items g) = 16%nat /\ forall i it, nth_error (round_items g) i = Some it -> q_tid (i_req it) = Z.of_nat i.
Proof.
  intros Hg Hb Hm. assert (Hlen : forall n, (n <= 240)%nat -> length (firstn n g) = n) by (intros n Hn; unfold octets2048 in Hg; rewrite firstn_length; lia).
  assert (Hfb : forall n, bytes_ok (firstn n g)).
  { intros n. unfold bytes_ok in *. rewrite <- (firstn_skipn n g) in Hb. now apply Forall_app in Hb. }
  assert (Hrooms : (rooms (round_items g) <= 4080)%nat).
  { unfold round_items, rooms. cbn [seq combine round_table map round_item]. unfold room. cbn [i_req q_data]. rewrite !Hlen by lia. vm_compute. lia. }
  assert (Hok : Forall item_ok (round_items g)).
  { unfold round_items. cbn [seq combine round_table map round_item].
    repeat (constructor; [unfold item_ok, req_ok; cbn [i_req i_client q_data q_nbytes q_tid q_func q_addr q_start q_nitems]; try rewrite !Hlen by lia; unfold is_u32, is_u16, is_byte; repeat apply conj; try apply Hfb; try (cbn [length]; lia)|]).
    constructor. }
  destruct (C92_inside_partial (round_items g) m Hok) as (m' & n & A & B & C); [unfold round_items; cbn [seq combine round_table map length]; lia|exact Hm|exact Hrooms|].
  exists m', n. do 3 (split; [assumption|]). split; [reflexivity|]. intros i it. unfold round_items. cbn [seq combine round_table map round_item].
  do 16 (destruct i as [|i]; [cbn [nth_error]; intros E; injection E as <-; reflexivity|]). cbn [nth_error]. destruct i; discriminate.
Qed.
Print Assumptions C56_round_fits.
(** Over any history: configurations follow initialisations, every further round follows 16 responses to the previous one, and one timer is held
    exactly while the controllers exist. *)
Theorem C56_progress g c tr : octets2048 g -> kreach g c tr ->
  tally is_config (kouts tr) <= tally is_inited (kevs tr) /\
  16 * tally is_batch (kouts tr) <= 16 * tally is_configured (kevs tr) + tally is_rsp (kevs tr) /\
  tally is_new (kouts tr) = tally is_free (kouts tr) + (if started tr then 1 else 0).
Proof.
  intros Hg Hr. pose proof (kreach_inv g c tr Hg Hr) as I. rewrite (inv_started g c tr I). unfold KInv in I. destruct (k_modbus c) as [m|].
  - destruct I as (_ & (_ & _ & I3 & _) & (C1 & C2 & C3 & C4 & C5)). split; [exact C1|]. split; [|exact C2]. destruct (pauses (m_st m)), (polls (m_st m)); lia.
  - destruct I as (_ & _ & (C1 & C2 & C3 & C4 & C5)). split; [exact C1|]. split; [lia|exact C2].
Qed.
Print Assumptions C56_progress.
(** Without controllers every message but a start and a stop is without effect. *)
Theorem C56_ignored g c tr e : octets2048 g -> kreach g c tr -> started tr = false -> match e with KStart _ | KStop => False | _ => True end ->
  k_step g c e = Some (c, []).
Proof.
  intros Hg Hr Hs He. pose proof (kreach_inv g c tr Hg Hr) as I. rewrite (inv_started g c tr I) in Hs. unfold KInv in I.
  destruct c as [[m|] ua]; cbn [k_modbus k_ua] in *; [discriminate Hs|]. destruct I as (-> & _). destruct e; try destruct He; reflexivity.
Qed.
Print Assumptions C56_ignored.
(** A stop is undefined (it follows a null pointer) exactly when no controllers exist, in particular as the first message ... *)
Theorem C56_stop_undefined g c tr : octets2048 g -> kreach g c tr -> (k_step g c KStop = None <-> started tr = false).
Proof. intros Hg Hr. refine (step_defined g c tr KStop Hg Hr _). split; exact I. Qed.
Print Assumptions C56_stop_undefined.
Theorem C56_stop_refuted : forall g, k_step g ctrl0 KStop = None.
Proof. reflexivity. Qed.
Print Assumptions C56_stop_refuted.
(** ... and a second start initialises everything again without releasing what the first has set up. *)
Theorem C56_once_refuted : exists c tr, kreach g0 c tr /\ started tr = true /\
  tally (fun o => match o with KoModbusInit _ _ => true | _ => false end) (kouts tr) = 2 /\
  tally (fun o => match o with KoModbusRelease | KoRelease _ => true | _ => false end) (kouts tr) = 0.
Proof.
  destruct (kfeed g0 ctrl0 [] [KStart true; KStart true]) as [[c tr]|] eqn:E; [|vm_compute in E; discriminate E].
  exists c, tr. split.
  - refine (kfeed_reach g0 _ _ _ _ _ (kr_new g0) _ _ E); [repeat constructor|]. intros e [<-|[<-|[]]]; reflexivity.
  - apply (f_equal (option_map snd)) in E. cbv [kfeed k_step negb m_step m_new m_st app ua_start option_map snd k_modbus ctrl0] in E. injection E as <-. vm_compute. auto.
Qed.
Print Assumptions C56_once_refuted.
Definition boot_evs : list kev := [KStart true; KModbus TvInitRsp; KInited LTransport; KModbus TvConfigRsp].
Lemma boot_run g : octets2048 g -> exists c tr, kfeed g ctrl0 [] boot_evs = Some (c, tr) /\ kreach g c tr /\ stage_of tr = GPoll /\ kouts tr =
  [KoTimerNew; KoModbusInit 1 1; KoInit LChannel; KoInit LTransport; KoInit LService; KoModbusConfig config_items; KoConfig LTransport uaAddr; KoBatch (round_items g)] /\
  no_start (tl tr) /\ (forall q os, ~ In (KModbus (TvReq q), os) tr) /\ forall i k, cell g tr i k = nth (Z.to_nat k) g 0.
Proof.
  intros Hg. destruct (kfeed g ctrl0 [] boot_evs) as [[c tr]|] eqn:E; [|discriminate E]. exists c, tr. split; [reflexivity|].
  assert (R : kreach g c tr) by (refine (kfeed_reach g _ _ _ _ _ (kr_new g) _ _ E); [repeat constructor|]; intros e H; cbn in H; intuition (subst; reflexivity)).
  split; [exact R|]. apply (f_equal (option_map snd)) in E.
  cbv [boot_evs kfeed k_step negb m_step m_new m_st app ua_start option_map snd k_modbus k_ua ctrl0 m_transit mst_eqb m_exit m_enter n_st n_count m_timer m_count m_cases ua_inited] in E.
  rewrite (items_round g Hg) in E. injection E as <-. split; [reflexivity|]. split; [reflexivity|]. split; [intros tok os H; cbn in H; intuition discriminate|].
  split; [|reflexivity]. intros q os H. cbn in H. intuition discriminate.
Qed.
Example C56_case : exists c tr, kreach g0 c tr /\ stage_of tr = GPoll /\ started tr = true /\ tally is_batch (kouts tr) = 1.
Proof.
  destruct (boot_run g0 g0_ok) as (c & tr & _ & A & B & C & _). exists c, tr. split; [exact A|]. split; [exact B|]. unfold started. rewrite B, C. split; reflexivity.
Qed.

(** * C99 *)
(** A stop of running controllers gives the timer back and sends the three layers a release; the Modbus component is released too unless its
    configuration is being awaited. *)
Theorem C99_stop_partial g c tr : octets2048 g -> kreach g c tr -> started tr = true ->
  exists a, k_step g c KStop = Some (ctrl0, a ++ [KoTimerFree; KoRelease LChannel; KoRelease LTransport; KoRelease LService]) /\
    (In KoModbusRelease a <-> stage_of tr <> GConfig) /\ (In KoDisarm a <-> stage_of tr = GPause).
Proof.
  intros Hg Hr Hs. destruct (inv_some g c tr (kreach_inv g c tr Hg Hr) Hs) as (m & A & B & (I1 & I2 & I3 & I4 & I5) & _).
  cbn [k_step]. rewrite A, B, I1. destruct (m_st m) eqn:Es; cbn [m_step stage_st]; rewrite Es; try rewrite transit_spec by (rewrite Es; discriminate); rewrite ?Es;
    cbn [pauses app]; eexists; (split; [rewrite ?app_assoc; f_equal; f_equal; unfold ua_stop; (exact (eq_refl ([_] ++ [_; _; _; _])) || exact (eq_refl ([] ++ [_; _; _; _])) || exact (eq_refl ([_; _] ++ [_; _; _; _])))|]);
    split; split; intros H; cbn [In] in *; try (intuition congruence); auto.
Qed.
Print Assumptions C99_stop_partial.
(** While the configuration is awaited a stop leaves the Modbus component initialised for good: whatever comes before the next start, no release
    is sent. *)
Lemma feed_stopped g : octets2048 g -> forall es c tr, kreach g c tr -> started tr = false -> Forall msg_ok es ->
  Forall (fun e => match e with KStart _ | KStop => False | _ => True end) es -> (forall e, In e es -> is_tick e = false) ->
  kfeed g c tr es = Some (c, tr ++ map (fun e => (e, [])) es).
Proof.
  intros Hg. induction es as [|e es IH]; intros c tr Hr Hs Ho Hn Ht; cbn [kfeed map]; [now rewrite app_nil_r|].
  inversion Ho; subst. inversion Hn; subst. rewrite (C56_ignored g c tr e Hg Hr Hs) by assumption.
  rewrite IH; [rewrite <- app_assoc; reflexivity| | |assumption|assumption|intros; apply Ht; now right].
  - apply kr_step with (c := c); auto.
    + specialize (Ht e (or_introl eq_refl)). destruct e as [| |[]| |]; cbn in *; congruence.
    + now apply (C56_ignored g c tr e Hg Hr Hs).
  - unfold started. rewrite stage_snoc. exact Hs.
Qed.
Theorem C99_refuted : exists c tr, kreach g0 c tr /\ started tr = false /\
  tally (fun o => match o with KoModbusInit _ _ => true | _ => false end) (kouts tr) = 1 /\
  forall es, Forall msg_ok es -> Forall (fun e => match e with KStart _ | KStop => False | _ => True end) es -> (forall e, In e es -> is_tick e = false) ->
    exists tr', kfeed g0 c tr es = Some (c, tr') /\ ~ In KoModbusRelease (kouts tr').
Proof.
  destruct (kfeed g0 ctrl0 [] [KStart true; KModbus TvInitRsp; KStop]) as [[c tr]|] eqn:E; [|discriminate E].
  assert (R : kreach g0 c tr) by (refine (kfeed_reach g0 _ _ _ _ _ (kr_new g0) _ _ E); [repeat constructor|]; intros e H; cbn in H; intuition (subst; reflexivity)).
  exists c, tr. apply (f_equal (option_map snd)) in E.
  cbv [kfeed k_step negb m_step m_new m_st app ua_start option_map snd k_modbus k_ua ctrl0 m_transit mst_eqb m_exit m_enter n_st n_count m_timer m_count m_cases ua_stop] in E.
  injection E as Etr. assert (S : started tr = false) by (rewrite <- Etr; reflexivity).
  split; [exact R|]. split; [exact S|]. split; [rewrite <- Etr; vm_compute; reflexivity|].
  intros es H1 H2 H3. exists (tr ++ map (fun e => (e, [])) es). split; [now apply feed_stopped; [apply g0_ok|..]|].
  unfold kouts. rewrite map_app, concat_app. replace (concat (map snd (map (fun e : kev => (e, @nil kout)) es))) with (@nil kout).
  - rewrite app_nil_r. fold (kouts tr). rewrite <- Etr. vm_compute. intuition discriminate.
  - clear. induction es as [|e es IH]; [reflexivity|exact IH].
Qed.
Print Assumptions C99_refuted.
Example C99_case : exists c tr, kreach g0 c tr /\ started tr = true /\ stage_of tr <> GConfig.
Proof. destruct C56_case as (c & tr & A & B & C & _). exists c, tr. rewrite B. repeat split; auto. discriminate. Qed.

(** * C100 *)
(** The controller leaves its tables and messages exactly on requests beyond the 16 transactions or the 2048 octets, and on responses beyond the 16
    transactions, while a round runs. *)
Theorem C100_inside_partial g c tr e : octets2048 g -> kreach g c tr -> msg_ok e ->
  (k_step g c e = None <->
   match e with
   | KStop => started tr = false
   | KModbus (TvReq q) => stage_of tr = GPoll /\ ~ fits q
   | KModbus (TvRsp r) => stage_of tr = GPoll /\ 16 <= r_tid r
   | _ => False
   end).
Proof. apply step_defined. Qed.
Print Assumptions C100_inside_partial.
(** Requests as a Modbus master may send them leave the tables: by transaction number, and by register. *)
Theorem C100_refuted : exists c tr, kreach g0 c tr /\
  k_step g0 c (KModbus (TvReq (mkMreq 0 0 16 3 0 1 0 []))) = None /\
  k_step g0 c (KModbus (TvReq (mkMreq 0 0 0 3 1024 1 0 []))) = None /\
  k_step g0 c (KModbus (TvReq (mkMreq 0 0 0 6 65535 0 2 [1; 2]))) = None.
Proof.
  destruct (boot_run g0 g0_ok) as (c & tr & _ & R & S & _). exists c, tr. split; [exact R|].
  assert (W : forall q, mreq_ok q -> ~ fits q -> k_step g0 c (KModbus (TvReq q)) = None).
  { intros q Hq Hf. apply (step_defined g0 c tr (KModbus (TvReq q)) g0_ok R); [split; [exact I|exact Hq]|]. auto. }
  split; [|split]; apply W; unfold mreq_ok, is_u16, fits, is_read, is_write; cbn [a_tid a_start a_num a_nbytes a_data a_func length]; lia.
Qed.
Print Assumptions C100_refuted.
(** The round's own requests are always served. *)
Theorem C100_own g c tr q : octets2048 g -> kreach g c tr -> mreq_ok q -> own g q -> k_step g c (KModbus (TvReq q)) <> None.
Proof.
  intros Hg Hr Hq (f & s & n & b & A1 & A2 & A3 & A4 & A5). rewrite (step_defined g c tr (KModbus (TvReq q)) Hg Hr) by (split; [exact I|exact Hq]).
  intros [_ F]. apply F. pose proof (asked_range _ _ A1) as Hi. destruct Hq as (T1 & T2 & T3 & T4 & T5). unfold is_u16 in *.
  unfold fits. split; [exact Hi|]. rewrite A2, A3.
  assert (C : a_tid q = 0 \/ a_tid q = 1 \/ a_tid q = 2 \/ a_tid q = 3 \/ a_tid q = 4 \/ a_tid q = 5 \/ a_tid q = 6 \/ a_tid q = 7 \/ a_tid q = 8 \/ a_tid q = 9 \/ a_tid q = 10 \/ a_tid q = 11 \/ a_tid q = 12 \/ a_tid q = 13 \/ a_tid q = 14 \/ a_tid q = 15) by lia.
  repeat (destruct C as [C|C]); rewrite C in A1; cbn in A1; try discriminate A1; injection A1 as <- <- <- <-; unfold is_read, is_write in *;
    (split; [intros D; try specialize (A4 D)|intros D; try specialize (A5 D)]); lia.
Qed.
Print Assumptions C100_own.
Example C100_case : own g0 (mkMreq 0 0 3 4 890 120 0 []).
Proof. exists 4, 890, 120, 0. repeat split; unfold is_write; cbn; auto; lia. Qed.

(** * C101 *)
(** A read is answered with the octets last written through the same transaction number since the start, whoever wrote them. *)
Theorem C101_registers_partial g c tr q c' os : octets2048 g -> kreach g c tr -> mreq_ok q -> stage_of tr = GPoll -> is_read (a_func q) ->
  k_step g c (KModbus (TvReq q)) = Some (c', os) ->
  exists ok err, os = [KoReply (a_server q) (a_session q) (a_tid q) ok err ((a_num q * 2) mod 65536) (cells g tr (a_tid q) (a_start q * 2) ((a_num q * 2) mod 65536))].
Proof.
  intros Hg Hr Hq Hs Hf H. destruct (inv_poll g c tr (kreach_inv g c tr Hg Hr) Hs) as (m & A & B & (I1 & I2 & I3 & I4 & I5) & E).
  cbn [k_step] in H. rewrite A in H. cbn [m_step] in H. rewrite E in H. destruct (m_serve m q) as [[m' o]|] eqn:Em; [|discriminate H]. injection H as <- <-.
  destruct (serve_spec g tr m q m' o I5 Hq Em) as ((x & -> & (t & _ & ->)) & _). apply is_read_b in Hf. rewrite Hf. unfold u16. eauto.
Qed.
Print Assumptions C101_registers_partial.
(** Through another transaction number the octets written are not seen. *)
Theorem C101_refuted : exists c tr w r c1 o1 c2 o2, kreach g0 c tr /\ mreq_ok w /\ mreq_ok r /\ is_write (a_func w) /\ is_read (a_func r) /\
  a_start r = a_start w /\ a_num r * 2 = a_nbytes w /\
  k_step g0 c (KModbus (TvReq w)) = Some (c1, o1) /\ k_step g0 c1 (KModbus (TvReq r)) = Some (c2, o2) /\
  forall ok err, ~ In (KoReply (a_server r) (a_session r) (a_tid r) ok err (a_nbytes w) (a_data w)) o2.
Proof.
  set (w := mkMreq 0 0 0 6 0 1 2 [7; 7]). set (r := mkMreq 0 0 1 3 0 1 0 []).
  destruct (boot_run g0 g0_ok) as (c & tr & _ & R & S & _ & _ & _ & Cell).
  assert (Hw : mreq_ok w) by (unfold mreq_ok, is_u16; cbn; lia). assert (Hr : mreq_ok r) by (unfold mreq_ok, is_u16; cbn; lia).
  assert (Fw : fits w) by (unfold fits, is_read, is_write; cbn; lia). assert (Fr : fits r) by (unfold fits, is_read, is_write; cbn; lia).
  destruct (k_step g0 c (KModbus (TvReq w))) as [[c1 o1]|] eqn:E1.
  2:{ exfalso. apply (step_defined g0 c tr (KModbus (TvReq w)) g0_ok R) in E1 as [_ E1]; [tauto|split; [exact I|exact Hw]]. }
  assert (R1 : kreach g0 c1 (tr ++ [(KModbus (TvReq w), o1)])) by (apply kr_step with (c := c); auto; split; [exact I|exact Hw]).
  assert (S1 : stage_of (tr ++ [(KModbus (TvReq w), o1)]) = GPoll).
  { destruct (inv_poll g0 c tr (kreach_inv g0 c tr g0_ok R) S) as (m & A & B & (I1 & I2 & I3 & I4 & I5) & E).
    cbn [k_step] in E1. rewrite A in E1. cbn [m_step] in E1. rewrite E in E1. destruct (m_serve m w) as [[m' o]|] eqn:Em; [|discriminate E1]. injection E1 as <- <-.
    destruct (serve_spec g0 tr m w m' o I5 Hw Em) as ((x & -> & (t & _ & ->)) & _). rewrite stage_snoc. exact S. }
  destruct (k_step g0 c1 (KModbus (TvReq r))) as [[c2 o2]|] eqn:E2.
  2:{ exfalso. apply (step_defined g0 c1 _ (KModbus (TvReq r)) g0_ok R1) in E2 as [_ E2]; [tauto|split; [exact I|exact Hr]]. }
  exists c, tr, w, r, c1, o1, c2, o2. do 3 (split; [assumption|]). split; [left; reflexivity|]. split; [left; reflexivity|]. do 2 (split; [reflexivity|]).
  do 2 (split; [first [exact E1|exact E2]|]).
  destruct (C101_registers_partial g0 c1 _ r c2 o2 g0_ok R1 Hr S1 (or_introl eq_refl) E2) as (ok & err & ->). intros ok' err' [D|[]].
  apply (f_equal (fun o => match o with KoReply _ _ _ _ _ _ d => nth 0 d 0 | _ => 0 end)) in D. cbv beta iota in D. change (nth 0 (a_data w) 0) with 7 in D.
  revert D. change (cells g0 (tr ++ [(KModbus (TvReq w), o1)]) (a_tid r) (a_start r * 2) ((a_num r * 2) mod 65536)) with (cells g0 (tr ++ [(KModbus (TvReq w), o1)]) 1 0 2).
  unfold cells. change (Z.to_nat 2) with 2%nat. cbn [seq map nth]. rewrite cell_snoc.
  replace (cell_next g0 1 (0 + Z.of_nat 0) (cell g0 tr 1 (0 + Z.of_nat 0)) (KModbus (TvReq w), o1)) with (cell g0 tr 1 0) by (destruct o1; reflexivity).
  rewrite Cell. vm_compute. discriminate.
Qed.
Print Assumptions C101_refuted.
Example C101_case : exists c tr, kreach g0 c tr /\ stage_of tr = GPoll /\ exists c' os, k_step g0 c (KModbus (TvReq (mkMreq 0 0 3 3 890 120 0 []))) = Some (c', os).
Proof.
  destruct (boot_run g0 g0_ok) as (c & tr & _ & R & S & _). exists c, tr. split; [exact R|]. split; [exact S|].
  destruct (k_step g0 c _) as [[c' os]|] eqn:E; [eauto|]. exfalso.
  apply (step_defined g0 c tr _ g0_ok R) in E as [_ E]; [|split; [exact I|unfold mreq_ok, is_u16; cbn; lia]]. apply E. unfold fits, is_read, is_write. cbn. lia.
Qed.

(** * C102 *)
(** While a round runs, every request served is answered exactly once, to the server, session and transaction it came from; in any other stage
    requests are dropped. *)
Theorem C102_answered_partial g c tr q c' os : octets2048 g -> kreach g c tr -> mreq_ok q -> k_step g c (KModbus (TvReq q)) = Some (c', os) ->
  (stage_of tr = GPoll -> exists ok err nb d, os = [KoReply (a_server q) (a_session q) (a_tid q) ok err nb d] /\ Z.of_nat (length d) = nb /\
     (a_func q = 6 -> d = firstn (Z.to_nat (a_nbytes q)) (a_data q)) /\ (~ is_read (a_func q) -> a_func q <> 6 -> d = [])) /\
  (stage_of tr <> GPoll -> c' = c /\ os = []).
Proof.
  intros Hg Hr Hq H. pose proof (kreach_inv g c tr Hg Hr) as I. split.
  - intros Hs. destruct (inv_poll g c tr I Hs) as (m & A & B & (I1 & I2 & I3 & I4 & I5) & E).
    cbn [k_step] in H. rewrite A in H. cbn [m_step] in H. rewrite E in H. destruct (m_serve m q) as [[m' o]|] eqn:Em; [|discriminate H]. injection H as <- <-.
    destruct (serve_spec g tr m q m' o I5 Hq Em) as ((x & -> & (t & _ & ->)) & _). do 4 eexists. split; [reflexivity|].
    destruct Hq as (T1 & T2 & T3 & T4 & T5). unfold is_u16 in *.
    destruct (is_reg_read (a_func q)) eqn:Er.
    + apply is_read_b in Er. split; [|split; [unfold is_read in Er; lia|intros N; exfalso; exact (N Er)]]. unfold cells. rewrite map_length, seq_length. pose proof (u16_bound (a_num q * 2)). lia.
    + destruct (a_func q =? 6) eqn:E6.
      * split; [rewrite firstn_length; lia|]. split; [reflexivity|]. intros _ N. lia.
      * split; [reflexivity|]. split; [lia|reflexivity].
  - intros Hs. cbn [k_step] in H. destruct c as [[m|] ua]; cbn [k_modbus k_ua] in *.
    + unfold KInv in I. cbn [k_modbus k_ua] in I. destruct I as (_ & (I1 & _) & _). cbn [m_step] in H. rewrite I1 in Hs.
      destruct (m_st m); cbn [stage_st] in Hs; try (injection H as <- <-; auto). congruence.
    + injection H as <- <-. auto.
Qed.
Print Assumptions C102_answered_partial.
(** So a request that arrives during the pause between two rounds is never answered. *)
Definition rsp1 : crsp := mkCrsp 0 1 0 false 0 [].
Lemma rsp1_good g tr : good g tr rsp1.
Proof. exists 0. split; [reflexivity|]. discriminate. Qed.

(** A good response during a round: nothing is sent until the round is complete. *)
Lemma feed_good g : octets2048 g -> forall rs c tr m, kreach g c tr -> stage_of tr = GPoll -> k_modbus c = Some m ->
  Forall (fun r => crsp_ok r /\ r_tid r < 16 /\ good g tr r) rs -> m_count m + Z.of_nat (length rs) = 16 -> rs <> [] ->
  exists c' tr', kfeed g c tr (map (fun r => KModbus (TvRsp r)) rs) = Some (c', tr') /\ kreach g c' tr' /\ stage_of tr' = GPause /\
    kouts tr' = kouts tr ++ [KoArm 10000].
Proof.
  intros Hg. induction rs as [|r rs IH]; intros c tr m Hr Hs Hm Hf Hn Hne; [congruence|]. inversion Hf as [|? ? (F1 & F2 & F3) Hf']; subst.
  destruct (inv_poll g c tr (kreach_inv g c tr Hg Hr) Hs) as (m0 & A & B & (I1 & I2 & I3 & I4 & I5) & E). rewrite Hm in A. injection A as <-.
  destruct (process_spec g tr m r Hg F1 I5 (conj (proj1 I3) (I4 E))) as (P1 & P2).
  destruct (m_process m r) as [[m1 res]|] eqn:Ep; [|exfalso; assert (16 <= r_tid r) by (now apply P1); lia].
  destruct (P2 m1 res eq_refl) as (Em & _ & G & _). specialize (G F3). cbn [length] in Hn. cbn [map kfeed].
  assert (K : k_step g c (KModbus (TvRsp r)) = Some (mkK (Some (fst (match rs with [] => m_transit m1 MSetup | _ => (m1, []) end))) (k_ua c), match rs with [] => [KoArm 10000] | _ => [] end)).
  { cbn [k_step]. rewrite Hm. cbn [m_step]. rewrite E, Ep, G, Em. destruct rs as [|r' rs].
    - cbn [length] in Hn. replace (m_count m + 1 =? 16) with true by lia. rewrite transit_spec by (cbn [n_count m_st]; rewrite E; discriminate).
      cbn [n_count m_st]. rewrite E. reflexivity.
    - cbn [length] in Hn. replace (m_count m + 1 =? 16) with false by lia. reflexivity. }
  rewrite K. destruct rs as [|r' rs].
  - cbn [map kfeed]. do 2 eexists. split; [reflexivity|]. split; [|split].
    + apply kr_step with (c := c); auto. split; [exact I|exact F1].
    + rewrite stage_snoc. reflexivity.
    + apply kouts_snoc.
  - cbn [fst] in *. destruct (IH (mkK (Some m1) (k_ua c)) (tr ++ [(KModbus (TvRsp r), [])]) m1) as (c' & tr' & X1 & X2 & X3 & X4).
    + apply kr_step with (c := c); auto. split; [exact I|exact F1].
    + rewrite stage_snoc. exact Hs.
    + reflexivity.
    + revert Hf'. apply Forall_impl. intros x (Y1 & Y2 & Y3). split; [exact Y1|]. split; [exact Y2|]. unfold good in *. destruct Y3 as (n & Z1 & Z2). exists n. split; [exact Z1|].
      intros Z3 Z4. destruct (Z2 Z3 Z4) as (W1 & W2 & W3).
      assert (Q : forall i off k, cells g (tr ++ [(KModbus (TvRsp r), [])]) i off k = cells g tr i off k).
      { intros i off k. apply cells_ext. intros j _. rewrite cell_snoc. reflexivity. }
      split; [exact W1|]. split; intros; rewrite Q; auto.
    + rewrite Em. cbn [n_count m_count]. cbn [length] in *. lia.
    + discriminate.
    + exists c', tr'. split; [exact X1|]. split; [exact X2|]. split; [exact X3|]. rewrite X4, kouts_snoc, app_nil_r. reflexivity.
Qed.
Lemma boot_modbus g c tr : octets2048 g -> kfeed g ctrl0 [] boot_evs = Some (c, tr) -> exists m, k_modbus c = Some m /\ m_count m = 0.
Proof.
  intros Hg E. apply (f_equal (option_map fst)) in E.
  cbv [boot_evs kfeed k_step negb m_step m_new m_st app ua_start option_map fst k_modbus k_ua ctrl0 m_transit mst_eqb m_exit m_enter n_st n_count m_timer m_count m_cases ua_inited] in E.
  injection E as <-. eexists. split; reflexivity.
Qed.
Lemma pause_run : exists c tr, kreach g0 c tr /\ stage_of tr = GPause /\ kevs tr = boot_evs ++ repeat (KModbus (TvRsp rsp1)) 16 /\ tally is_batch (kouts tr) = 1.
Proof.
  destruct (boot_run g0 g0_ok) as (c & tr & E & R & S & K0 & _). destruct (boot_modbus g0 c tr g0_ok E) as (m & M1 & M2).
  destruct (feed_good g0 g0_ok (repeat rsp1 16) c tr m R S M1) as (c' & tr' & X1 & X2 & X3 & X4).
  - apply Forall_forall. intros r Hr. apply repeat_spec in Hr. subst r. split; [unfold crsp_ok, is_u16; cbn; lia|]. split; [cbn; lia|apply rsp1_good].
  - rewrite M2. reflexivity.
  - discriminate.
  - exists c', tr'. split; [exact X2|]. split; [exact X3|].
    assert (K : forall es c tr c' tr', kfeed g0 c tr es = Some (c', tr') -> kevs tr' = kevs tr ++ es).
    { clear. induction es as [|e es IH]; intros c tr c' tr' H; cbn [kfeed] in H; [injection H as <- <-; now rewrite app_nil_r|].
      destruct (k_step g0 c e) as [[c1 os]|]; [|discriminate H]. apply IH in H. rewrite H, kevs_snoc, <- app_assoc. reflexivity. }
    rewrite (K _ _ _ _ _ X1), (K _ _ _ _ _ E). split; [reflexivity|]. rewrite X4, K0. reflexivity.
Qed.
Theorem C102_refuted : exists c tr q c', kreach g0 c tr /\ mreq_ok q /\ started tr = true /\ k_step g0 c (KModbus (TvReq q)) = Some (c', []).
Proof.
  destruct pause_run as (c & tr & R & S & _). set (q := mkMreq 0 0 0 3 0 1 0 []). assert (Hq : mreq_ok q) by (unfold mreq_ok, is_u16; cbn; lia).
  destruct (k_step g0 c (KModbus (TvReq q))) as [[c' os]|] eqn:E.
  - destruct (C102_answered_partial g0 c tr q c' os g0_ok R Hq E) as (_ & N). destruct N as (-> & ->); [rewrite S; discriminate|].
    exists c, tr, q, c. unfold started. rewrite S. auto.
  - apply (step_defined g0 c tr _ g0_ok R) in E as [E _]; [congruence|split; [exact I|exact Hq]].
Qed.
Print Assumptions C102_refuted.

(** * C103 *)
(** A response is judged by what its request calls for: a bad one ends the round with a release, a good one is counted. *)
Theorem C103_verdict g c tr r : octets2048 g -> kreach g c tr -> crsp_ok r -> r_tid r < 16 -> stage_of tr = GPoll ->
  exists c' os, k_step g c (KModbus (TvRsp r)) = Some (c', os) /\
    (good g tr r <-> os = [] \/ os = [KoArm 10000]) /\ (~ good g tr r <-> os = [KoModbusRelease]).
Proof.
  intros Hg Hr Hc Hi Hs. destruct (inv_poll g c tr (kreach_inv g c tr Hg Hr) Hs) as (m & A & B & (I1 & I2 & I3 & I4 & I5) & E).
  destruct (process_spec g tr m r Hg Hc I5 (conj (proj1 I3) (I4 E))) as (P1 & P2).
  cbn [k_step]. rewrite A. cbn [m_step]. rewrite E.
  pose proof I5 as [Hl Hc']. destruct (nth_error (m_cases m) (Z.to_nat (r_tid r))) as [t|] eqn:Et.
  2:{ exfalso. apply (case_lt g tr _ _ I5) in Et. destruct Hc as ((T & _) & _). lia. }
  destruct (check_good g tr t r Hg Hc Hi (Hc' _ _ Et)) as (b & B1 & B2).
  destruct (m_process m r) as [[m1 res]|] eqn:Ep; [|exfalso; assert (16 <= r_tid r) by (now apply P1); lia].
  destruct (P2 m1 res eq_refl) as (Em & _ & G & N & _).
  assert (D : good g tr r \/ ~ good g tr r) by (destruct b; [left; now apply B2|right; intros X; apply B2 in X; discriminate X]).
  destruct D as [D|D].
  - rewrite (G D). destruct (m_count m + 1 =? 16).
    + rewrite transit_spec by (rewrite Em; cbn [n_count m_st]; rewrite E; discriminate). rewrite Em. cbn [n_count m_st]. rewrite E. cbn [pauses app].
      do 2 eexists. split; [reflexivity|]. split; split; auto; intros X; try tauto; discriminate X.
    + do 2 eexists. split; [reflexivity|]. split; split; auto; intros X; try tauto; discriminate X.
  - rewrite (N D). rewrite transit_spec by (rewrite Em; cbn [n_count m_st]; rewrite E; discriminate). rewrite Em. cbn [n_count m_st]. rewrite E. cbn [pauses app].
    do 2 eexists. split; [reflexivity|]. split; split; auto; intros X; try tauto. destruct X as [X|X]; discriminate X.
Qed.
Print Assumptions C103_verdict.
(** Sixteen good responses to a round, in any order, complete it: nothing is sent before the last, which starts the pause. *)
Theorem C103_complete g c c1 tr e its rs : octets2048 g -> kreach g c tr -> msg_ok e -> k_enabled c e = true ->
  k_step g c e = Some (c1, its) -> (exists b, last its KoThrow = KoBatch b) ->
  let tr1 := tr ++ [(e, its)] in
  length rs = 16%nat -> Forall (fun r => crsp_ok r /\ r_tid r < 16 /\ good g tr1 r) rs ->
  exists c' tr', kfeed g c1 tr1 (map (fun r => KModbus (TvRsp r)) rs) = Some (c', tr') /\ kouts tr' = kouts tr1 ++ [KoArm 10000].
Proof.
  intros Hg Hr He En Hk (b & Hb) tr1 Hl Hf. assert (R1 : kreach g c1 tr1) by (apply kr_step with (c := c); auto).
  pose proof (kreach_inv g c1 tr1 Hg R1) as I. 
  assert (S1 : stage_of tr1 = GPoll).
  { unfold tr1. rewrite stage_snoc. destruct its as [|o its] using rev_ind; [discriminate Hb|]. rewrite last_last in Hb. subst o. now rewrite fold_left_app. }
  destruct (inv_poll g c1 tr1 I S1) as (m1 & A & _ & _ & E1).
  assert (M0 : m_count m1 = 0).
  { pose proof (kreach_inv g c tr Hg Hr) as J. clear - J Hk Hb A E1 He.
    destruct e as [tok| |v|l|]; cbn [k_step] in Hk.
    - destruct tok; cbn [negb] in Hk; [|injection Hk as <- <-; discriminate Hb]. cbn [m_step m_new m_st] in Hk. injection Hk as <- <-. destruct (k_modbus c); discriminate Hb.
    - destruct (k_modbus c); [|discriminate Hk]. destruct (m_step m TvStop) as [[? ?]|]; [|discriminate Hk]. destruct (k_ua c); [|discriminate Hk]. injection Hk as <- <-. discriminate A.
    - destruct (k_modbus c) as [m|] eqn:Em; [|injection Hk as <- <-; congruence]. destruct (m_step m v) as [[m' o]|] eqn:Ev; [|discriminate Hk]. injection Hk as <- <-.
      cbn [k_modbus] in A. injection A as ->. destruct v; cbn [m_step] in Ev.
      + destruct He as (F & _). destruct F.
      + destruct He as (F & _). destruct F.
      + destruct (m_st m) eqn:Es; try (injection Ev as <- <-; discriminate Hb). rewrite transit_spec in Ev by (rewrite Es; discriminate). injection Ev as <- <-. discriminate E1.
      + destruct (m_st m) eqn:Es; injection Ev as <- <-; discriminate Hb.
      + destruct (m_st m) eqn:Es; try (injection Ev as <- <-; discriminate Hb). rewrite transit_spec in Ev by (rewrite Es; discriminate). injection Ev as <- <-. reflexivity.
      + destruct (m_st m) eqn:Es; try (injection Ev as <- <-; discriminate Hb). destruct (m_process m r) as [[m2 []]|] eqn:Ep; [..|discriminate Ev].
        * injection Ev as <- <-. discriminate Hb.
        * assert (Es2 : m_st m2 = MRun) by (unfold m_process in Ep; destruct (nth_error _ _); [|discriminate Ep]; destruct (m_check _ _) as [[]|]; try discriminate Ep; apply (f_equal (option_map (fun x => m_st (fst x)))) in Ep; cbn [option_map fst n_count m_st] in Ep; congruence).
          rewrite transit_spec in Ev by (rewrite Es2; discriminate). injection Ev as <- <-. discriminate E1.
        * assert (Es2 : m_st m2 = MRun) by (unfold m_process in Ep; destruct (nth_error _ _); [|discriminate Ep]; destruct (m_check _ _) as [[]|]; try discriminate Ep; apply (f_equal (option_map (fun x => m_st (fst x)))) in Ep; cbn [option_map fst n_count m_st] in Ep; congruence).
          rewrite transit_spec in Ev by (rewrite Es2; discriminate). injection Ev as <- <-. discriminate E1.
      + destruct (m_st m) eqn:Es; try (injection Ev as <- <-; discriminate Hb).
        unfold KInv in J. rewrite Em in J. destruct J as (_ & (_ & _ & _ & _ & J) & _). destruct (serve_spec g tr m q m1 o J (proj2 He) Ev) as ((x & -> & (t & _ & ->)) & _). discriminate Hb.
      + destruct (m_st m) eqn:Es; try (injection Ev as <- <-; discriminate Hb). rewrite transit_spec in Ev by (cbn [n_timer m_st]; rewrite Es; discriminate). injection Ev as <- <-. reflexivity.
    - injection Hk as <- <-. destruct (k_ua c); discriminate Hb.
    - injection Hk as <- <-. discriminate Hb. }
  destruct (feed_good g Hg rs c1 tr1 m1 R1 S1 A Hf) as (c' & tr' & X1 & _ & _ & X4); [rewrite M0, Hl; reflexivity|destruct rs; [discriminate Hl|discriminate]|].
  exists c', tr'. auto.
Qed.
Print Assumptions C103_complete.
(** What is answered to the round's own requests, when it is served as asked, satisfies the round - as long as nobody else uses its transactions. *)
Theorem C103_served g c tr1 tr2 q os s ss ok err nb d : octets2048 g -> kreach g c (tr1 ++ (KModbus (TvReq q), os) :: tr2) ->
  own_only g (tr1 ++ (KModbus (TvReq q), os) :: tr2) -> no_start tr2 -> stage_of tr1 = GPoll ->
  os = [KoReply s ss (a_tid q) ok err nb d] ->
  good g (tr1 ++ (KModbus (TvReq q), os) :: tr2) (mkCrsp 0 (a_tid q) err ok nb d).
Proof.
  intros Hg Hr Ho Hns Hs Hos.
  assert (Hq : mreq_ok q). { apply (reach_msgs g c _ Hr (KModbus (TvReq q)) os). apply in_or_app. right. now left. }
  assert (Ow : own g q). { apply (Ho q os). apply in_or_app. right. now left. }
  assert (Rp : exists x, os = [x] /\ reply_of g tr1 q x).
  { clear - Hg Hr Hs Hq. remember (tr1 ++ (KModbus (TvReq q), os) :: tr2) as tr eqn:Et in Hr. revert tr2 Et.
    induction Hr as [|c tr e c' os' Hr IH He En Hk]; intros tr2 Et; [destruct tr1; discriminate Et|].
    destruct tr2 as [|x tr2] using rev_ind.
    - apply app_inj_tail in Et as [<- Et]. injection Et as -> <-.
      destruct (inv_poll g c tr (kreach_inv g c tr Hg Hr) Hs) as (m & A & B & (I1 & I2 & I3 & I4 & I5) & E).
      cbn [k_step] in Hk. rewrite A in Hk. cbn [m_step] in Hk. rewrite E in Hk. destruct (m_serve m q) as [[m' o]|] eqn:Em; [|discriminate Hk]. injection Hk as <- <-.
      apply (serve_spec g tr m q m' o I5 Hq Em).
    - rewrite app_comm_cons, app_assoc in Et. apply app_inj_tail in Et as [Et _]. exact (IH tr2 Et). }
  destruct Rp as (x & -> & (t & Ht & ->)). injection Hos as <- <- <- <- <- <-.
  pose proof Ow as (f & st & n & b & A1 & A2 & A3 & A4 & A5). pose proof Hq as (T1 & T2 & T3 & T4 & T5). unfold is_u16 in *.
  destruct (asked_shape _ _ _ _ _ A1 (proj1 T1)) as (S1 & S2 & S3 & S4). pose proof (asked_range _ _ A1) as Hi.
  set (i := a_tid q) in *.
  set (o := KoReply _ _ _ _ _ _ _) in *.
  (* the registers afterwards *)
  assert (Tail : forall q' os', In (KModbus (TvReq q'), os') tr2 -> own g q' /\ 0 <= a_tid q').
  { intros q' os' Hin. split; [apply (Ho q' os'); apply in_or_app; right; now right|].
    destruct (reach_msgs g c _ Hr (KModbus (TvReq q')) os') as (_ & (X & _)); [apply in_or_app; right; now right|]. unfold is_u16 in X. lia. }
  assert (CR : is_read f -> forall k, 0 <= k -> cell g (tr1 ++ (KModbus (TvReq q), [o]) :: tr2) i k = cell g tr1 i k).
  { intros R k Hk. replace (tr1 ++ (KModbus (TvReq q), [o]) :: tr2) with ((tr1 ++ [(KModbus (TvReq q), [o])]) ++ tr2) by (now rewrite <- app_assoc).
    destruct (own_stays g tr2 (tr1 ++ [(KModbus (TvReq q), [o])]) i k f st n b Tail Hns A1 (proj1 T1) Hk) as (X & _). rewrite (X R), cell_snoc. cbn [cell_next].
    replace (is_writeb (a_func q)) with false by (rewrite A2; unfold is_read, is_writeb in *; lia). reflexivity. }
  assert (CW : is_write f -> forall k, st * 2 <= k < st * 2 + b -> cell g (tr1 ++ (KModbus (TvReq q), [o]) :: tr2) i k = nth (Z.to_nat (k - st * 2)) g 0).
  { intros W k Hk. replace (tr1 ++ (KModbus (TvReq q), [o]) :: tr2) with ((tr1 ++ [(KModbus (TvReq q), [o])]) ++ tr2) by (now rewrite <- app_assoc).
    destruct (own_stays g tr2 (tr1 ++ [(KModbus (TvReq q), [o])]) i k f st n b Tail Hns A1 (proj1 T1)) as (_ & X); [lia|]. apply (X W Hk). rewrite cell_snoc. cbn [cell_next].
    replace (is_writeb (a_func q)) with true by (rewrite A2; unfold is_write, is_writeb in *; lia). rewrite Z.eqb_refl, A3. destruct (A5 W) as (B1 & B2). rewrite B1. cbn [andb].
    replace ((st * 2 <=? k) && (k <? st * 2 + b)) with true by lia.
    transitivity (nth (Z.to_nat (k - st * 2)) (firstn (Z.to_nat b) (a_data q)) 0); [rewrite nth_first by lia; reflexivity|].
    rewrite B2. apply nth_first. lia. }
  unfold good. cbn [r_tid r_client r_ok r_err r_nbytes r_data]. clear Ho Hr.
  assert (C : i = 0 \/ i = 1 \/ i = 2 \/ i = 3 \/ i = 4 \/ i = 5 \/ i = 6 \/ i = 7 \/ i = 8 \/ i = 9 \/ i = 10 \/ i = 11 \/ i = 12 \/ i = 13 \/ i = 14 \/ i = 15) by lia.
  clearbody i.
  assert (Rd : forall N, f = 4 -> expected i = (0, tc_ok t, tc_err t, N) -> write_at i = None -> (tc_err t = 0 -> N = n * 2 /\ read_at i = Some (st * 2)) ->
     exists N', expected i = (0, tc_ok t, tc_err t, N') /\ (tc_ok t = true -> tc_err t = 0 ->
       (if is_reg_read (a_func q) then u16 (a_num q * 2) else if a_func q =? 6 then a_nbytes q else 0) = N' /\
       (forall off, read_at i = Some off -> firstn (Z.to_nat N') (if is_reg_read (a_func q) then cells g tr1 i (a_start q * 2) (u16 (a_num q * 2))
         else if a_func q =? 6 then firstn (Z.to_nat (a_nbytes q)) (a_data q) else []) = cells g (tr1 ++ (KModbus (TvReq q), [o]) :: tr2) i off N') /\
       (forall off k, write_at i = Some (off, k) -> cells g (tr1 ++ (KModbus (TvReq q), [o]) :: tr2) i off k = firstn (Z.to_nat k) g))).
  { intros N F4 EX WA RA. exists N. split; [exact EX|]. intros _ E0. destruct (RA E0) as (-> & RA'). rewrite A2, F4. cbn [is_reg_read Z.eqb Pos.eqb orb].
    assert (Rf : is_read f) by (right; exact F4). specialize (A4 Rf). rewrite A4.
    destruct S3 as [S3|[S3 _]]; [|exfalso; unfold is_write in S3; lia].
    assert (U : u16 (n * 2) = n * 2) by (unfold u16; lia). rewrite U. split; [reflexivity|]. split; [|rewrite WA; discriminate].
    intros off E1. rewrite RA' in E1. injection E1 as <-. rewrite A3. unfold cells at 1. rewrite firstn_all2 by (rewrite map_length, seq_length; lia).
    fold (cells g tr1 i (st * 2) (n * 2)). apply cells_ext. intros k Hk. symmetry. apply CR; [exact Rf|lia]. }
  assert (Wr : forall N, is_write f -> expected i = (0, tc_ok t, tc_err t, N) -> read_at i = None -> write_at i = Some (st * 2, b) -> N = (if f =? 6 then b else 0) ->
     exists N', expected i = (0, tc_ok t, tc_err t, N') /\ (tc_ok t = true -> tc_err t = 0 ->
       (if is_reg_read (a_func q) then u16 (a_num q * 2) else if a_func q =? 6 then a_nbytes q else 0) = N' /\
       (forall off, read_at i = Some off -> firstn (Z.to_nat N') (if is_reg_read (a_func q) then cells g tr1 i (a_start q * 2) (u16 (a_num q * 2))
         else if a_func q =? 6 then firstn (Z.to_nat (a_nbytes q)) (a_data q) else []) = cells g (tr1 ++ (KModbus (TvReq q), [o]) :: tr2) i off N') /\
       (forall off k, write_at i = Some (off, k) -> cells g (tr1 ++ (KModbus (TvReq q), [o]) :: tr2) i off k = firstn (Z.to_nat k) g))).
  { intros N W EX RA WA HN. exists N. split; [exact EX|]. intros _ _. destruct (A5 W) as (B1 & _). rewrite A2, B1.
    replace (is_reg_read f) with false by (unfold is_write, is_reg_read in *; lia). split; [symmetry; exact HN|]. split; [rewrite RA; discriminate|].
    intros off k E1. rewrite WA in E1. injection E1 as <- <-. apply firstn_cells; [lia|lia|exact Hg|]. intros k Hk. rewrite CW by (assumption || lia). f_equal. lia. }
  clear CR CW Tail.
  repeat (destruct C as [C|C]); rewrite C in A1, Ht; cbn in A1; try discriminate A1; injection A1 as E1 E2 E3 E4; rewrite <- ?E1, <- ?E2, <- ?E3, <- ?E4 in *;
    apply (f_equal (fun o => match o with Some x => (tc_ok x, tc_err x) | None => (false, 1) end)) in Ht;
    cbn [test_cases nth_error Z.to_nat Pos.to_nat Pos.iter_op Nat.add write_many write_one read_regs tc_ok tc_err] in Ht; injection Ht as Ht1 Ht2; rewrite C, <- Ht1, <- Ht2 in *.
  - apply (Wr 0); try reflexivity. right; reflexivity.
  - apply (Rd 0); try reflexivity. discriminate.
  - apply (Rd 240); try reflexivity. auto.
  - apply (Wr 2); try reflexivity. left; reflexivity.
  - apply (Wr 0); try reflexivity. right; reflexivity.
  - apply (Wr 0); try reflexivity. right; reflexivity.
  - apply (Rd 250); try reflexivity. auto.
  - apply (Rd 0); try reflexivity. auto.
  - exists 0. split; [reflexivity|]. discriminate.
Qed.
Print Assumptions C103_served.
(** But the round counts responses, not requests: sixteen times the response to one request completes it, with the other fifteen unanswered. *)
Theorem C103_distinct_refuted : exists c tr, kreach g0 c tr /\ stage_of tr = GPause /\ tally is_batch (kouts tr) = 1 /\
  forall r, In (KModbus (TvRsp r)) (kevs tr) -> r_tid r = 1.
Proof.
  destruct pause_run as (c & tr & R & S & K & B). exists c, tr. do 3 (split; [assumption|]). intros r. rewrite K. intros H.
  apply in_app_or in H as [H|H]; [cbn in H; intuition discriminate|]. apply repeat_spec in H. injection H as ->. reflexivity.
Qed.
Print Assumptions C103_distinct_refuted.
Example C103_case : good g0 [] (mkCrsp 0 2 4 true 0 []) /\ ~ good g0 [] (mkCrsp 0 2 0 true 0 []).
Proof.
  split; [exists 0; split; [reflexivity|discriminate]|]. intros (n & E & _). discriminate E.
Qed.
