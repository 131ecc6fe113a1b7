(** The self-test of the deployed application, C149: in a healthy environment it runs for ever; C150: what is answered, how often and in which order. *)
From Verif Require Import Base QueueModel MsgStorageModel ModbusCodecModel ModbusCodecSpec ModbusClientModel ModbusClientSpec ModbusServerModel ModbusServerSpec
  ModbusCompModel ModbusCompSpec ModbusNetModel ControllerModel AppModel SelfTestModel SelfTestSpec SelfTestProofs SelfTestOrder.
Local Open Scope Z_scope.

(** * C149 *)
(** Whatever the schedule of the three reactors, the pieces in which TCP delivers the octets and the moments at which timers expire, the
    process neither ends nor reaches undefined behaviour, and the controller never gives up: it sends the request to release the Modbus
    component only after a response other than the expected one (ModbusTestController.cpp:242-320). *)
Theorem C149_self_test_never_fails g w h : octets g -> healthy g w h ->
  ~ In GModbusRelease (flat_map snd h) /\
  forall e, fine w e -> astep g (w_app w) e <> AUndefined /\ astep g (w_app w) e <> ATerminate.
Proof.
  intros Hg Hh. split; [apply (healthy_good g Hg w h Hh)|]. intros e Hf.
  destruct (healthy_next g Hg w h e Hh Hf) as [-> | (s & ->)]; split; discriminate.
Qed.
Print Assumptions C149_self_test_never_fails.

(** It never stands still: some event is always possible, in every state that can be reached. *)
Theorem C149_self_test_goes_on g w h : octets g -> healthy g w h -> exists e w', fine w e /\ wstep g w e = Some w'.
Proof. intros Hg Hh. exact (healthy_progress g Hg w h Hh). Qed.
Print Assumptions C149_self_test_goes_on.

(** And each of its rounds is finite: no schedule delays the next one for ever. *)
Theorem C149_rounds_are_finite g w h : octets g -> healthy g w h -> Z.of_nat (length h) <= 120 + 17011 * Z.of_nat (rounds h).
Proof. intros Hg Hh. exact (healthy_bound g Hg w h Hh). Qed.
Print Assumptions C149_rounds_are_finite.

(** Together: every history can be continued until any number of rounds has begun. *)
Lemma runs_on g w h n : octets g -> healthy g w h -> exists w' h', healthy g w' (h ++ h') /\ length h' = n.
Proof.
  intros Hg Hh. induction n as [|n (w1 & h1 & H1 & L)]; [exists w, []; now rewrite app_nil_r|].
  destruct (healthy_progress g Hg _ _ H1) as (e & w2 & Hf & Hs). exists w2, (h1 ++ [(e, sent_by e (w_app w2))]).
  rewrite app_assoc. split; [now apply he_step with w1|]. rewrite app_length, L. cbn. lia.
Qed.
Theorem C149_rounds_without_end g w h (k : Z) : octets g -> healthy g w h ->
  exists w' h', healthy g w' (h ++ h') /\ k <= Z.of_nat (rounds (h ++ h')).
Proof.
  intros Hg Hh. destruct (runs_on g w h (Z.to_nat (120 + 17011 * k)) Hg Hh) as (w' & h' & Hh' & L). exists w', h'. split; [exact Hh'|].
  pose proof (healthy_bound g Hg _ _ Hh') as B. rewrite app_length, L in B. lia.
Qed.
Print Assumptions C149_rounds_without_end.

(** * C150 *)
(** Whatever the schedule, the responses the controller is sent are those of whole rounds, one after the other, and the first ones of the round under way: each request
    of a batch is answered exactly once, with the same status, exception code and octets in every round, in the same order, and before the next batch. *)
Theorem C150_answered_once_in_order g w h : octets g -> healthy g w h -> exists k part rest,
  answers_in (flat_map snd h) = concat (repeat (round_of g) k) ++ part /\ part ++ rest = round_of g /\
  (rounds h = S k \/ rounds h = k /\ part = []).
Proof.
  intros Hg Hh. destruct (healthy_order g Hg w h Hh) as (k & part & E & H). rewrite (full_round g Hg) in *. exists k, part.
  destruct H as [[H ->]|[H (rest & Hr)]]; [exists (round_of g)|exists rest]; auto.
Qed.
Print Assumptions C150_answered_once_in_order.
(** In particular the number of responses is settled by the number of batches. *)
Theorem C150_sixteen_for_each_batch g w h : octets g -> healthy g w h ->
  (length (answers_in (flat_map snd h)) <= 16 * rounds h <= length (answers_in (flat_map snd h)) + 16)%nat.
Proof.
  intros Hg Hh. destruct (C150_answered_once_in_order g w h Hg Hh) as (k & part & rest & E & H & K). rewrite E, app_length.
  assert (length (concat (repeat (round_of g) k)) = 16 * k)%nat as -> by (clear; induction k as [|k IH]; [reflexivity|]; cbn [repeat concat]; rewrite app_length, IH; cbn [round_of length]; lia).
  apply (f_equal (@length crsp)) in H. rewrite app_length in H. cbn [round_of length] in H. destruct K as [->|[-> ->]]; [lia|cbn [length]; lia].
Qed.
Print Assumptions C150_sixteen_for_each_batch.

(** * A run *)
Definition cfgb (x : cfg) : bool :=
  (0 <=? g_id x) && (g_id x <? 2 ^ 32) && (length (g_mem x) =? 512)%nat && forallb (fun b => (0 <=? b) && (b <? 256)) (g_mem x) &&
  (length (q_data (g_adu x)) =? 260)%nat && forallb (fun b => (0 <=? b) && (b <? 256)) (q_data (g_adu x)) &&
  (q_tid (g_adu x) =? 0) && (q_func (g_adu x) =? 0) && (q_addr (g_adu x) =? 0) && (q_start (g_adu x) =? 0) && (q_nitems (g_adu x) =? 0) && (q_nbytes (g_adu x) =? 0) &&
  g_pools x && g_net x.
Definition items_dec : forall a b : option (list item), {a = b} + {a <> b}.
Proof. repeat decide equality. Defined.
(** Some of the events of a healthy environment. *)
Definition fineb (w : world) (e : aev) : bool :=
  match e with
  | APut _ k => k
  | ATakeC tok => tok
  | ATakeU a l => a && l
  | ATick => true
  | ATakeM (MvConfig l) => forallb cfgb l
  | ATakeM (MvAdu m) =>
      match the_client (w_app w) with Some c => match c_st c with CConnected | CSend => true | _ => false end | None => false end &&
      match w_sess w with Some _ => true | None => false end &&
      match x_m (p_q (w_app w)) with GBatch its :: _ => if items_dec (read_batch m) (Some its) then true else false | _ => false end
  | ATakeM (MvRsp _ _ sok) => sok
  | ATakeM (MvInit _ _) => true
  | ANet (MvCli 0 x) =>
      match the_client (w_app w) with
      | Some c => enabled c x && match x with
                  | EConnected => match c_st c with CConnect => true | _ => false end
                  | ETimer true true => match c_st c with
                      | CSend | CBackoff => true
                      | CReceive => match w_c2s w, w_s2c w, x_m (p_q (w_app w)), x_m (p_out (w_app w)), x_c (p_q (w_app w)), x_c (p_out (w_app w)) with
                                    | [], [], [], [], [], [] => true | _, _, _, _, _, _ => false end
                      | _ => false end
                  | EData (RxBytes bs) => readable bs (w_s2c w) (bufMaxLen - c_len c) && zlist_eqb bs (w_s2c w)
                  | _ => false end
      | None => false
      end
  | ANet (MvSrv 0 x) =>
      match the_server (w_app w), the_client (w_app w) with
      | Some v, Some c => srv_enabled v x && match x with
                  | VAccept true true true => match w_sess w with None => c_fd c | _ => false end
                  | VData u (RxBytes bs) => match w_sess w with Some u' => u =? u' | None => false end &&
                      readable bs (w_c2s w) (match session_of v u with Some s => bufMaxLen - x_len s | None => 0 end)
                  | _ => false end
      | _, _ => false
      end
  | _ => false
  end.
Lemma octets_of l : forallb (fun b => (0 <=? b) && (b <? 256)) l = true -> bytes_ok l.
Proof. intros H. apply Forall_forall. intros x Hx. rewrite forallb_forall in H. specialize (H x Hx). unfold is_byte. lia. Qed.
Lemma cfgb_ok x : cfgb x = true -> cfg_ok x /\ g_pools x = true /\ g_net x = true.
Proof.
  intros H. unfold cfgb in H. repeat (apply andb_prop in H as [H ?]).
  repeat match goal with K : (_ =? _)%nat = true |- _ => apply Nat.eqb_eq in K | K : forallb _ _ = true |- _ => apply octets_of in K end.
  split; [|auto]. split; [unfold is_u32; lia|]. split; [auto|]. split; [auto|]. split; [|auto]. unfold req_ok, is_u32, is_u16, is_byte.
  repeat (split; [lia|]). split; [auto|lia].
Qed.
Ltac bools := repeat match goal with K : _ && _ = true |- _ => apply andb_prop in K as [? K] end.
Lemma fineb_fine w e : fineb w e = true -> fine w e.
Proof.
  intros H. destruct e as [st k|r k|tok|acc lis|x| |x]; cbn [fineb fine] in *; try discriminate; auto.
  - bools; auto.
  - destruct x as [| |l|m|s p sok|id x|id x]; cbn [fine_take] in *; auto.
    + apply Forall_forall. intros y Hy. rewrite forallb_forall in H. apply cfgb_ok. auto.
    + bools. destruct (the_client _) as [c|]; [|discriminate]. destruct (w_sess w); [|discriminate]. split; [exists c; split; [reflexivity|]; destruct (c_st c); auto; discriminate|].
      split; [discriminate|]. destruct (x_m _) as [|[] ]; auto. destruct (items_dec _ _); [auto|discriminate].
  - destruct x as [| | | | |id x|id x]; try discriminate; destruct id; try discriminate; (split; [reflexivity|]).
    + destruct (the_client _) as [c|] eqn:Ec; [|discriminate]. bools. exists c. split; [reflexivity|]. split; [assumption|].
      destruct x as [| | |[| |bs]| |sok cok]; try discriminate.
      * destruct (c_st c); auto; discriminate.
      * bools. split; [assumption|]. left. unfold zlist_eqb in *. now destruct (list_eq_dec _ _ _).
      * destruct sok, cok; try discriminate. split; [auto|]. split; [auto|]. destruct (c_st c); auto; try discriminate.
        unfold still. destruct (w_c2s w); [|discriminate]. destruct (w_s2c w); [|discriminate]. destruct (x_m (p_q _)); [|discriminate].
        destruct (x_m _); [|discriminate]. destruct (x_c _); [|discriminate]. destruct (x_c _); [auto 10|discriminate].
    + destruct (the_server _) as [v|] eqn:Ev; [|discriminate]. destruct (the_client _) as [c|] eqn:Ec; [|discriminate]. bools. exists v. split; [reflexivity|]. split; [assumption|].
      destruct x as [tok lok aok|u [| |bs]| | | |]; try discriminate.
      * destruct tok, lok, aok; try discriminate. do 3 (split; [reflexivity|]). destruct (w_sess w); [discriminate|]. split; [reflexivity|]. exists c. rewrite Ec. auto.
      * bools. destruct (w_sess w) as [u'|]; [|discriminate]. split; [f_equal; lia|assumption].
Qed.

(** A scheduler. *)
Definition zq := mkReq 0 0 0 0 0 0 (repeat 0 260).
Definition ev_for (m : amsg) : mev :=
  match m with
  | GModbusInit a b => MvInit a b
  | GModbusConfig xs => MvConfig (map (fun x : Z * bool * list Z => mkCfg (fst (fst x)) (if snd (fst x) then 1 else 0) (fun _ => 0) (repeat 0 512) zq true true) xs)
  | GBatch its => MvAdu (match write_batch (repeat 165 4096) its with Some m => m | None => [] end)
  | GReply s ss tid ok err nb d => MvRsp s (mkReply ss tid ok err nb d) true
  | _ => MvRelease
  end.
Definition next_ev (w : world) : option aev :=
  let s := w_app w in
  match x_c (p_out s), x_m (p_out s), x_u (p_out s) with
  | _ :: _, _, _ => Some (APut RCtrl true)
  | _, _ :: _, _ => Some (APut RModbus true)
  | _, _, _ :: _ => Some (APut RUa true)
  | _, _, _ =>
      match x_u (p_q s), x_c (p_q s) with
      | _ :: _, _ => Some (ATakeU true true)
      | _, _ :: _ => Some (ATakeC true)
      | _, _ =>
          match the_client s with
          | Some c =>
              match c_st c, w_sess w, x_m (p_q s), w_c2s w, w_s2c w with
              | CConnect, None, _, _, _ => Some (ANet (MvSrv 0 (VAccept true true true)))
              | CConnect, _, _, _, _ => Some (ANet (MvCli 0 EConnected))
              | _, _, m :: _, _, _ => Some (ATakeM (ev_for m))
              | _, Some u, _, _ :: _, _ => Some (ANet (MvSrv 0 (VData u (RxBytes (w_c2s w)))))
              | _, _, _, _, _ :: _ => Some (ANet (MvCli 0 (EData (RxBytes (w_s2c w)))))
              | _, _, _, _, _ => match c_timer c with Some _ => Some (ANet (MvCli 0 (ETimer true true))) | None => Some ATick end
              end
          | None => match x_m (p_q s) with m :: _ => Some (ATakeM (ev_for m)) | [] => None end
          end
      end
  end.
Fixpoint play (g : list Z) (n : nat) (w : world) : option (list (aev * list amsg)) :=
  match n with
  | O => Some []
  | S n => match next_ev w with
           | Some e => if fineb w e then
                         match wstep g w e with
                         | Some w' => match play g n w' with Some h => Some ((e, sent_by e (w_app w')) :: h) | None => None end
                         | None => None end
                       else None
           | None => None
           end
  end.
Lemma play_healthy g n : forall w h0 h, healthy g w h0 -> play g n w = Some h -> exists w', healthy g w' (h0 ++ h).
Proof.
  induction n as [|n IH]; intros w h0 h Hh H; cbn [play] in H.
  - injection H as <-. exists w. now rewrite app_nil_r.
  - destruct (next_ev w) as [e|]; [|discriminate]. destruct (fineb w e) eqn:Ef; [|discriminate]. destruct (wstep g w e) as [w1|] eqn:Es; [|discriminate].
    destruct (play g n w1) as [h1|] eqn:Ep; [|discriminate]. injection H as <-.
    destruct (IH w1 (h0 ++ [(e, sent_by e (w_app w1))]) h1) as (w' & Hw); [now apply he_step with w; [|apply fineb_fine|]|exact Ep|].
    exists w'. now rewrite <- app_assoc in Hw.
Qed.

(** The third round begins within 330 events: the responses come in this order, case 12 (a client that does not exist) first and case 15 (never answered) last. *)
Definition g0 : list Z := map (fun i => (Z.of_nat i * 7 + 3) mod 256) (seq 0 2048).
Definition answered (h : list (aev * list amsg)) : list Z :=
  flat_map (fun m => match m with GFromModbus (TvRsp r) => [r_tid r] | _ => [] end) (flat_map snd h).
Example C149_case : octets g0 /\ exists w h, healthy g0 w h /\ length h = 330%nat /\ rounds h = 3%nat /\
  firstn 20 (answered h) = [12; 0; 1; 2; 3; 4; 5; 6; 7; 8; 9; 10; 11; 13; 14; 15; 12; 0; 1; 2].
Proof.
  split; [split; [reflexivity|apply octets_of; vm_compute; reflexivity]|].
  assert (E : match play g0 330 world0 with
              | Some h => (length h =? 330)%nat && (rounds h =? 3)%nat && zlist_eqb (firstn 20 (answered h)) [12; 0; 1; 2; 3; 4; 5; 6; 7; 8; 9; 10; 11; 13; 14; 15; 12; 0; 1; 2]
              | None => false end = true) by (vm_compute; reflexivity).
  destruct (play g0 330 world0) as [h|] eqn:Ep; [|discriminate]. destruct (play_healthy g0 330 world0 [] h (he_start g0) Ep) as (w & Hw).
  bools. exists w, h. split; [exact Hw|]. unfold zlist_eqb in E. destruct (list_eq_dec _ _ _); [|discriminate].
  repeat match goal with K : (_ =? _)%nat = true |- _ => apply Nat.eqb_eq in K end. auto.
Qed.
(** The same run for C150: 2 rounds are over and the third lacks one response of 16, the fifth with the octets 1780 to 2019 of the register image. *)
Example C150_case : octets g0 /\ exists w h, healthy g0 w h /\ rounds h = 3%nat /\ length (answers_in (flat_map snd h)) = 47%nat /\
  nth_error (answers_in (flat_map snd h)) 4 = Some (mkCrsp 0 3 0 true 240 (firstn 240 (skipn 1780 g0))).
Proof.
  split; [split; [reflexivity|apply octets_of; vm_compute; reflexivity]|].
  assert (E : match play g0 330 world0 with
              | Some h => (rounds h =? 3)%nat && (length (answers_in (flat_map snd h)) =? 47)%nat &&
                  match nth_error (answers_in (flat_map snd h)) 4 with Some r => (r_tid r =? 3) && (r_client r =? 0) && (r_err r =? 0) && r_ok r && (r_nbytes r =? 240) && zlist_eqb (r_data r) (firstn 240 (skipn 1780 g0)) | None => false end
              | None => false end = true) by (vm_compute; reflexivity).
  destruct (play g0 330 world0) as [h|] eqn:Ep; [|discriminate]. destruct (play_healthy g0 330 world0 [] h (he_start g0) Ep) as (w & Hw).
  exists w, h. split; [exact Hw|]. cbn [List.app] in *. clear Ep Hw. apply andb_prop in E as [E E3]. apply andb_prop in E as [E1 E2].
  apply Nat.eqb_eq in E1, E2. split; [exact E1|]. split; [exact E2|]. destruct (nth_error _ 4) as [[c t er ok nb d]|]; [|discriminate]. cbn [r_tid r_client r_err r_ok r_nbytes r_data] in E3.
  repeat (apply andb_prop in E3 as [E3 ?]). unfold zlist_eqb in *. destruct (list_eq_dec Z.eq_dec d (firstn 240 (skipn 1780 g0))) as [->|]; [|discriminate]. destruct ok; [|discriminate]. do 2 f_equal; lia.
Qed.
