(** The self-test without the OPC UA start-up around it: the part of the application that the rounds depend on, and how a step of the
    application appears there. *)
From Verif Require Import Base QueueModel MsgStorageModel ModbusCodecModel ModbusCodecSpec ModbusClientModel ModbusClientSpec
  ModbusServerModel ModbusServerSpec ModbusCompModel ModbusCompSpec ModbusNetModel ControllerModel AppModel SelfTestModel SelfTestSpec.
Local Open Scope Z_scope.

(** Messages on their way up to the controller and down to the Modbus component; where they are does not matter. *)
Record core := mkCo { o_mt : mtest; o_mb : option modbus; o_up : list amsg; o_down : list amsg; o_c2s : list Z; o_s2c : list Z; o_sess : option Z; o_ref : bool }.
Inductive cevt := QCtl | QTick | QMod (x : mev) | QNet (x : mev).

Definition co_cli (c : core) : option (client astore) := match o_mb c with Some b => nth_slot (b_clients b) 0 | None => None end.
Definition co_srv (c : core) : option server := match o_mb c with Some b => nth_slot (b_servers b) 0 | None => None end.

Definition co_ctl (c : core) (t : tev) (up : list amsg) : option (core * list amsg) :=
  match m_step (o_mt c) t with
  | Some (mt, os) => Some (mkCo mt (o_mb c) up (o_down c ++ flat_map k_sends os) (o_c2s c) (o_s2c c) (o_sess c) (o_ref c), flat_map k_sends os)
  | None => None
  end.
Definition co_mod (c : core) (e : aev) (x : mev) (down : list amsg) : option (core * list amsg) :=
  match mb_step (o_mb c) x with
  | Some (b, os) =>
      if m_ends os then None
      else Some (mkCo (o_mt c) b (o_up c ++ flat_map m_sends os) down
                   (skipn (read_by_session e) (o_c2s c) ++ from_client os) (skipn (read_by_client e) (o_s2c c) ++ from_session (o_sess c) os)
                   (match o_sess c with Some u => Some u | None => accepted os end)
                   (o_ref c || match e with ANet (MvCli _ EError) => true | _ => false end), flat_map m_sends os)
  | None => None
  end.
Definition co_next (c : core) (e : cevt) : option (core * list amsg) :=
  match e with
  | QCtl => match o_up c with GFromModbus t :: up => co_ctl c t up | _ => None end
  | QTick => co_ctl c TvTimer (o_up c)
  | QMod x => match o_down c with _ :: down => co_mod c (ATakeM x) x down | [] => None end
  | QNet x => co_mod c (ANet x) x (o_down c)
  end.
(** The event can occur. *)
Definition co_legit (c : core) (e : cevt) : Prop :=
  match e with
  | QCtl => exists t up, o_up c = GFromModbus t :: up
  | QTick => m_timer (o_mt c) <> None
  | QMod x => exists m down, o_down c = m :: down /\ m_event m x = true
  | QNet x => match x with MvCli _ _ | MvSrv _ _ => True | _ => False end
  end.
Definition co_still (c : core) : Prop := o_c2s c = [] /\ o_s2c c = [] /\ o_up c = [] /\ o_down c = [].
Definition co_fine_cli (c : core) (cl : client astore) (e : cev) : Prop :=
  enabled cl e = true /\
  match e with
  | EConnected => c_st cl = CConnect
  | EError => c_st cl = CConnect /\ o_sess c = None /\ o_ref c = false
  | ETimer sok cok => sok = true /\ cok = true /\ match c_st cl with CBackoff | CSend => True | CReceive => co_still c | _ => False end
  | EData (RxBytes bs) => readable bs (o_s2c c) (bufMaxLen - c_len cl) = true /\
      (bs = o_s2c c \/ c_len cl + Z.of_nat (length bs) < 6 \/ (length bs + 6 < length (o_s2c c))%nat)
  | _ => False
  end.
Definition co_fine_srv (c : core) (v : server) (e : vev) : Prop :=
  srv_enabled v e = true /\
  match e with
  | VAccept tok lok aok => tok = true /\ lok = true /\ aok = true /\ o_sess c = None /\ exists cl, co_cli c = Some cl /\ c_fd cl = true
  | VData u (RxBytes bs) => o_sess c = Some u /\ readable bs (o_c2s c) (match session_of v u with Some x => bufMaxLen - x_len x | None => 0 end) = true
  | _ => False
  end.
Definition co_fine (c : core) (e : cevt) : Prop :=
  match e with
  | QCtl | QTick => True
  | QMod x =>
      match x with
      | MvConfig l => Forall (fun x => cfg_ok x /\ g_pools x = true /\ g_net x = true) l
      | MvAdu m => (exists cl, co_cli c = Some cl /\ (c_st cl = CConnected \/ c_st cl = CSend)) /\ o_sess c <> None /\
          match o_down c with GBatch its :: _ => read_batch m = Some its | _ => True end
      | MvRsp _ _ sok => sok = true
      | _ => True
      end
  | QNet (MvCli id x) => id = 0 /\ exists cl, co_cli c = Some cl /\ co_fine_cli c cl x
  | QNet (MvSrv id x) => id = 0 /\ exists v, co_srv c = Some v /\ co_fine_srv c v x
  | QNet _ => False
  end.

(** * From the application *)
Definition is_up (m : amsg) : bool := match m with GFromModbus _ => true | _ => false end.
Definition is_down (m : amsg) : bool := match home m with RModbus => true | _ => false end.
Definition is_inited (m : amsg) : bool := match m with GInited _ => true | _ => false end.
(** Messages of the OPC UA start-up. *)
Definition is_ua (m : amsg) : bool := match m with GInit _ | GInited _ | GConfig _ _ => true | _ => false end.

Definition proj (w : world) (mt : mtest) : core :=
  let s := w_app w in
  mkCo mt (p_modbus s) (filter is_up (x_c (p_q s)) ++ x_m (p_out s)) (x_m (p_q s) ++ filter is_down (x_c (p_out s))) (w_c2s w) (w_s2c w) (w_sess w) (w_refused w).

(** How many events a message of the start-up can still cause. *)
Definition qw (m : amsg) : nat := match m with GInit _ => 5 | GInited _ => 3 | GConfig _ _ => 1 | _ => 0 end.
Definition ow (m : amsg) : nat := S (qw m).
Fixpoint sumw (f : amsg -> nat) (l : list amsg) : nat := match l with [] => 0 | m :: r => f m + sumw f r end.
Definition wm (w : world) : nat :=
  let q := p_q (w_app w) in let o := p_out (w_app w) in
  (sumw qw (x_m q) + sumw qw (x_u q) + sumw qw (x_c q) + (sumw ow (x_m o) + sumw ow (x_u o) + sumw ow (x_c o)))%nat.

Definition all (f : amsg -> bool) (l : list amsg) : Prop := Forall (fun m => f m = true) l.
Record WI (w : world) (mt : mtest) : Prop := mkWI {
  wi_ctrl : p_ctrl (w_app w) = mkK (Some mt) true;
  wi_port : p_port (w_app w) <> PBroken;
  wi_cq : all (fun m => is_up m || is_inited m) (x_c (p_q (w_app w)));
  wi_mq : all is_down (x_m (p_q (w_app w)));
  wi_uq : all is_ua (x_u (p_q (w_app w)));
  wi_mo : all is_up (x_m (p_out (w_app w)));
  wi_uo : all is_inited (x_u (p_out (w_app w)));
  wi_co : all (fun m => is_down m || is_ua m) (x_c (p_out (w_app w)))
}.

Lemma all_app f l l' : all f (l ++ l') <-> all f l /\ all f l'.
Proof. apply Forall_app. Qed.
Lemma all_cons f m l : all f (m :: l) <-> f m = true /\ all f l.
Proof. apply Forall_cons_iff. Qed.
Lemma sumw_app f l l' : sumw f (l ++ l') = (sumw f l + sumw f l')%nat.
Proof. induction l; cbn; lia. Qed.
Lemma up_weight l : all is_up l -> sumw ow l = length l.
Proof. induction 1 as [|m l Hm _ IH]; cbn; [auto|]. rewrite IH. destruct m; try discriminate Hm; reflexivity. Qed.
Lemma down_weight l : all is_down l -> sumw ow l = length l.
Proof. induction 1 as [|m l Hm _ IH]; cbn; [auto|]. rewrite IH. destruct m; try discriminate Hm; try reflexivity; destruct l0; discriminate Hm. Qed.
Lemma down_filter l : all is_down l -> filter is_down l = l.
Proof. induction 1 as [|m l Hm _ IH]; cbn; [auto|]. now rewrite Hm, IH. Qed.

(** What the handlers send. *)
Lemma enter_down c : all is_down (flat_map k_sends (snd (m_enter c))).
Proof. unfold m_enter. destruct (m_st c); repeat constructor. Qed.
Lemma transit_down c st : all is_down (flat_map k_sends (snd (m_transit c st))).
Proof.
  unfold m_transit. destruct (mst_eqb _ _); [constructor|]. unfold m_exit.
  destruct (m_st c); pose proof (enter_down) as X;
  match goal with |- context [m_enter ?c2] => specialize (X c2); destruct (m_enter c2) as [c3 o3]; cbn in X |- *; exact X end.
Qed.
Lemma step_down c t c' os : m_step c t = Some (c', os) -> all is_down (flat_map k_sends os).
Proof.
  assert (T : forall c st c' os, Some (m_transit c st) = Some (c', os) -> all is_down (flat_map k_sends os)).
  { intros c0 st c1 o1 E. injection E as E. pose proof (transit_down c0 st) as X. now rewrite E in X. }
  intros H. destruct t as [| | | | |r|q|]; cbn [m_step] in H; destruct (m_st c) eqn:Es; try (eapply T; exact H); try (injection H as <- <-; repeat constructor).
  - destruct (m_process c r) as [[c1 [| |]]|]; try discriminate H; try (eapply T; exact H). injection H as <- <-. constructor.
  - unfold m_serve in H. destruct (nth_error _ _); [|discriminate].
    repeat match type of H with
    | (if ?x then _ else _) = _ => destruct x
    | match ?x with _ => _ end = _ => destruct x
    end; try discriminate H; injection H as <- <-; repeat constructor.
    destruct (_ =? _); repeat constructor.
Qed.
Lemma c_sends_up l : all is_up (flat_map c_sends l).
Proof. induction l as [|o l IH]; cbn; [constructor|]. apply all_app. split; [destruct o; repeat constructor|exact IH]. Qed.
Lemma s_sends_up id l : all is_up (flat_map (s_sends id) l).
Proof. induction l as [|o l IH]; cbn; [constructor|]. apply all_app. split; [destruct o; repeat constructor|exact IH]. Qed.
Lemma m_sends_up l : all is_up (flat_map m_sends l).
Proof.
  induction l as [|o l IH]; cbn; [constructor|]. apply all_app. split; [|exact IH].
  destruct o; try (repeat constructor); [apply c_sends_up|apply s_sends_up].
Qed.

Section World.
Context (g : list Z).

(** A step the rounds do not see. *)
Definition unseen (w : world) (mt : mtest) (e : aev) : Prop :=
  exists s, astep g (w_app w) e = ANext s /\ WI (settle w e s) mt /\ proj (settle w e s) mt = proj w mt /\ (wm (settle w e s) < wm w)%nat /\
    all (fun m => negb (is_down m || is_up m)) (sent_by e s).
Definition seen (w : world) (mt : mtest) (e : aev) (ce : cevt) : Prop :=
  co_fine (proj w mt) ce /\ co_legit (proj w mt) ce /\
  forall c outs, co_next (proj w mt) ce = Some (c, outs) ->
    exists s, astep g (w_app w) e = ANext s /\ WI (settle w e s) (o_mt c) /\ proj (settle w e s) (o_mt c) = c /\
      wm (settle w e s) = (wm w + length outs)%nat /\ sent_by e s = outs.

Lemma settle_put w r k s : settle w (APut r k) s = mkW s (w_c2s w) (w_s2c w) (w_sess w) (w_refused w).
Proof.
  unfold settle. cbn [effects read_by_session read_by_client skipn from_client flat_map accepted]. rewrite app_nil_r, orb_false_r.
  unfold from_session. destruct (w_sess w); cbn [flat_map]; now rewrite app_nil_r.
Qed.
Lemma settle_quiet w e s : effects (w_app w) e = [] -> read_by_session e = 0%nat -> read_by_client e = 0%nat -> (match e with ANet _ => False | _ => True end) ->
  settle w e s = mkW s (w_c2s w) (w_s2c w) (w_sess w) (w_refused w).
Proof.
  intros E1 E2 E3 E4. unfold settle. rewrite E1, E2, E3. cbn [skipn from_client flat_map accepted]. rewrite app_nil_r.
  unfold from_session. destruct (w_sess w); cbn [flat_map]; rewrite ?app_nil_r; destruct e; try contradiction; now rewrite orb_false_r.
Qed.

Lemma put_step w mt r : WI w mt -> at_r (p_out (w_app w)) r <> [] -> unseen w mt (APut r true).
Proof.
  intros [W1 W2 W3 W4 W5 W6 W7 W8] Hne. unfold unseen. destruct w as [[ct mb pt ch sv [qm qu qc] [om ou oc]] c2s s2c se rf].
  cbn [w_app p_out p_q p_ctrl p_port x_m x_u x_c at_r] in *.
  destruct r; cbn [at_r x_m x_u x_c] in Hne.
  - destruct om as [|m om]; [congruence|]. apply all_cons in W6 as [Hm W6]. destruct m; try discriminate Hm.
    eexists. split; [reflexivity|]. rewrite settle_put. cbn [w_app p_out p_q p_ctrl p_port x_m x_u x_c push_msg set_r home at_r w_c2s w_s2c w_sess w_refused sent_by].
    split; [constructor; cbn; auto; apply all_app; split; [auto|repeat constructor]|].
    split; [unfold proj; cbn; rewrite filter_app; cbn; now rewrite <- app_assoc|].
    split; [unfold wm; cbn; rewrite sumw_app; cbn; lia|constructor].
  - destruct ou as [|m ou]; [congruence|]. apply all_cons in W7 as [Hm W7]. destruct m; try discriminate Hm.
    eexists. split; [reflexivity|]. rewrite settle_put. cbn [w_app p_out p_q p_ctrl p_port x_m x_u x_c push_msg set_r w_c2s w_s2c w_sess w_refused sent_by].
    destruct l; cbn [home at_r x_m x_u x_c];
    (split; [constructor; cbn; auto; apply all_app; split; [auto|repeat constructor]|]);
    (split; [unfold proj; cbn; rewrite ?filter_app; cbn; rewrite ?app_nil_r; reflexivity|]);
    (split; [unfold wm; cbn; rewrite sumw_app; cbn; lia|constructor]).
  - destruct oc as [|m oc]; [congruence|]. apply all_cons in W8 as [Hm W8].
    eexists. split; [reflexivity|]. rewrite settle_put. cbn [w_app p_out p_q p_ctrl p_port x_m x_u x_c push_msg set_r w_c2s w_s2c w_sess w_refused sent_by].
    destruct m as [| | |l|l| | | | | |l|l a|l]; try discriminate Hm; try destruct l; try discriminate Hm; cbn [home at_r x_m x_u x_c];
    (split; [constructor; cbn; auto; apply all_app; split; [auto|repeat constructor]|]);
    (split; [unfold proj; cbn; rewrite ?filter_app; cbn; rewrite ?app_nil_r, <- ?app_assoc; reflexivity|]);
    (split; [unfold wm; cbn; rewrite sumw_app; cbn; lia|constructor]).
Qed.

Lemma take_u w mt : WI w mt -> x_u (p_out (w_app w)) = [] -> x_u (p_q (w_app w)) <> [] -> unseen w mt (ATakeU true true).
Proof.
  intros [W1 W2 W3 W4 W5 W6 W7 W8] Hi Hne. unfold unseen. destruct w as [[ct mb pt ch sv [qm qu qc] [om ou oc]] c2s s2c se rf].
  cbn [w_app p_out p_q p_ctrl p_port x_m x_u x_c at_r] in *. subst ou. destruct qu as [|m qu]; [congruence|]. apply all_cons in W5 as [Hm W5].
  cbn [astep with_next idle at_r p_out p_q x_u w_app set_r].
  assert (K : forall port chan svc out, port <> PBroken -> all is_inited out -> (sumw ow out < qw m)%nat ->
    exists s, u_next (mkApp ct mb pt ch sv (mkBox qm (m :: qu) qc) (mkBox om [] oc)) port chan svc (mkBox qm qu qc) out = ANext s /\
      WI (settle (mkW (mkApp ct mb pt ch sv (mkBox qm (m :: qu) qc) (mkBox om [] oc)) c2s s2c se rf) (ATakeU true true) s) mt /\
      proj (settle (mkW (mkApp ct mb pt ch sv (mkBox qm (m :: qu) qc) (mkBox om [] oc)) c2s s2c se rf) (ATakeU true true) s) mt =
      proj (mkW (mkApp ct mb pt ch sv (mkBox qm (m :: qu) qc) (mkBox om [] oc)) c2s s2c se rf) mt /\
      (wm (settle (mkW (mkApp ct mb pt ch sv (mkBox qm (m :: qu) qc) (mkBox om [] oc)) c2s s2c se rf) (ATakeU true true) s) <
       wm (mkW (mkApp ct mb pt ch sv (mkBox qm (m :: qu) qc) (mkBox om [] oc)) c2s s2c se rf))%nat /\
      all (fun m => negb (is_down m || is_up m)) (sent_by (ATakeU true true) s)).
  { intros port chan svc out Hp Ho Hw. eexists. split; [reflexivity|]. rewrite settle_quiet by (cbn; auto).
    split; [constructor; cbn; auto|]. split; [reflexivity|]. split; [unfold wm; cbn; lia|].
    cbn. eapply Forall_impl; [|exact Ho]. intros x Hx. destruct x; try discriminate Hx. destruct l; reflexivity. }
  destruct m as [| | |l|l| | | | | |l|l a|l]; try discriminate Hm.
  - apply K; [auto|constructor|cbn; lia].
  - cbn [u_handle p_port p_chan p_svc]. destruct l; [apply K|destruct pt; try congruence; apply K|apply K]; try (repeat constructor); auto; try discriminate; cbn; lia.
  - cbn [u_handle p_port p_chan p_svc]. destruct l; [apply K; [auto|constructor|cbn; lia]| |apply K; [auto|constructor|cbn; lia]].
    destruct pt; try congruence; cbn [negb]; apply K; try constructor; try discriminate; cbn; lia.
Qed.

Lemma take_noise w mt l rest : WI w mt -> x_c (p_out (w_app w)) = [] -> x_c (p_q (w_app w)) = GInited l :: rest -> unseen w mt (ATakeC true).
Proof.
  intros [W1 W2 W3 W4 W5 W6 W7 W8] Hi Hq. unfold unseen. destruct w as [[ct mb pt ch sv [qm qu qc] [om ou oc]] c2s s2c se rf].
  cbn [w_app p_out p_q p_ctrl p_port x_m x_u x_c at_r] in *. subst oc qc ct. apply all_cons in W3 as [_ W3].
  eexists. split; [reflexivity|]. rewrite settle_quiet by (cbn; auto). cbn [set_r flat_map k_sends ua_inited k_ua List.app].
  split; [constructor; cbn; auto; repeat constructor; destruct l; reflexivity|]. split; [unfold proj; cbn; destruct l; reflexivity|].
  split; [unfold wm; cbn; lia|]. cbn. repeat constructor; destruct l; reflexivity.
Qed.

Lemma take_up w mt t rest : WI w mt -> x_c (p_out (w_app w)) = [] -> x_c (p_q (w_app w)) = GFromModbus t :: rest -> seen w mt (ATakeC true) QCtl.
Proof.
  intros [W1 W2 W3 W4 W5 W6 W7 W8] Hi Hq. unfold seen. destruct w as [[ct mb pt ch sv [qm qu qc] [om ou oc]] c2s s2c se rf].
  cbn [w_app p_out p_q p_ctrl p_port x_m x_u x_c at_r] in *. subst oc qc ct. apply all_cons in W3 as [_ W3].
  split; [exact I|]. split; [cbn; eauto|]. intros c outs H. cbn [co_next proj w_app p_q x_c filter is_up o_up List.app p_out x_m] in H.
  unfold co_ctl in H. cbn [o_mt proj] in H. destruct (m_step mt t) as [[mt' os]|] eqn:Es; [|discriminate]. injection H as <- <-.
  pose proof (step_down _ _ _ _ Es) as Hd.
  cbn [astep with_next idle at_r p_out p_q x_c w_app k_event set_r]. unfold k_handle. cbn [k_step p_ctrl k_modbus k_ua]. rewrite Es.
  eexists. split; [reflexivity|]. rewrite settle_quiet by (cbn; auto). cbn [set_r].
  split; [constructor; cbn; auto; eapply Forall_impl; [|exact Hd]; intros m Hm; cbn in Hm; now rewrite Hm|].
  split; [unfold proj; cbn; now rewrite app_nil_r, down_filter|].
  split; [unfold wm; cbn; rewrite (down_weight _ Hd); lia|reflexivity].
Qed.

Lemma tick w mt : WI w mt -> x_c (p_out (w_app w)) = [] -> m_timer mt <> None -> seen w mt ATick QTick.
Proof.
  intros [W1 W2 W3 W4 W5 W6 W7 W8] Hi Hq. unfold seen. destruct w as [[ct mb pt ch sv [qm qu qc] [om ou oc]] c2s s2c se rf].
  cbn [w_app p_out p_q p_ctrl p_port x_m x_u x_c at_r] in *. subst oc ct.
  split; [exact I|]. split; [exact Hq|]. intros c outs H. cbn [co_next] in H.
  unfold co_ctl in H. cbn [o_mt proj] in H. destruct (m_step mt TvTimer) as [[mt' os]|] eqn:Es; [|discriminate]. injection H as <- <-.
  pose proof (step_down _ _ _ _ Es) as Hd.
  cbn [astep idle at_r p_out p_q x_c w_app k_enabled p_ctrl k_modbus]. destruct (m_timer mt); [|congruence]. cbn [andb].
  unfold k_handle. cbn [k_step p_ctrl k_modbus k_ua]. rewrite Es.
  eexists. split; [reflexivity|]. rewrite settle_quiet by (cbn; auto). cbn [set_r].
  split; [constructor; cbn; auto; eapply Forall_impl; [|exact Hd]; intros m Hm; cbn in Hm; now rewrite Hm|].
  split; [unfold proj; cbn; now rewrite app_nil_r, down_filter|].
  split; [unfold wm; cbn; rewrite (down_weight _ Hd); lia|reflexivity].
Qed.

Lemma take_m w mt m rest x : WI w mt -> x_m (p_out (w_app w)) = [] -> x_m (p_q (w_app w)) = m :: rest -> m_event m x = true -> fine_take w x ->
  seen w mt (ATakeM x) (QMod x).
Proof.
  intros [W1 W2 W3 W4 W5 W6 W7 W8] Hi Hq Hx Hf. unfold seen. destruct w as [[ct mb pt ch sv [qm qu qc] [om ou oc]] c2s s2c se rf].
  cbn [w_app p_out p_q p_ctrl p_port x_m x_u x_c at_r] in *. subst om qm. apply all_cons in W4 as [Hm W4].
  split; [destruct x; try exact I; try exact Hf|]. split; [cbn; eauto|]. intros c outs H.
  cbn [co_next proj w_app p_q x_m o_down List.app] in H. unfold co_mod in H. cbn [o_mb proj w_app p_modbus] in H.
  cbn [astep with_next idle at_r p_out p_q x_m w_app set_r]. rewrite Hx. unfold m_handle. cbn [p_modbus].
  destruct (mb_step mb x) as [[b os]|] eqn:Es; [|discriminate]. destruct (m_ends os) eqn:Em; [discriminate|]. injection H as <- <-.
  eexists. split; [reflexivity|]. unfold settle. cbn [effects w_app p_modbus w_c2s w_s2c w_sess w_refused]. rewrite Es.
  pose proof (m_sends_up os) as Hu.
  split; [constructor; cbn; auto|]. split; [unfold proj; cbn; now rewrite app_nil_r|].
  split; [unfold wm; cbn; rewrite (up_weight _ Hu); destruct m; try discriminate Hm; try (destruct l; discriminate Hm); cbn; lia|reflexivity].
Qed.

Lemma net_step w mt x : WI w mt -> x_m (p_out (w_app w)) = [] -> fine w (ANet x) -> seen w mt (ANet x) (QNet x).
Proof.
  intros [W1 W2 W3 W4 W5 W6 W7 W8] Hi Hf. unfold seen.
  assert (Hnet : match x with MvCli _ _ | MvSrv _ _ => True | _ => False end) by (destruct x; exact I || exact Hf).
  split.
  { destruct x as [| | | | |id e|id e]; cbn [fine] in Hf; try contradiction; destruct Hf as (-> & y & Hy & Hf); cbn [co_fine]; (split; [reflexivity|]); exists y; (split; [exact Hy|]).
    - destruct Hf as [He Hf]. split; [exact He|]. destruct e as [| | |[]| |]; try exact Hf. destruct Hf as (H1 & H2 & H3). split; [auto|]. split; [auto|].
      destruct (c_st y); auto. destruct H3 as (K1 & K2 & K3 & K4 & K5 & K6). unfold co_still, proj. cbn. rewrite K1, K2, K3, K4, K5, K6. auto.
    - destruct Hf as [He Hf]. split; [exact He|]. destruct e as [| ? []| | | |]; exact Hf. }
  split; [exact Hnet|]. intros c outs H. destruct w as [[ct mb pt ch sv [qm qu qc] [om ou oc]] c2s s2c se rf].
  cbn [w_app p_out p_q p_ctrl p_port x_m x_u x_c at_r] in *. subst om.
  cbn [co_next] in H. unfold co_mod in H. cbn [o_mb proj w_app p_modbus o_down] in H.
  assert (Ha : astep g (mkApp ct mb pt ch sv (mkBox qm qu qc) (mkBox [] ou oc)) (ANet x) = m_handle (mkApp ct mb pt ch sv (mkBox qm qu qc) (mkBox [] ou oc)) x (mkBox qm qu qc)).
  { destruct x; try contradiction; reflexivity. }
  rewrite Ha. unfold m_handle. cbn [p_modbus].
  destruct (mb_step mb x) as [[b os]|] eqn:Es; [|discriminate]. destruct (m_ends os) eqn:Em; [discriminate|]. injection H as <- <-.
  eexists. split; [reflexivity|]. unfold settle. cbn [effects w_app p_modbus w_c2s w_s2c w_sess w_refused]. rewrite Es.
  pose proof (m_sends_up os) as Hu.
  split; [constructor; cbn; auto|]. split; [unfold proj; cbn; now rewrite app_nil_r|].
  split; [unfold wm; cbn; rewrite (up_weight _ Hu); lia|reflexivity].
Qed.

Lemma world_step w mt e : WI w mt -> fine w e -> unseen w mt e \/ astep g (w_app w) e = ADisabled \/ exists ce, seen w mt e ce.
Proof.
  intros HW Hf. destruct e as [st k|r k|tok|acc lis|x| |x]; cbn [fine] in Hf.
  - contradiction.
  - subst k. destruct (at_r (p_out (w_app w)) r) eqn:E.
    + right. left. cbn [astep]. now rewrite E.
    + left. apply put_step; auto. congruence.
  - subst tok. cbn [astep]. unfold with_next, idle. cbn [at_r]. destruct (x_c (p_out (w_app w))) eqn:Eo; [|auto].
    destruct (x_c (p_q (w_app w))) as [|m rest] eqn:Eq; [auto|].
    pose proof (wi_cq _ _ HW) as X. rewrite Eq in X. apply all_cons in X as [X _]. destruct m; try discriminate X.
    + right. right. eexists. eapply take_up; eauto.
    + left. eapply take_noise; eauto.
  - destruct Hf as [-> ->]. destruct (x_u (p_out (w_app w))) eqn:Eo; [destruct (x_u (p_q (w_app w))) eqn:Eq|].
    + right. left. cbn [astep]. unfold with_next, idle. cbn [at_r]. now rewrite Eo, Eq.
    + left. apply take_u; auto. congruence.
    + right. left. cbn [astep]. unfold with_next, idle. cbn [at_r]. now rewrite Eo.
  - destruct (x_m (p_out (w_app w))) eqn:Eo; [destruct (x_m (p_q (w_app w))) as [|m rest] eqn:Eq; [|destruct (m_event m x) eqn:Ex]|].
    + right. left. cbn [astep]. unfold with_next, idle. cbn [at_r]. now rewrite Eo, Eq.
    + right. right. eexists. eapply take_m; eauto.
    + right. left. cbn [astep]. unfold with_next, idle. cbn [at_r]. now rewrite Eo, Eq, Ex.
    + right. left. cbn [astep]. unfold with_next, idle. cbn [at_r]. now rewrite Eo.
  - destruct (x_c (p_out (w_app w))) eqn:Eo; [destruct (m_timer mt) eqn:Et|].
    + right. right. exists QTick. apply tick; auto. congruence.
    + right. left. cbn [astep]. unfold idle, k_enabled. cbn [at_r]. rewrite Eo, (wi_ctrl _ _ HW). cbn [k_modbus]. now rewrite Et.
    + right. left. cbn [astep]. unfold idle. cbn [at_r]. now rewrite Eo.
  - destruct (x_m (p_out (w_app w))) eqn:Eo.
    + right. right. eexists. apply net_step; auto.
    + right. left. cbn [astep]. unfold idle. cbn [at_r]. now rewrite Eo.
Qed.
End World.
