(** Theorems about starting and stopping the deployed application, C131-C134. *)
From Verif Require Import Base QueueModel MsgStorageModel ModbusCodecModel ModbusClientModel ModbusServerModel ModbusCompModel ControllerModel RoutingModel.
From Verif Require Import AppModel AppSpec AppProofs AppBound AppFacts AppLeft.
From Verif Require Import Props_ModbusClient Props_ModbusServer Props_ModbusComp.
Local Open Scope Z_scope.

(** * Material for the examples *)
Definition puts_of (r : rx) (n : nat) : list aev := repeat (APut r true) n.
Definition uas (n : nat) : list aev := flat_map (fun _ => [ATakeU true true; APut RUa true]) (seq 0 n).
(** A start: the controller asks for everything; the three layers are created; two of their answers come back to the OPC UA
    reactor, the third makes the controller configure the transport. *)
Definition start_evs (acc lis : bool) : list aev :=
  [ACmd true true; ATakeC true] ++ puts_of RCtrl 4 ++ uas 3 ++ [ATakeU true true; ATakeU true true; ATakeC true; APut RCtrl true; ATakeU acc lis].
(** ... and the Modbus component: created and configured, with or without entries in the pools. *)
Definition modbus_evs (pools : bool) : list aev :=
  [ATakeM (MvInit 1 1); APut RModbus true; ATakeC true; APut RCtrl true; ATakeM (MvConfig [mkCfg 0 1 m_init zb zq pools true; mkCfg 0 0 m_init zb zq pools true])].
Definition stop_evs : list aev := [ACmd false true; ATakeC true].
Definition port_of (o : option app) : option (tport * bool * bool) := match o with Some s => Some (p_port s, p_chan s, p_svc s) | None => None end.
Definition flight_of (o : option app) : option (list amsg) := match o with Some s => Some (in_flight s) | None => None end.
Definition modbus_of (o : option app) : option bool := match o with Some s => Some (mup s) | None => None end.

(** * C131 *)
(** Where the application's messages go, from the routing of the deployment (RoutingModel.v): each one to one reactor, and there to the
    component named, except the initialisation and release responses of the channel and service layers, for which that reactor has
    no handler. *)
Theorem C131_routes m :
  m_send (fst (deployed_as (get_depl depCpu3))) (comp_id (msg_dst (kind_of m))) = [match home m with RModbus => 1%nat | RUa => 2%nat | RCtrl => 3%nat end] /\
  handled_by depCpu3 (kind_of m) =
  match m with
  | GInited LChannel | GInited LService | GReleased LChannel | GReleased LService => None
  | GInit l | GConfig l _ | GRelease l => Some (match l with LChannel => compUaSecChannel | LTransport => compUaTransport | LService => compUaService end)
  | _ => Some (match home m with RModbus => compModbus | RUa => compUaService | RCtrl => compController end)
  end.
Proof. split; [apply home_routing|apply handled_routing]. Qed.
(** Every history in which the environment grants what is asked: once nothing about the OPC UA server is in flight, it is
    up on its address if the last command was a start, and gone otherwise. *)
Theorem C131_settled g s tr : areach g s tr -> ua_settled s -> if match last_cmd tr with Some true => true | _ => false end then serving s else gone s.
Proof. intros R S. pose proof (settled_inv s _ (reach_inv g s tr R) S) as H. destruct (last_cmd tr) as [[]|]; exact H. Qed.
(** Every infinite execution in such an environment in which no reactor stops working: after the last command there is a
    moment from which on the server is up, for good, or gone, for good. *)
Theorem C131_eventually g st ev k start : execution g st ev -> fair st ev -> last_command ev k start ->
  exists N, forall n, (N <= n)%nat -> if start then serving (st n) else gone (st n).
Proof.
  intros X F [[kept Ek] L].
  destruct (exec_inv g st ev X k) as [b0 I0]. pose proof (ex_step _ _ _ X k) as E. rewrite Ek in E. destruct E as [E G].
  pose proof (inv_step g _ _ _ _ I0 G E) as I1. cbn in I1.
  destruct (work_ends g st ev k X F L _ (S k) ltac:(lia) (le_n _)) as (N & HN & W).
  exists N. intros n Hn. pose proof (exec_after g st ev k X L _ I1 (n - S k)) as I. replace (S k + (n - S k))%nat with n in I by lia.
  assert (S : ua_settled (st n)) by (apply work_settled; replace n with (N + (n - N))%nat by lia; apply W).
  pose proof (settled_inv _ _ I S) as H. destruct start; exact H.
Qed.
(** Concretely: an execution with one start, in which the Modbus component finds its pools empty; the server is up. *)
Example C131_case : exists st ev, execution [] st ev /\ fair st ev /\ last_command ev 0 true.
Proof.
  destruct (grun [] app0 (start_evs true true ++ modbus_evs false)) as [sf|] eqn:E; [|vm_compute in E; discriminate E].
  assert (Q : forall r, at_r (p_q sf) r = [] /\ at_r (p_out sf) r = []).
  { assert (F : in_flight sf = []) by (assert (H : flight_of (grun [] app0 (start_evs true true ++ modbus_evs false)) = Some []) by (vm_compute; reflexivity); rewrite E in H; now injection H).
    unfold in_flight in F. repeat (apply app_eq_nil in F as [? F]). intros []; cbn [at_r]; auto. }
  exists (tail_st [] (start_evs true true ++ modbus_evs false)), (tail_ev (start_evs true true ++ modbus_evs false)).
  split; [exact (tail_exec _ _ _ E)|]. split; [exact (tail_fair _ _ _ E Q)|]. split; [exists true; reflexivity|].
  intros n Hn. unfold tail_ev. destruct (nth_error _ n) as [e|] eqn:En; [|exact I]. destruct n as [|n]; [lia|].
  change (nth_error (tl (start_evs true true ++ modbus_evs false)) n = Some e) in En. apply nth_error_In in En.
  assert (A : forallb (fun e => match e with ACmd _ _ => false | _ => true end) (tl (start_evs true true ++ modbus_evs false)) = true) by (vm_compute; reflexivity).
  rewrite forallb_forall in A. specialize (A e En). destruct e; try exact I; discriminate A.
Qed.
Example C131_case_up : port_of (grun [] app0 (start_evs true true)) = Some (PListen [127; 0; 0; 1; 17; 17], true, true).
Proof. vm_compute. reflexivity. Qed.

(** * C132 *)
(** Any history, whatever the environment answers: 31 moves for a start, 17 for a stop are enough. *)
Theorem C132_bound g tr n s : goes g app0 tr n s ->
  (n <= 31 * count (fun e => match e with ACmd true _ => true | _ => false end) tr + 17 * count (fun e => match e with ACmd false _ => true | _ => false end) tr)%nat.
Proof. intros G. pose proof (effort_all g _ _ _ _ G) as H. change (effort app0) with 0%nat in H. lia. Qed.
(** Nothing waits for ever on something else: while a message is in flight, some reactor can go on, unless it stops for a
    failure. *)
Theorem C132_progress g tr n s : goes g app0 tr n s -> in_flight s <> [] -> exists e, is_cmd e = false /\ granted s e /\ astep g s e <> ADisabled.
Proof. intros G. apply can_move. exact (typed_goes g _ _ _ _ G typed0). Qed.
(** Every infinite execution, whatever the environment answers, in which no reactor stops working: after the last command,
    whenever something about start-up or shut-down is in flight, later nothing is. *)
Theorem C132_settles g st ev k : wild_execution g st ev -> fair st ev -> (forall n, (k < n)%nat -> match ev n with Some (ACmd _ _) => False | _ => True end) ->
  forall n, exists N, (n <= N)%nat /\ settled (st N).
Proof.
  intros X F L n. destruct (wild_settles g st ev k X F L (effort (st (S k + n)%nat)) (S k + n)%nat) as (N & A & B); [lia|lia|]. exists N. split; [lia|exact B].
Qed.
(** Concretely: the start-up with Modbus takes 21 of them here. *)
Fixpoint moves (g : list Z) (s : app) (es : list aev) : nat :=
  match es with [] => 0 | e :: r => (if life_move s e then 1 else 0) + match astep g s e with ANext s1 => moves g s1 r | _ => 0 end end%nat.
Lemma moves_goes g : forall es s s', arun g s es = Some s' -> goes g s es (moves g s es) s'.
Proof. induction es as [|e es IH]; intros s s' H; cbn [arun] in H; [injection H as <-; constructor|]. destruct (astep g s e) as [| | |s1] eqn:E; try discriminate H. cbn [moves]. rewrite E. econstructor; [exact E|]. now apply IH. Qed.
Example C132_case : exists s, goes [] app0 (start_evs true true ++ modbus_evs true) 21 s.
Proof.
  destruct (arun [] app0 (start_evs true true ++ modbus_evs true)) as [sf|] eqn:E; [|vm_compute in E; discriminate E]. exists sf. pose proof (moves_goes _ _ _ _ E) as H.
  assert (M : moves [] app0 (start_evs true true ++ modbus_evs true) = 21%nat) by (vm_compute; reflexivity). now rewrite M in H.
Qed.

(** * C133 *)
(** A start whose port cannot be opened, then a stop: the process ends when the stop is carried out. *)
Definition broken_stop : list aev := stop_evs ++ puts_of RCtrl 4 ++ [ATakeU true true; APut RUa true].
Theorem C133_refuted : exists n s n' s', goes [] app0 (start_evs true false) n s /\ ua_settled s /\ p_port s = PBroken /\ p_chan s = true /\
  goes [] s broken_stop n' s' /\ forall acc lis, astep [] s' (ATakeU acc lis) = ATerminate.
Proof.
  destruct (arun [] app0 (start_evs true false)) as [s|] eqn:E1; [|vm_compute in E1; discriminate E1]. destruct (arun_goes _ _ _ _ E1) as [n Hn].
  assert (Ev : Some s = arun [] app0 (start_evs true false)) by (symmetry; exact E1). vm_compute in Ev. injection Ev as ->.
  match type of Hn with goes _ _ _ _ ?x => set (sx := x) in * end.
  destruct (arun [] sx broken_stop) as [s'|] eqn:E2; [|vm_compute in E2; discriminate E2]. destruct (arun_goes _ _ _ _ E2) as [n' Hn'].
  exists n, sx, n', s'. split; [exact Hn|]. split; [intros m Hm; vm_compute in Hm; destruct Hm as [<-|[]]; reflexivity|]. do 2 (split; [reflexivity|]). split; [exact Hn'|].
  assert (Ev : Some s' = arun [] sx broken_stop) by (symmetry; exact E2). vm_compute in Ev. injection Ev as ->. intros acc lis. vm_compute. reflexivity.
Qed.
(** In general: once listen() has failed, the port is never opened again, whatever is sent ... *)
Theorem C133_lost g s tr n s' : goes g s tr n s' -> p_port s = PBroken -> p_port s' = PBroken.
Proof. exact (broken_goes g s tr n s'). Qed.
(** ... and the first release, initialisation or granted configuration of the transport ends the process. *)
Theorem C133_ends g s m rest acc lis : p_port s = PBroken -> x_u (p_out s) = [] -> x_u (p_q s) = m :: rest ->
  m = GRelease LTransport \/ m = GInit LTransport \/ (exists a, m = GConfig LTransport a) /\ acc = true -> astep g s (ATakeU acc lis) = ATerminate.
Proof. intros P O Q M. cbn [astep]. unfold with_next, idle. cbn [at_r]. rewrite O, Q. unfold u_handle. destruct M as [->|[->|[[a ->] ->]]]; now rewrite P. Qed.
(** As long as no listen() fails, whatever else fails, the OPC UA reactor carries out every request. *)
Theorem C133_partial g tr n s acc lis : goes g app0 tr n s -> forallb listens tr = true ->
  p_port s <> PBroken /\ astep g s (ATakeU acc lis) <> ATerminate /\ astep g s (ATakeU acc lis) <> AUndefined.
Proof. intros G L. assert (B : p_port s <> PBroken) by (apply (sound_goes g _ _ _ _ G); [discriminate|exact L]). split; [exact B|]. now apply sound_take. Qed.
(** A start for which no acceptor is free is survived, and a stop afterwards carried out. *)
Example C133_case : exists n s, goes [] app0 (start_evs false false ++ stop_evs ++ puts_of RCtrl 4 ++ uas 3) n s /\ forallb listens (start_evs false false ++ stop_evs ++ puts_of RCtrl 4 ++ uas 3) = true /\ gone s.
Proof.
  destruct (arun [] app0 (start_evs false false ++ stop_evs ++ puts_of RCtrl 4 ++ uas 3)) as [s|] eqn:E1; [|vm_compute in E1; discriminate E1]. destruct (arun_goes _ _ _ _ E1) as [n Hn].
  exists n, s. split; [exact Hn|]. split; [reflexivity|].
  assert (Ev : port_of (arun [] app0 (start_evs false false ++ stop_evs ++ puts_of RCtrl 4 ++ uas 3)) = Some (PNone, false, false)) by (vm_compute; reflexivity).
  rewrite E1 in Ev. injection Ev as A B C. exact (conj A (conj B C)).
Qed.

(** * C134 *)
(** A stop that arrives while the controller waits for the Modbus configuration: everything is granted, everything settles,
    and the Modbus component, with its client and its listening server, is still there; and it stays there until the next
    command, whatever else happens. *)
Definition late_stop : list aev := start_evs true true ++ modbus_evs true ++ stop_evs ++ puts_of RCtrl 3 ++ uas 3 ++ [ATakeU true true; ATakeU true true; APut RModbus true; ATakeC true; ATakeC true].
Theorem C134_refuted : exists s b, areach [] s late_stop /\ last_cmd late_stop = Some false /\ settled s /\
  p_modbus s = Some b /\ nth_slot (b_servers b) 0 <> None /\ nth_slot (b_clients b) 0 <> None /\
  forall tr n s', goes [] s tr n s' -> (forall e, In e tr -> is_cmd e = false) -> p_modbus s' <> None.
Proof.
  destruct (grun [] app0 late_stop) as [s|] eqn:E; [|vm_compute in E; discriminate E].
  pose proof (grun_reach [] late_stop app0 [] s (ar_new []) E) as R. cbn [List.app] in R.
  assert (F : (match grun [] app0 late_stop with Some s => Some (in_flight s, k_modbus (p_ctrl s), match p_modbus s with Some b => match nth_slot (b_servers b) 0, nth_slot (b_clients b) 0 with Some _, Some _ => true | _, _ => false end | None => false end) | None => None end) = Some ([], None, true)) by (vm_compute; reflexivity).
  rewrite E in F. injection F as F1 F2 F3. destruct (p_modbus s) as [b|] eqn:Eb; [|discriminate F3]. exists s, b.
  split; [exact R|]. split; [reflexivity|]. assert (S : settled s) by (intros m Hm; rewrite F1 in Hm; destruct Hm). split; [exact S|]. split; [exact Eb|].
  destruct (nth_slot (b_servers b) 0); [|discriminate F3]. destruct (nth_slot (b_clients b) 0); [|discriminate F3]. do 2 (split; [discriminate|]).
  intros tr n s' G C. pose proof (effort_goes _ _ _ _ _ G C) as W. rewrite (effort_zero s S F2) in W. pose proof (quiet_goes _ _ _ _ _ G ltac:(lia)) as M.
  unfold mup in M. rewrite Eb in M. destruct (p_modbus s'); [discriminate|discriminate M].
Qed.
(** In every other history the Modbus component is gone when a stop has settled. *)
Theorem C134_partial g s tr : creach g s tr -> settled s -> last_cmd tr = Some false -> p_modbus s = None.
Proof. exact (creach_gone g s tr). Qed.
(** Exactly, for every history: the component exists, when all is settled, if and only if its creation is the last thing the controller
    asked of it; and when the last command, a stop, has been handled: if and only if the self-test was waiting for its
    configuration and the component's creation had been asked for last before. *)
Theorem C134_exact_partial g s tr : areach g s tr -> settled s -> (p_modbus s <> None <-> asked g app0 tr false = true).
Proof. apply left_exact. Qed.
Theorem C134_stop_partial g s1 tr1 tok rest m tr2 s : areach g s1 tr1 -> x_c (p_q s1) = GStop :: rest -> k_modbus (p_ctrl s1) = Some m -> ~ In GStart (in_flight s1) ->
  (forall e, In e tr2 -> is_cmd e = false) -> areach g s (tr1 ++ ATakeC tok :: tr2) -> settled s ->
  (p_modbus s <> None <-> m_st m = MConfigure /\ asked g app0 tr1 false = true).
Proof.
  intros R1 Eq Em N C R S. rewrite (left_exact g s _ R S). destruct (left_after g s1 tr1 tok rest m R1 Eq Em N tr2 s C R) as (_ & _ & ->).
  destruct (m_st m); split; intros H; try discriminate H; try (destruct H; discriminate); try (destruct H; assumption); auto.
Qed.
(** Concretely: start; everything is set up; the configuration is confirmed; then stop. *)
Definition good_stop : list aev := start_evs true true ++ modbus_evs true ++ [APut RModbus true; ATakeC true; APut RCtrl true] ++ stop_evs ++ puts_of RCtrl 4 ++ [ATakeM (MvAdu (msg_of [])); ATakeM MvRelease; APut RModbus true; ATakeC true] ++
  uas 3 ++ [ATakeU true true; ATakeU true true; ATakeC true].
Example C134_case : exists s, creach [] s good_stop /\ settled s /\ last_cmd good_stop = Some false /\ modbus_of (crun [] app0 (start_evs true true ++ modbus_evs true)) = Some true.
Proof.
  destruct (crun [] app0 good_stop) as [s|] eqn:E; [|vm_compute in E; discriminate E]. exists s.
  split; [exact (crun_reach [] good_stop app0 [] s (cr_new []) E)|]. split; [|split; vm_compute; reflexivity].
  assert (F : flight_of (crun [] app0 good_stop) = Some []) by (vm_compute; reflexivity). rewrite E in F. injection F as F. intros m Hm. rewrite F in Hm. destruct Hm.
Qed.
(** Both outcomes: the stop of [late_stop], in front of which the component was asked for, and that of [good_stop]. *)
Definition before_late : list aev := start_evs true true ++ modbus_evs true ++ [ACmd false true].
Definition after_late : list aev := puts_of RCtrl 3 ++ uas 3 ++ [ATakeU true true; ATakeU true true; APut RModbus true; ATakeC true; ATakeC true].
Example C134_exact_case : late_stop = before_late ++ ATakeC true :: after_late /\ asked [] app0 before_late false = true /\ asked [] app0 late_stop false = true /\ asked [] app0 good_stop false = false /\
  exists s1 m, areach [] s1 before_late /\ x_c (p_q s1) = [GStop] /\ k_modbus (p_ctrl s1) = Some m /\ m_st m = MConfigure /\ ~ In GStart (in_flight s1) /\ forall e, In e after_late -> is_cmd e = false.
Proof.
  split; [reflexivity|]. split; [vm_compute; reflexivity|]. split; [vm_compute; reflexivity|]. split; [vm_compute; reflexivity|].
  destruct (grun [] app0 before_late) as [s|] eqn:E; [|vm_compute in E; discriminate E].
  assert (F : (match grun [] app0 before_late with Some s => Some (x_c (p_q s), match k_modbus (p_ctrl s) with Some m => match m_st m with MConfigure => true | _ => false end | None => false end,
                 existsb (fun m => match m with GStart => true | _ => false end) (in_flight s)) | None => None end) = Some ([GStop], true, false)) by (vm_compute; reflexivity).
  rewrite E in F. injection F as F1 F2 F3. destruct (k_modbus (p_ctrl s)) as [m|] eqn:Em; [|discriminate F2]. exists s, m. split; [exact (grun_reach [] before_late app0 [] s (ar_new []) E)|].
  split; [exact F1|]. split; [exact Em|]. split; [destruct (m_st m); try discriminate F2; reflexivity|]. split.
  - intros H. assert (X : existsb (fun m => match m with GStart => true | _ => false end) (in_flight s) = true) by (apply existsb_exists; exists GStart; auto). rewrite F3 in X. discriminate X.
  - intros e H. assert (X : forallb (fun e => negb (is_cmd e)) after_late = true) by (vm_compute; reflexivity). rewrite forallb_forall in X. specialize (X e H). now apply negb_true_iff.
Qed.

Print Assumptions C131_routes.
Print Assumptions C131_settled.
Print Assumptions C131_eventually.
Print Assumptions C132_bound.
Print Assumptions C132_progress.
Print Assumptions C132_settles.
Print Assumptions C133_refuted.
Print Assumptions C133_lost.
Print Assumptions C133_ends.
Print Assumptions C133_partial.
Print Assumptions C134_refuted.
Print Assumptions C134_partial.
Print Assumptions C134_exact_partial.
Print Assumptions C134_stop_partial.
