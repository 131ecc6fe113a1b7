(** A bound on the moves of a start-up or shut-down, the Modbus component included. *)
From Verif Require Import Base QueueModel MsgStorageModel ModbusCodecModel ModbusClientModel ModbusServerModel ModbusCompModel ControllerModel RoutingModel.
From Verif Require Import AppModel AppSpec AppProofs.
Local Open Scope Z_scope.

Definition life (m : amsg) : bool := about_ua m || about_modbus m.
(** Moves still to be made because of a message in a queue; one more in an outbox. *)
Definition lq (m : amsg) : nat :=
  match m with
  | GReleased _ => 1 | GInited _ => 3 | GConfig _ _ => 1 | GInit _ => 5 | GRelease _ => 3
  | GStart => 31 | GStop => 17
  | GFromModbus e => match e with TvReleaseRsp => 1 | TvConfigRsp => 5 | TvInitRsp => 9 | TvStart => 13 | TvStop => 5 | _ => 0 end
  | GModbusRelease => 3 | GModbusConfig _ => 7 | GModbusInit _ _ => 11
  | _ => 0
  end%nat.
Definition lo (m : amsg) : nat := if life m then S (lq m) else 0%nat.
(** ... and because the Modbus test may yet fail and release the component. *)
Definition pot (c : ctrl) : nat := match k_modbus c with Some m => match m_st m with MRun | MSetup => 4 | _ => 0 end | None => 0 end%nat.
Definition load_q (b : boxes) : nat := (sumw lq (x_m b) + sumw lq (x_u b) + sumw lq (x_c b))%nat.
Definition load_o (b : boxes) : nat := (sumw lo (x_m b) + sumw lo (x_u b) + sumw lo (x_c b))%nat.
Definition effort (s : app) : nat := (load_q (p_q s) + load_o (p_out s) + pot (p_ctrl s))%nat.
Lemma lq_zero m : life m = false -> lq m = 0%nat.
Proof. unfold life. destruct m as [| |[]| | | | | | | | | |]; cbn; intros; try discriminate; reflexivity. Qed.
Lemma load_q_at b r l : (load_q (set_r b r l) + sumw lq (at_r b r) = load_q b + sumw lq l)%nat.
Proof. apply sum_at. Qed.
Lemma load_o_at b r l : (load_o (set_r b r l) + sumw lo (at_r b r) = load_o b + sumw lo l)%nat.
Proof. apply sum_at. Qed.
Lemma load_push q m kept : (load_q (push_msg q m kept) <= load_q q + lq m)%nat.
Proof.
  unfold push_msg. destruct kept; [|lia]. pose proof (load_q_at q (home m) (at_r q (home m) ++ [m])) as X. rewrite sumw_app, (sumw_cons _ m []) in X. change (sumw lq []) with 0%nat in X. lia.
Qed.

Definition potm (m : mtest) : nat := match m_st m with MRun | MSetup => 4 | _ => 0 end%nat.
Ltac weigh W := repeat match type of W with context [sumw lo ?l] => let n := eval cbv in (sumw lo l) in change (sumw lo l) with n in W end.
Lemma transit_load m st m' o : m_transit m st = (m', o) ->
  (sumw lo (flat_map k_sends o) + potm m' <= potm m + match st with MInit => 4 - potm m | MConfigure => 8 - potm m | MRun | MSetup => 4 - potm m end)%nat.
Proof.
  unfold m_transit. destruct m as [s t c cs]. destruct s, st; cbn; intros H; injection H as <- <-; cbn; lia.
Qed.
Lemma m_step_load m e m' o : m_step m e = Some (m', o) -> (sumw lo (flat_map k_sends o) + potm m' + (if life (GFromModbus e) then 1 else 0) <= lq (GFromModbus e) + potm m)%nat.
Proof.
  unfold m_step. intros H.
  assert (TR : forall c st, Some (m_transit c st) = Some (m', o) -> potm c = potm m ->
    (sumw lo (flat_map k_sends o) + potm m' <= potm m + match st with MInit => 4 - potm m | MConfigure => 8 - potm m | MRun | MSetup => 4 - potm m end)%nat).
  { intros c st E P. injection E as E. pose proof (transit_load c st m' o E) as T. rewrite P in T. exact T. }
  assert (PM : potm m = match m_st m with MRun | MSetup => 4 | _ => 0 end%nat) by reflexivity.
  destruct e, (m_st m) eqn:Es; cbn iota in PM; try (injection H as <- <-; unfold potm; cbn; rewrite ?Es; lia); try (apply TR in H; [|reflexivity]; unfold life; cbn [lq about_ua about_modbus orb]; lia).
  - destruct (m_process m r) as [[c1 res]|] eqn:Ep; [|discriminate H].
    assert (P1 : potm c1 = potm m). { unfold m_process in Ep. destruct (nth_error _ _); [|discriminate Ep]. destruct (m_check _ _) as [[]|]; [| |discriminate Ep]; injection Ep as <- _; reflexivity. }
    unfold life. cbn [lq about_ua about_modbus orb]. destruct res; [injection H as <- <-; rewrite P1; cbn [flat_map]; change (sumw lo []) with 0%nat; lia| |]; apply TR in H; auto; lia.
  - unfold m_serve in H. cbn [life lq about_ua about_modbus orb]. destruct (nth_error _ _); [|discriminate H].
    repeat match type of H with context [if ?b then _ else _] => destruct b end;
      repeat match type of H with context [match ?b with Some _ => _ | None => _ end] => destruct b end; try discriminate H;
      injection H as <- <-; unfold potm, life; cbn [m_st n_cases flat_map k_sends List.app about_ua about_modbus orb]; rewrite Es; cbn; lia.
Qed.
Lemma k_step_load g c e c' os : k_step g c e = Some (c', os) ->
  (sumw lo (flat_map k_sends os) + pot c' <= pot c + match e with KStart _ => 30 | KStop => 16 | KInited _ => 2 | KOtherUa => 0 | KModbus e => lq (GFromModbus e) - (if life (GFromModbus e) then 1 else 0) end)%nat.
Proof.
  unfold k_step, pot. intros H. destruct e as [tok| |e|l|].
  - destruct tok; cbn [negb] in H; [|injection H as <- <-; cbn; lia]. cbn [m_step m_new m_st] in H. injection H as <- <-. cbn [k_modbus m_st]. destruct (k_modbus c) as [m|]; [destruct (m_st m)|]; cbn; lia.
  - destruct (k_modbus c) as [m|]; [|discriminate H]. destruct (m_step m TvStop) as [[m' o]|] eqn:E; [|discriminate H]. destruct (k_ua c); [|discriminate H]. injection H as <- <-.
    apply m_step_load in E. rewrite !flat_map_app, !sumw_app. cbn [ctrl0 k_modbus] in *. unfold potm in E. change (lq (GFromModbus TvStop)) with 5%nat in E. change (life (GFromModbus TvStop)) with true in E.
    change (sumw lo (flat_map k_sends (KoTimerFree :: ua_stop))) with 12%nat. cbn iota in E |- *. lia.
  - destruct (k_modbus c) as [m|] eqn:Em.
    + destruct (m_step m e) as [[m' o]|] eqn:E; [|discriminate H]. injection H as <- <-. apply m_step_load in E. cbn [k_modbus]. unfold potm in E. destruct (life (GFromModbus e)); lia.
    + injection H as <- <-. rewrite Em. cbn [flat_map]. change (sumw lo []) with 0%nat. lia.
  - injection H as <- <-. destruct (k_ua c); destruct l; cbn; lia.
  - injection H as <- <-. cbn. lia.
Qed.

(** The Modbus component answers with messages about itself only when asked for. *)
Definition quiet (o : mout) : Prop := match o with MInitRsp | MReleaseRsp | MConfigRsp _ => False | _ => True end.
Lemma quiet_load os : Forall quiet os -> sumw lo (flat_map m_sends os) = 0%nat.
Proof.
  intros H. apply sumw_zero. intros m Hm. apply in_flat_map in Hm as (o & Ho & Hm). rewrite Forall_forall in H. specialize (H o Ho).
  destruct o; try destruct H; cbn [m_sends] in Hm; try (destruct Hm; fail).
  - destruct Hm as [<-|[]]. reflexivity.
  - apply in_flat_map in Hm as (x & _ & Hm). destruct x; cbn in Hm; intuition (subst; reflexivity).
  - apply in_flat_map in Hm as (x & _ & Hm). destruct x; cbn in Hm; intuition (subst; reflexivity).
Qed.
Lemma config_item_quiet b x b' os t : config_item b x = Some (b', os, t) -> Forall quiet os.
Proof.
  unfold config_item. intros H.
  destruct (g_mode x =? 0).
  - destruct (_ <=? _); [injection H as <- <- <-; constructor|]. destruct (is_bad _ _); [injection H as <- <- <-; repeat constructor|].
    destruct (srv_new _ _ _); [|discriminate H]. destruct (g_pools x && g_net x); injection H as <- <- <-; repeat constructor.
  - destruct (g_mode x =? 1); [|injection H as <- <- <-; constructor]. destruct (_ <=? _); [injection H as <- <- <-; constructor|]. destruct (negb (g_pools x)); [injection H as <- <- <-; repeat constructor|].
    destruct (match as_new (g_store x) with Some _ => _ | None => _ end) as [[c o]|]; [|discriminate H]. injection H as <- <- <-. destruct (threw o); repeat constructor.
Qed.
Lemma config_loop_quiet l : forall b b' os t, config_loop b l = Some (b', os, t) -> Forall quiet os.
Proof.
  induction l as [|x l IH]; intros b b' os t H; cbn [config_loop] in H; [injection H as <- <- <-; constructor|].
  destruct (config_item b x) as [[[b1 o1] []]|] eqn:E; [injection H as <- <- <-; eapply config_item_quiet; exact E| |discriminate H].
  destruct (config_loop b1 l) as [[[b2 o2] t2]|] eqn:E2; [|discriminate H]. injection H as <- <- <-. apply Forall_app. split; [eapply config_item_quiet; exact E|eapply IH; exact E2].
Qed.
Lemma adu_loop_quiet l : forall b b' os, adu_loop b l = Some (b', os) -> Forall quiet os.
Proof.
  induction l as [|x l IH]; intros b b' os H; cbn [adu_loop] in H; [injection H as <- <-; constructor|].
  destruct (nth_slot _ _) as [k|]; [destruct (ac_step _ _) as [[k1 o]|]; [|discriminate H]|];
    (match type of H with context [adu_loop ?q l] => destruct (adu_loop q l) as [[b2 o2]|] eqn:E end; [|discriminate H]); injection H as <- <-; (constructor; [exact I|eapply IH; exact E]).
Qed.
Lemma mb_step_load c e c' os : mb_step c e = Some (c', os) ->
  (sumw lo (flat_map m_sends os) <= match e with MvInit _ _ => 10 | MvRelease => 2 | MvConfig _ => 6 | _ => 0 end)%nat.
Proof.
  assert (QE : forall os n, Forall quiet os -> (sumw lo (flat_map m_sends os) <= n)%nat) by (intros; rewrite quiet_load; [lia|assumption]).
  intros H. unfold mb_step in H. destruct e as [ns nc| |l|m|sv p ok|id x|id x].
  - destruct (doomed c); injection H as <- <-; cbn; lia.
  - destruct (doomed c); injection H as <- <-; cbn; lia.
  - destruct c as [b|]; [|injection H as <- <-; cbn; lia]. unfold config in H. destruct (config_loop b l) as [[[b1 o1] t]|] eqn:E; [|discriminate H].
    apply config_loop_quiet in E. destruct t; injection H as <- <-; [now apply QE|]. rewrite flat_map_app, sumw_app, quiet_load by exact E. cbn. lia.
  - destruct c as [b|]; [|injection H as <- <-; cbn; lia]. destruct (read_batch m); [|discriminate H]. destruct (adu_loop b l) as [[b1 o1]|] eqn:E; [|discriminate H]. injection H as <- <-.
    apply QE. eapply adu_loop_quiet; exact E.
  - destruct c as [b|]; [|injection H as <- <-; cbn; lia]. unfold srv_event in H. destruct (nth_slot _ _); [|injection H as <- <-; cbn; lia].
    destruct (srv_step _ _) as [[v o]|]; [|discriminate H]. injection H as <- <-. apply QE. repeat constructor.
  - destruct c as [b|]; [|injection H as <- <-; cbn; lia]. unfold cli_event in H. destruct (nth_slot _ _); [|injection H as <- <-; cbn; lia].
    destruct (ac_step _ _) as [[v o]|]; [|discriminate H]. injection H as <- <-. apply QE. repeat constructor.
  - destruct c as [b|]; [|injection H as <- <-; cbn; lia]. unfold srv_event in H. destruct (nth_slot _ _); [|injection H as <- <-; cbn; lia].
    destruct (srv_step _ _) as [[v o]|]; [|discriminate H]. injection H as <- <-. apply QE. repeat constructor.
Qed.

Lemma effort_step g s e s' : astep g s e = ANext s' -> is_cmd e = false -> (effort s' + (if life_move s e then 1 else 0) <= effort s)%nat.
Proof.
  intros H Hn.
  assert (KH : forall k q, idle s RCtrl = true -> k_handle g s k q = ANext s' ->
     (effort s' <= load_q q + load_o (p_out s) + pot (p_ctrl s) + match k with KStart _ => 30 | KStop => 16 | KInited _ => 2 | KOtherUa => 0 | KModbus e => lq (GFromModbus e) - (if life (GFromModbus e) then 1 else 0) end)%nat).
  { intros k q Hi K. unfold k_handle in K. destruct (k_step g (p_ctrl s) k) as [[c os]|] eqn:E; [|discriminate K]. injection K as <-. unfold effort. cbn [p_q p_out p_ctrl].
    pose proof (load_o_at (p_out s) RCtrl (flat_map k_sends os)) as W. unfold idle in Hi. destruct (at_r (p_out s) RCtrl); [|discriminate Hi].
    change (sumw lo []) with 0%nat in W. apply k_step_load in E. cbn [set_r] in W |- *. lia. }
  assert (MH : forall k q, idle s RModbus = true -> m_handle s k q = ANext s' ->
     (effort s' <= load_q q + load_o (p_out s) + pot (p_ctrl s) + match k with MvInit _ _ => 10 | MvRelease => 2 | MvConfig _ => 6 | _ => 0 end)%nat).
  { intros k q Hi K. unfold m_handle in K. destruct (mb_step (p_modbus s) k) as [[b os]|] eqn:E; [|discriminate K]. destruct (m_ends os); [discriminate K|]. injection K as <-.
    unfold effort. cbn [p_q p_out p_ctrl]. pose proof (load_o_at (p_out s) RModbus (flat_map m_sends os)) as W. unfold idle in Hi.
    destruct (at_r (p_out s) RModbus); [|discriminate Hi]. change (sumw lo []) with 0%nat in W. apply mb_step_load in E. cbn [set_r] in W |- *. lia. }
  destruct e as [st kept|r kept|tok|acc lis|e| |e]; cbn [astep life_move] in *; try discriminate Hn.
  - destruct (at_r (p_out s) r) as [|m rest] eqn:Er; [discriminate H|]. injection H as <-. unfold effort. cbn [p_q p_out p_ctrl].
    pose proof (load_push (p_q s) m kept). pose proof (load_o_at (p_out s) r rest) as W. rewrite Er, sumw_cons in W. cbn [head_life]. fold (life m). unfold lo at 1 in W.
    destruct (life m) eqn:Em; [lia|]. rewrite (lq_zero m Em) in *. lia.
  - unfold with_next in H. destruct (idle s RCtrl) eqn:Ei; [|discriminate H]. cbn [at_r] in H. destruct (x_c (p_q s)) as [|m rest] eqn:Eq; [discriminate H|].
    pose proof (load_q_at (p_q s) RCtrl rest) as W. cbn [at_r] in W. rewrite Eq, sumw_cons in W. destruct (k_event tok m) as [k|] eqn:Ek; [|discriminate H].
    pose proof (KH k _ eq_refl H) as K1. unfold effort in *. cbn [head_life]. fold (life m).
    destruct m as [| |e|l|l| | | | | | | |]; cbn [k_event] in Ek; try discriminate Ek; injection Ek as <-; try (unfold life; cbn [about_ua about_modbus orb lq] in *; lia).
    destruct (life (GFromModbus e)) eqn:El; [|lia]. enough (1 <= lq (GFromModbus e))%nat by lia. destruct e; try discriminate El; cbn; lia.
  - unfold with_next in H. destruct (idle s RUa) eqn:Ei; [|discriminate H]. cbn [at_r] in H. destruct (x_u (p_q s)) as [|m rest] eqn:Eq; [discriminate H|].
    pose proof (load_q_at (p_q s) RUa rest) as W. cbn [at_r] in W. rewrite Eq, sumw_cons in W. unfold idle in Ei. destruct (at_r (p_out s) RUa) eqn:Eo; [|discriminate Ei].
    assert (V : forall l, (load_o (mkBox (x_m (p_out s)) l (x_c (p_out s))) = load_o (p_out s) + sumw lo l)%nat)
      by (intros l; pose proof (load_o_at (p_out s) RUa l) as V; cbn [set_r] in V; rewrite Eo in V; change (sumw lo []) with 0%nat in V; lia).
    unfold u_handle, u_next in H. cbn [head_life].
    destruct m as [| |[]|[]|[]| | | | | |[]|[] a|[]]; try destruct (p_port s); try destruct acc, lis; cbn [negb] in H; try discriminate H; injection H as <-; unfold effort; cbn [p_q p_out p_ctrl about_ua about_modbus orb lq set_r] in *;
      rewrite V; match goal with |- context [sumw lo ?l] => let n := eval cbv in (sumw lo l) in change (sumw lo l) with n end; lia.
  - unfold with_next in H. destruct (idle s RModbus) eqn:Ei; [|discriminate H]. cbn [at_r] in H. destruct (x_m (p_q s)) as [|m rest] eqn:Eq; [discriminate H|].
    pose proof (load_q_at (p_q s) RModbus rest) as W. cbn [at_r] in W. rewrite Eq, sumw_cons in W. destruct (m_event m e) eqn:Em; [|discriminate H].
    pose proof (MH e _ eq_refl H) as K1. unfold effort in *. cbn [head_life]. destruct m, e; try discriminate Em; cbn [about_ua about_modbus orb lq] in *; lia.
  - destruct (idle s RCtrl) eqn:Ei; [|discriminate H]. cbn [andb] in H. destruct (k_enabled _ _); [|discriminate H]. pose proof (KH _ _ eq_refl H) as K1. cbn [lq] in K1. unfold effort in *. lia.
  - destruct (idle s RModbus) eqn:Ei; [|discriminate H]. destruct e; try discriminate H; pose proof (MH _ _ eq_refl H) as K1; unfold effort in *; lia.
Qed.
Lemma effort_goes g s tr n s' : goes g s tr n s' -> (forall e, In e tr -> is_cmd e = false) -> (n + effort s' <= effort s)%nat.
Proof.
  induction 1 as [s|s e s1 tr n s2 H _ IH]; intros Hc; [lia|]. pose proof (effort_step g s e s1 H (Hc e (or_introl eq_refl))). specialize (IH (fun x hx => Hc x (or_intror hx))). lia.
Qed.
