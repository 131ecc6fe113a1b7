(** Proofs about the started and stopped application. *)
From Verif Require Import Base QueueModel MsgStorageModel ModbusCodecModel ModbusClientModel ModbusServerModel ModbusCompModel ControllerModel RoutingModel.
From Verif Require Import AppModel AppSpec.
Local Open Scope Z_scope.

(** [home] agrees with the deployment. *)
Lemma home_routing m : 
  m_send (fst (deployed_as (get_depl depCpu3))) (comp_id (msg_dst (kind_of m))) = [match home m with RModbus => 1%nat | RUa => 2%nat | RCtrl => 3%nat end].
Proof. destruct m as [| |[]|[]|[]| | | | | |[]|[] ?|[]]; vm_compute; reflexivity. Qed.
Lemma handled_routing m :
  handled_by depCpu3 (kind_of m) =
  match m with
  | GInited LChannel | GInited LService | GReleased LChannel | GReleased LService => None
  | GInit l | GConfig l _ | GRelease l => Some (match l with LChannel => compUaSecChannel | LTransport => compUaTransport | LService => compUaService end)
  | _ => Some (match home m with RModbus => compModbus | RUa => compUaService | RCtrl => compController end)
  end.
Proof. destruct m as [| |[]|[]|[]| | | | | |[]|[] ?|[]]; vm_compute; reflexivity. Qed.

(** * What the OPC UA layers will have come to when the messages on their way are handled *)
Definition stream (s : app) : list amsg := x_u (p_q s) ++ x_c (p_out s).
Definition layer_eqb (a b : layer) : bool := match a, b with LChannel, LChannel | LTransport, LTransport | LService, LService => true | _, _ => false end.
Definition upf (l : layer) (b : bool) (m : amsg) : bool :=
  match m with GInit l' => if layer_eqb l l' then true else b | GRelease l' => if layer_eqb l l' then false else b | _ => b end.
Definition portf (p : tport) (m : amsg) : tport :=
  match m with
  | GInit LTransport => PIdle
  | GRelease LTransport => PNone
  | GConfig LTransport a => match p with PNone => PNone | _ => PListen a end
  | _ => p
  end.
Definition cmdf (b : bool) (m : amsg) : bool := match m with GStart => true | GStop => false | _ => b end.

Definition ua_inert (m : amsg) : Prop := match m with GInit _ | GConfig _ _ | GRelease _ => False | _ => True end.
Definition cmd_inert (m : amsg) : Prop := match m with GStart | GStop => False | _ => True end.
Record UaInv (s : app) (cmd : bool) : Prop := {
  ui_chan : fold_left (upf LChannel) (stream s) (p_chan s) = k_ua (p_ctrl s);
  ui_svc : fold_left (upf LService) (stream s) (p_svc s) = k_ua (p_ctrl s);
  ui_gone : k_ua (p_ctrl s) = false -> fold_left portf (stream s) (p_port s) = PNone;
  ui_up : k_ua (p_ctrl s) = true -> fold_left portf (stream s) (p_port s) = PListen uaAddr \/
     fold_left portf (stream s) (p_port s) = PIdle /\ (In (GInit LTransport) (stream s) \/ In (GInited LTransport) (x_u (p_out s) ++ x_c (p_q s)));
  ui_sound : p_port s <> PBroken;
  ui_cmd : fold_left cmdf (x_c (p_q s)) (k_ua (p_ctrl s)) = cmd;
  ui_outu : forall m, In m (x_u (p_out s)) -> ua_inert m /\ cmd_inert m;
  ui_outm : forall m, In m (x_m (p_out s)) -> ua_inert m /\ cmd_inert m;
  ui_outc : forall m, In m (x_c (p_out s)) -> cmd_inert m /\ home m <> RCtrl;
  ui_ctrl : match k_modbus (p_ctrl s) with Some _ => k_ua (p_ctrl s) = true | None => k_ua (p_ctrl s) = false end
}.

Lemma upf_inert l m b : ua_inert m -> upf l b m = b.
Proof. destruct m; cbn; tauto. Qed.
Lemma portf_inert m p : ua_inert m -> portf p m = p.
Proof. destruct m; cbn; tauto. Qed.
Lemma cmdf_inert m b : cmd_inert m -> cmdf b m = b.
Proof. destruct m; cbn; tauto. Qed.
Lemma fold_inert l ms b : (forall m, In m ms -> ua_inert m) -> fold_left (upf l) ms b = b.
Proof. revert b; induction ms as [|m ms IH]; intros b H; [reflexivity|]. cbn [fold_left]. rewrite upf_inert by (apply H; now left). apply IH. intros; apply H; now right. Qed.

(** What the controller sends. *)
Lemma k_ua_step g c e c' os : match k_modbus c with Some _ => k_ua c = true | None => k_ua c = false end -> k_step g c e = Some (c', os) -> match e with KStart false => False | _ => True end ->
  k_ua c' = (match e with KStart _ => true | KStop => false | _ => k_ua c end) /\
  match k_modbus c' with Some _ => k_ua c' = true | None => k_ua c' = false end /\
  exists pre, flat_map k_sends os = pre ++
    (match e with
     | KStart _ => [GInit LChannel; GInit LTransport; GInit LService]
     | KStop => [GRelease LChannel; GRelease LTransport; GRelease LService]
     | KInited l => if k_ua c then [GConfig l (match l with LTransport => uaAddr | _ => [] end)] else []
     | _ => [] end) /\
    forall m, In m pre -> ua_inert m /\ cmd_inert m /\ home m = RModbus.
Proof.
  assert (TR : forall m st o, flat_map k_sends (snd (m_transit m st)) = o -> forall x, In x o -> ua_inert x /\ cmd_inert x /\ home x = RModbus).
  { intros m st o <- x. unfold m_transit. destruct (mst_eqb (m_st m) st); [intros []|].
    unfold m_exit, m_enter. destruct (m_st m), st; cbn; intuition (subst; cbn; auto). }
  assert (MS : forall m e m' o, m_step m e = Some (m', o) -> forall x, In x (flat_map k_sends o) -> ua_inert x /\ cmd_inert x /\ home x = RModbus).
  { intros m x m' o H y Hy. unfold m_step in H.
    assert (T1 : forall st, Some (m_transit m st) = Some (m', o) -> ua_inert y /\ cmd_inert y /\ home y = RModbus).
    { intros st E. injection E as E. eapply (TR m st); [reflexivity|]. rewrite E. exact Hy. }
    destruct x, (m_st m) eqn:Es; try (injection H as <- <-; cbn in Hy; intuition (subst; cbn; auto); fail); try (eapply T1; eassumption).
    - destruct (m_process m r) as [[c1 []]|]; [injection H as <- <-; destruct Hy| | |discriminate H];
        injection H as H; (eapply (TR c1); [reflexivity|]; rewrite H; exact Hy).
    - unfold m_serve in H. destruct (nth_error _ _); [|discriminate H].
      repeat match type of H with context [if ?b then _ else _] => destruct b end;
        repeat match type of H with context [match ?b with Some _ => _ | None => _ end] => destruct b end; try discriminate H;
        injection H as <- <-; cbn in Hy; intuition (subst; cbn; auto).
    - injection H as H. eapply (TR (n_timer m None)); [reflexivity|]. rewrite H. exact Hy. }
  intros Hc H He. unfold k_step in H. destruct e as [tok| |e|l|].
  - destruct tok; [|destruct He]. cbn [negb] in H. cbn [m_step m_new m_st] in H. injection H as <- <-. cbn [k_ua k_modbus]. split; [reflexivity|]. split; [reflexivity|].
    exists [GModbusInit 1 1]. split; [destruct (k_modbus c); reflexivity|]. cbn. intuition (subst; cbn; auto).
  - destruct (k_modbus c) as [m|]; [|discriminate H]. destruct (m_step m TvStop) as [[m' o]|] eqn:E; [|discriminate H]. rewrite Hc in H. injection H as <- <-.
    split; [reflexivity|]. split; [reflexivity|]. exists (flat_map k_sends o). split; [now rewrite !flat_map_app|]. intros x. eapply MS; eassumption.
  - destruct (k_modbus c) as [m|] eqn:Em.
    + destruct (m_step m e) as [[m' o]|] eqn:E; [|discriminate H]. injection H as <- <-. cbn [k_ua k_modbus]. split; [reflexivity|]. split; [exact Hc|].
      exists (flat_map k_sends o). split; [now rewrite app_nil_r|]. intros x. eapply MS; eassumption.
    + injection H as <- <-. rewrite Em. split; [reflexivity|]. split; [exact Hc|]. exists []. split; [reflexivity|]. intros x [].
  - injection H as <- <-. split; [reflexivity|]. split; [exact Hc|]. exists []. split; [destruct (k_ua c); reflexivity|]. intros x [].
  - injection H as <- <-. split; [reflexivity|]. split; [exact Hc|]. exists []. split; [reflexivity|]. intros x [].
Qed.

Lemma m_sends_inert o m : In m (m_sends o) -> exists e, m = GFromModbus e.
Proof.
  destruct o; cbn; try (intros []; fail); try (intros [<-|[]]; eauto; fail).
  - intros H. apply in_flat_map in H as (x & _ & H). destruct x; cbn in H; intuition (subst; eauto).
  - intros H. apply in_flat_map in H as (x & _ & H). destruct x; cbn in H; intuition (subst; eauto).
Qed.

(** A message handed over. *)
Lemma in_set_r b r l m r' : In m (at_r (set_r b r l) r') <-> if match r, r' with RModbus, RModbus | RUa, RUa | RCtrl, RCtrl => true | _, _ => false end then In m l else In m (at_r b r').
Proof. destruct r, r'; reflexivity. Qed.

Lemma portf_app ms m p : fold_left portf (ms ++ [m]) p = portf (fold_left portf ms p) m.
Proof. now rewrite fold_left_app. Qed.

(** The controller handles a message (or its timer): [ms] is what is left in its queue. *)
Lemma inv_k g s s' b e q k : UaInv s b -> idle s RCtrl = true ->
  (x_c (p_q s) = k ++ x_c q) -> x_u q = x_u (p_q s) -> x_m q = x_m (p_q s) ->
  (match e with KStart _ => k = [GStart] | KStop => k = [GStop] | KInited l => k = [GInited l] | _ => Forall (fun m => cmd_inert m /\ m <> GInited LTransport) k end) ->
  match e with KStart false => False | _ => True end ->
  k_handle g s e q = ANext s' -> UaInv s' b.
Proof.
  intros [A1 A2 A3 A4 A5 A6 A7 A8 A9 A10] Hi Hq Hu Hm Hk He H. unfold k_handle in H.
  destruct (k_step g (p_ctrl s) e) as [[c os]|] eqn:E; [|discriminate H]. injection H as <-.
  destruct (k_ua_step g _ e c os A10 E He) as (B1 & B2 & pre & B3 & B4).
  assert (O : x_c (p_out s) = []) by (unfold idle in Hi; cbn [at_r] in Hi; destruct (x_c (p_out s)); congruence).
  unfold stream in *. rewrite O, app_nil_r in *.
  assert (PI : forall l x, fold_left (upf l) pre x = x) by (intros; apply fold_inert; intros; now apply B4).
  assert (PP : forall ms x, (forall m, In m ms -> ua_inert m) -> fold_left portf ms x = x).
  { induction ms as [|m ms IH]; intros x Hms; [reflexivity|]. cbn [fold_left]. rewrite portf_inert by (apply Hms; now left). apply IH. intros; apply Hms; now right. }
  assert (PQ : forall x, fold_left portf pre x = x) by (intros; apply PP; intros; now apply B4).
  set (ext := match e with
     | KStart _ => [GInit LChannel; GInit LTransport; GInit LService]
     | KStop => [GRelease LChannel; GRelease LTransport; GRelease LService]
     | KInited l => if k_ua (p_ctrl s) then [GConfig l (match l with LTransport => uaAddr | _ => [] end)] else []
     | _ => [] end) in *.
  constructor; unfold stream; cbn [p_ctrl p_modbus p_port p_chan p_svc p_q p_out set_r x_m x_u x_c].
  - rewrite Hu, B3, !fold_left_app, A1, PI, B1. unfold ext. destruct e as [| | |[]|]; cbn; try reflexivity; destruct (k_ua (p_ctrl s)); reflexivity.
  - rewrite Hu, B3, !fold_left_app, A2, PI, B1. unfold ext. destruct e as [| | |[]|]; cbn; try reflexivity; destruct (k_ua (p_ctrl s)); reflexivity.
  - rewrite Hu, B3, !fold_left_app, PQ. intros F. rewrite B1 in F. unfold ext. destruct e as [| | |l|]; try discriminate F; cbn [fold_left portf]; try (now apply A3); try reflexivity.
    rewrite F. cbn [fold_left]. now apply A3.
  - rewrite Hu, B3, !fold_left_app, PQ. intros F. rewrite B1 in F. unfold ext. destruct e as [| |e|l|]; try discriminate F.
    + right. split; [reflexivity|]. left. apply in_or_app. right. apply in_or_app. right. right. now left.
    + destruct (A4 F) as [X|[X Y]]; [left; exact X|right]. split; [exact X|]. rewrite app_nil_r in *. destruct Y as [Y|Y]; [left; apply in_or_app; now left|right].
      apply in_app_or in Y as [Y|Y]; apply in_or_app; [now left|right]. rewrite Hq in Y. apply in_app_or in Y as [Y|Y]; [|exact Y].
      rewrite Forall_forall in Hk. destruct (Hk _ Y) as [_ Z]. now destruct Z.
    + rewrite F. destruct l; cbn [fold_left portf].
      * destruct (A4 F) as [X|[X Y]]; [left; exact X|right]. split; [exact X|]. destruct Y as [Y|Y]; [left; apply in_or_app; now left|right].
        apply in_app_or in Y as [Y|Y]; apply in_or_app; [now left|right]. rewrite Hq, Hk in Y. destruct Y as [Y|Y]; [discriminate Y|exact Y].
      * left. destruct (A4 F) as [X|[X _]]; rewrite X; reflexivity.
      * destruct (A4 F) as [X|[X Y]]; [left; exact X|right]. split; [exact X|]. destruct Y as [Y|Y]; [left; apply in_or_app; now left|right].
        apply in_app_or in Y as [Y|Y]; apply in_or_app; [now left|right]. rewrite Hq, Hk in Y. destruct Y as [Y|Y]; [discriminate Y|exact Y].
    + destruct (A4 F) as [X|[X Y]]; [left; exact X|right]. split; [exact X|]. rewrite app_nil_r in *. destruct Y as [Y|Y]; [left; apply in_or_app; now left|right].
      apply in_app_or in Y as [Y|Y]; apply in_or_app; [now left|right]. rewrite Hq in Y. apply in_app_or in Y as [Y|Y]; [|exact Y].
      rewrite Forall_forall in Hk. destruct (Hk _ Y) as [_ Z]. now destruct Z.
  - exact A5.
  - rewrite <- A6, Hq, fold_left_app. f_equal. rewrite B1.
    destruct e; try (rewrite Hk; reflexivity).
    + clear - Hk. induction Hk as [|m k [Hm _] _ IH]; [reflexivity|]. cbn [fold_left]. rewrite cmdf_inert by exact Hm. exact IH.
    + clear - Hk. induction Hk as [|m k [Hm _] _ IH]; [reflexivity|]. cbn [fold_left]. rewrite cmdf_inert by exact Hm. exact IH.
  - exact A7.
  - exact A8.
  - intros m Hin. rewrite B3 in Hin. apply in_app_or in Hin as [Hin|Hin]; [destruct (B4 _ Hin) as (_ & X & ->); split; [exact X|discriminate]|].
    unfold ext in Hin. destruct e as [| | |[]|]; try destruct (k_ua (p_ctrl s)); cbn in Hin; intuition (subst; cbn; auto; discriminate).
  - exact B2.
Qed.

Lemma inv_put s r m rest b kept (Hk : kept = true \/ about_ua m = false /\ about_modbus m = false) : UaInv s b -> at_r (p_out s) r = m :: rest ->
  UaInv (mkApp (p_ctrl s) (p_modbus s) (p_port s) (p_chan s) (p_svc s) (push_msg (p_q s) m kept) (set_r (p_out s) r rest)) b.
Proof.
  intros [A1 A2 A3 A4 A5 A6 A7 A8 A9 A10] Hr.
  assert (T : In m (at_r (p_out s) r)) by (rewrite Hr; now left).
  assert (Q1 : cmd_inert m) by (destruct r; cbn [at_r] in T; [apply A8|apply A7|apply A9]; exact T).
  set (q' := push_msg (p_q s) m kept).
  assert (FU : forall {A} (f : A -> amsg -> A) x, (forall y, about_ua m = false -> f y m = y) -> (home m <> RCtrl -> r <> RCtrl -> forall y, f y m = y) ->
     (home m <> RUa -> forall y, f y m = y) -> fold_left f (x_u q' ++ x_c (set_r (p_out s) r rest)) x = fold_left f (stream s) x).
  { intros A f x F0 F1 F2. unfold stream, q', push_msg. rewrite !fold_left_app.
    destruct r; cbn [set_r x_c at_r] in *.
    - destruct kept; [|reflexivity]. destruct (home m) eqn:Eh; cbn [set_r x_u at_r]; try reflexivity. rewrite fold_left_app. cbn [fold_left]. rewrite F1; [reflexivity|congruence|discriminate].
    - destruct kept; [|reflexivity]. destruct (home m) eqn:Eh; cbn [set_r x_u at_r]; try reflexivity. rewrite fold_left_app. cbn [fold_left]. rewrite F1; [reflexivity|congruence|discriminate].
    - rewrite Hr. cbn [fold_left]. destruct kept.
      + destruct (home m) eqn:Eh; cbn [set_r x_u at_r]; [rewrite F2 by discriminate; reflexivity| |rewrite F2 by discriminate; reflexivity].
        rewrite fold_left_app. reflexivity.
      + destruct Hk as [Hk|[Hk _]]; [discriminate Hk|]. rewrite F0 by exact Hk. reflexivity. }
  assert (UI : r <> RCtrl -> ua_inert m) by (intros N; destruct r; cbn [at_r] in T; [apply A8|apply A7|now destruct N]; exact T).
  assert (HU : home m <> RUa -> ua_inert m) by (destruct m; cbn; try tauto; now intros []).
  assert (AU : about_ua m = false -> ua_inert m) by (destruct m; cbn; auto; discriminate).
  assert (E1 : forall l x, fold_left (upf l) (x_u q' ++ x_c (set_r (p_out s) r rest)) x = fold_left (upf l) (stream s) x).
  { intros. apply FU; intros; apply upf_inert; auto. }
  assert (E2 : forall x, fold_left portf (x_u q' ++ x_c (set_r (p_out s) r rest)) x = fold_left portf (stream s) x).
  { intros. apply FU; intros; apply portf_inert; auto. }
  assert (MQ : forall r' y, In y (at_r (p_q s) r') -> In y (at_r q' r')).
  { intros r' y Hy. unfold q', push_msg. destruct kept; [|exact Hy]. destruct (home m), r'; cbn [set_r at_r x_u x_c x_m] in *; try exact Hy; apply in_or_app; now left. }
  assert (MO : forall r' y, In y (at_r (p_out s) r') -> y = m /\ r = r' \/ In y (at_r (set_r (p_out s) r rest) r')).
  { intros r' y Hy. destruct r, r'; cbn [set_r at_r x_u x_c x_m] in *; auto; rewrite Hr in Hy; destruct Hy as [<-|Hy]; auto. }
  assert (MK : about_ua m = true -> In m (at_r q' (home m))).
  { intros X. destruct Hk as [->|[Hk _]]; [|congruence]. unfold q', push_msg. destruct (home m); cbn [set_r at_r x_u x_c x_m]; apply in_or_app; right; now left. }
  assert (MO' : forall r' y, In y (at_r (set_r (p_out s) r rest) r') -> In y (at_r (p_out s) r')).
  { intros r' y Hy. destruct r, r'; cbn [set_r at_r x_u x_c x_m] in *; auto; rewrite Hr; now right. }
  constructor; unfold stream; cbn [p_ctrl p_modbus p_port p_chan p_svc p_q p_out]; fold q'; try rewrite E1; try rewrite E2; auto.
  - intros F. destruct (A4 F) as [X|[X Y]]; [left; exact X|right]. split; [exact X|]. destruct Y as [Y|Y]; [left|right].
    + unfold stream in Y. apply in_app_or in Y as [Y|Y]; apply in_or_app.
      * left. exact (MQ RUa _ Y).
      * destruct (MO RCtrl _ Y) as [[Z Z']|Z]; [|right; exact Z]. left. subst m. exact (MK eq_refl).
    + apply in_app_or in Y as [Y|Y]; apply in_or_app.
      * destruct (MO RUa _ Y) as [[Z Z']|Z]; [|left; exact Z]. right. subst m. exact (MK eq_refl).
      * right. exact (MQ RCtrl _ Y).
  - rewrite <- A6. unfold q', push_msg. destruct kept; [|reflexivity]. destruct (home m); cbn [set_r at_r x_c]; try reflexivity. rewrite fold_left_app. cbn [fold_left]. now apply cmdf_inert.
  - intros y Hy. apply A7. exact (MO' RUa y Hy).
  - intros y Hy. apply A8. exact (MO' RModbus y Hy).
  - intros y Hy. apply A9. exact (MO' RCtrl y Hy).
Qed.

(** The other moves. *)
Lemma inv_m s e s' b q : UaInv s b -> x_u q = x_u (p_q s) -> x_c q = x_c (p_q s) -> m_handle s e q = ANext s' -> UaInv s' b.
Proof.
  intros [A1 A2 A3 A4 A5 A6 A7 A8 A9 A10] Hu Hc H. unfold m_handle in H. destruct (mb_step (p_modbus s) e) as [[b' os]|]; [|discriminate H].
  destruct (m_ends os); [discriminate H|]. injection H as <-.
  unfold stream in *. constructor; unfold stream; cbn [p_ctrl p_modbus p_port p_chan p_svc p_q p_out set_r x_m x_u x_c]; rewrite ?Hu, ?Hc; auto.
  intros m Hm. apply in_flat_map in Hm as (o & _ & Hm). apply m_sends_inert in Hm as (x & ->). split; exact I.
Qed.

Lemma inv_u s s' b m rest : UaInv s b -> idle s RUa = true -> x_u (p_q s) = m :: rest ->
  u_handle s m true true (set_r (p_q s) RUa rest) = ANext s' -> UaInv s' b.
Proof.
  intros [A1 A2 A3 A4 A5 A6 A7 A8 A9 A10] Hi Hq H.
  assert (O : x_u (p_out s) = []) by (unfold idle in Hi; cbn [at_r] in Hi; destruct (x_u (p_out s)); congruence).
  unfold stream in *. rewrite Hq in *. cbn [List.app fold_left] in *. rewrite O in *. cbn [List.app] in A4.
  assert (G : exists out, s' = mkApp (p_ctrl s) (p_modbus s) (portf (p_port s) m) (upf LChannel (p_chan s) m) (upf LService (p_svc s) m) (set_r (p_q s) RUa rest) (set_r (p_out s) RUa out) /\
     (m = GInit LTransport -> In (GInited LTransport) out) /\ forall y, In y out -> ua_inert y /\ cmd_inert y).
  { unfold u_handle, u_next in H. destruct m as [| |e|l|l| | | | | |[]|[] a|[]]; cbn [upf layer_eqb portf] in *; try destruct (p_port s) eqn:Ep; cbn [negb] in H; try discriminate H; try congruence;
      injection H as <-; eexists; (split; [reflexivity|]); (split; [intros X; try discriminate X; cbn; tauto|]); intros y; cbn; intuition (subst; cbn; auto). }
  destruct G as (out & -> & G1 & G2).
  constructor; unfold stream; cbn [p_ctrl p_modbus p_port p_chan p_svc p_q p_out set_r x_m x_u x_c]; auto.
  - intros F. destruct (A4 F) as [X|[X Y]]; [now left|right]. split; [exact X|]. destruct Y as [[Y|Y]|Y]; [right; apply in_or_app; left; now apply G1|left; exact Y|right; apply in_or_app; right; exact Y].
  - intros X. destruct m as [| | | | | | | | | |[]|[]|[]]; cbn [portf] in X; try discriminate X; try (now apply A5). destruct (p_port s); discriminate X.
Qed.

Definition cmd_of (c : option bool) : bool := match c with Some true => true | _ => false end.
Lemma inv_step g s e s' b : UaInv s b -> granted s e -> astep g s e = ANext s' -> UaInv s' (match e with ACmd x _ => x | _ => b end).
Proof.
  intros I Hg H. destruct e as [st kept|r kept|tok|acc lis|e| |e]; cbn [astep granted] in *.
  - subst kept. injection H as <-. destruct I as [A1 A2 A3 A4 A5 A6 A7 A8 A9 A10]. unfold push_msg.
    destruct st; cbn [home]; constructor; unfold stream in *; cbn [p_ctrl p_modbus p_port p_chan p_svc p_q p_out set_r x_m x_u x_c at_r] in *; auto;
      try (rewrite fold_left_app; reflexivity);
      intros F; (destruct (A4 F) as [X|[X Y]]; [now left|right]; split; [exact X|]; rewrite !in_app_iff in *; tauto).
  - destruct (at_r (p_out s) r) as [|m rest] eqn:Er; [discriminate H|]. injection H as <-. apply inv_put; auto.
  - subst tok. unfold with_next in H. destruct (idle s RCtrl) eqn:Ei; [|discriminate H]. cbn [at_r] in H.
    destruct (x_c (p_q s)) as [|m rest] eqn:Eq; [discriminate H|]. destruct (k_event true m) as [k|] eqn:Ek; [|discriminate H].
    apply (inv_k g s s' b k (set_r (p_q s) RCtrl rest) [m] I Ei); cbn [set_r x_c x_u x_m]; auto; destruct m as [| |e|l|l| | | | | | | |]; try discriminate Ek; cbn [k_event] in Ek; injection Ek as <-; try exact I; try reflexivity;
      try (constructor; [split; [exact Logic.I|discriminate]|constructor]); exact Logic.I.
  - destruct Hg as [-> ->]. unfold with_next in H. destruct (idle s RUa) eqn:Ei; [|discriminate H]. cbn [at_r] in H.
    destruct (x_u (p_q s)) as [|m rest] eqn:Eq; [discriminate H|]. eapply inv_u; eauto.
  - unfold with_next in H. destruct (idle s RModbus) eqn:Ei; [|discriminate H]. cbn [at_r] in H.
    destruct (x_m (p_q s)) as [|m rest] eqn:Eq; [discriminate H|]. destruct (m_event m e); [|discriminate H]. exact (inv_m s e s' b (set_r (p_q s) RModbus rest) I eq_refl eq_refl H).
  - destruct (idle s RCtrl) eqn:Ei; [|discriminate H]. cbn [andb] in H. destruct (k_enabled _ _); [|discriminate H].
    apply (inv_k g s s' b (KModbus TvTimer) (p_q s) [] I Ei); auto; constructor.
  - destruct (idle s RModbus); [|discriminate H]. destruct e; try discriminate H; exact (inv_m s _ s' b _ I eq_refl eq_refl H).
Qed.

Lemma inv0 : UaInv app0 false.
Proof. constructor; cbn; try reflexivity; try discriminate; try tauto. Qed.
Lemma reach_inv g s tr : areach g s tr -> UaInv s (cmd_of (last_cmd tr)).
Proof.
  induction 1 as [|s tr e s' _ IH Hg Hs]; [exact inv0|]. pose proof (inv_step g s e s' _ IH Hg Hs) as X. unfold last_cmd. rewrite fold_left_app. cbn [fold_left].
  fold (last_cmd tr). destruct e as [st k| | | | | |]; [|exact X..]. destruct st; exact X.
Qed.

Lemma fold_calm {A} (f : A -> amsg -> A) l x : (forall m, In m l -> about_ua m = false) -> (forall y m, about_ua m = false -> f y m = y) -> fold_left f l x = x.
Proof. revert x; induction l as [|m l IH]; intros x H F; [reflexivity|]. cbn [fold_left]. rewrite F by (apply H; now left). apply IH; auto. intros; apply H; now right. Qed.
Lemma settled_inv s b : UaInv s b -> ua_settled s -> if b then serving s else gone s.
Proof.
  intros [A1 A2 A3 A4 A5 A6 A7 A8 A9 A10] Hs. unfold ua_settled, in_flight in Hs.
  assert (S1 : forall m, In m (stream s) -> about_ua m = false) by (unfold stream; intros m Hm; apply Hs; rewrite !in_app_iff in *; tauto).
  assert (S2 : forall m, In m (x_u (p_out s) ++ x_c (p_q s)) -> about_ua m = false) by (intros m Hm; apply Hs; rewrite !in_app_iff in *; tauto).
  rewrite fold_calm in A1 by (auto; intros y []; cbn; congruence).
  rewrite fold_calm in A2 by (auto; intros y []; cbn; congruence).
  rewrite fold_calm in A3 by (auto; intros y []; cbn; congruence).
  rewrite fold_calm in A4 by (auto; intros y []; cbn; congruence).
  rewrite fold_calm in A6; [|intros m Hm; apply S2; apply in_or_app; now right|intros y []; cbn; congruence].
  subst b. destruct (k_ua (p_ctrl s)).
  - split; [|split; assumption]. destruct (A4 eq_refl) as [X|[X [Y|Y]]]; [exact X|apply S1 in Y; discriminate Y|apply S2 in Y; discriminate Y].
  - split; [now apply A3|]. split; assumption.
Qed.

(** * Liveness: every fair execution settles *)
(** Handing over and handling still to be done because of a message: [wq] in a queue, one more in an outbox. *)
Definition wq (m : amsg) : nat :=
  match m with
  | GReleased _ => 1 | GInited _ => 3
  | GConfig _ _ => 1 | GInit _ => 5 | GRelease _ => 3
  | GStart => 19 | GStop => 13
  | _ => 0
  end%nat.
Definition wo (m : amsg) : nat := if about_ua m then S (wq m) else 0%nat.
Definition sumw (f : amsg -> nat) (l : list amsg) : nat := list_sum (map f l).
Definition workq (b : boxes) : nat := (sumw wq (x_m b) + sumw wq (x_u b) + sumw wq (x_c b))%nat.
Definition worko (b : boxes) : nat := (sumw wo (x_m b) + sumw wo (x_u b) + sumw wo (x_c b))%nat.
Definition work (s : app) : nat := (workq (p_q s) + worko (p_out s))%nat.
Lemma sumw_app f l l' : sumw f (l ++ l') = (sumw f l + sumw f l')%nat.
Proof. unfold sumw. now rewrite map_app, list_sum_app. Qed.
Lemma sumw_cons f m l : sumw f (m :: l) = (f m + sumw f l)%nat.
Proof. reflexivity. Qed.
Lemma wq_pos m : about_ua m = true <-> (0 < wq m)%nat.
Proof. destruct m as [| | |[]|[]| | | | | | | |]; cbn; split; intros; try discriminate; try lia; reflexivity. Qed.
Lemma wq_zero m : about_ua m = false -> wq m = 0%nat.
Proof. intros H. destruct (wq m) eqn:E; [reflexivity|]. exfalso. enough (about_ua m = true) by congruence. apply wq_pos. lia. Qed.
Lemma sumw_zero f l : sumw f l = 0%nat <-> forall m, In m l -> f m = 0%nat.
Proof. induction l as [|m l IH]; [cbn; tauto|]. rewrite sumw_cons. split; [intros H x [<-|Hx]; [lia|apply IH; [lia|exact Hx]]|intros H]. rewrite (H m) by (now left). cbn. apply IH. intros; apply H; now right. Qed.
Lemma work_settled s : work s = 0%nat <-> ua_settled s.
Proof.
  unfold work, workq, worko, ua_settled, in_flight. split.
  - intros H m Hm. assert (Z : wq m = 0%nat \/ wo m = 0%nat).
    { rewrite !in_app_iff in Hm. repeat destruct Hm as [Hm|Hm]; [left|left|left|right|right|right];
        match type of Hm with In _ ?l => match goal with |- ?f m = _ => assert (X : sumw f l = 0%nat) by lia; exact (proj1 (sumw_zero f l) X m Hm) end end. }
    destruct (about_ua m) eqn:E; [|reflexivity]. pose proof (proj1 (wq_pos m) E). unfold wo in Z. rewrite E in Z. destruct Z; lia.
  - intros H. assert (Q : forall l, (forall m, In m l -> about_ua m = false) -> sumw wq l = 0%nat /\ sumw wo l = 0%nat).
    { intros l Hl. split; apply sumw_zero; intros m Hm; [apply wq_zero|unfold wo; rewrite Hl by exact Hm; reflexivity]; now apply Hl. }
    repeat match goal with |- context [sumw ?f ?l] => let X := fresh in assert (X : sumw f l = 0%nat) by (apply Q; intros m Hm; apply H; rewrite !in_app_iff; tauto); rewrite X; clear X end. reflexivity.
Qed.

(** The messages of a handler of the controller weigh less than what it handled. *)
Lemma sumw_modbus l : (forall m, In m l -> ua_inert m /\ cmd_inert m /\ home m = RModbus) -> sumw wo l = 0%nat.
Proof. intros H. apply sumw_zero. intros m Hm. destruct (H m Hm) as (A & B & C). destruct m as [| |[]|[]|[]| | | | | | | |]; cbn in *; try tauto; try discriminate; reflexivity. Qed.
Lemma k_step_throw g c c' os : k_step g c (KStart false) = Some (c', os) -> c' = c /\ os = [KoThrow].
Proof. cbn. intros H. injection H as <- <-. auto. Qed.
Lemma sum_at f b r l : (sumw f (x_m (set_r b r l)) + sumw f (x_u (set_r b r l)) + sumw f (x_c (set_r b r l)) + sumw f (at_r b r) =
  sumw f (x_m b) + sumw f (x_u b) + sumw f (x_c b) + sumw f l)%nat.
Proof. destruct r; cbn [set_r x_m x_u x_c at_r]; lia. Qed.
Lemma workq_at b r l : (workq (set_r b r l) + sumw wq (at_r b r) = workq b + sumw wq l)%nat.
Proof. apply sum_at. Qed.
Lemma worko_at b r l : (worko (set_r b r l) + sumw wo (at_r b r) = worko b + sumw wo l)%nat.
Proof. apply sum_at. Qed.
Lemma work_push q m kept : (workq (push_msg q m kept) <= workq q + wq m)%nat.
Proof.
  unfold push_msg. destruct kept; [|lia]. pose proof (workq_at q (home m) (at_r q (home m) ++ [m])) as X. rewrite sumw_app, (sumw_cons _ m []) in X. change (sumw wq []) with 0%nat in X. lia.
Qed.
Definition ctrl_ok (s : app) : Prop := match k_modbus (p_ctrl s) with Some _ => k_ua (p_ctrl s) = true | None => k_ua (p_ctrl s) = false end.

(** A move of the start-up or shut-down of the OPC UA server. *)
Definition head_ua (l : list amsg) : bool := match l with m :: _ => about_ua m | [] => false end.
Definition ua_move (s : app) (e : aev) : bool :=
  match e with
  | APut r _ => head_ua (at_r (p_out s) r)
  | ATakeC _ => head_ua (x_c (p_q s)) | ATakeU _ _ => head_ua (x_u (p_q s)) | ATakeM _ => head_ua (x_m (p_q s))
  | _ => false
  end.
Lemma work_step g s e s' : ctrl_ok s -> astep g s e = ANext s' -> is_cmd e = false ->
  (work s' + (if ua_move s e then 1 else 0) <= work s)%nat /\ ctrl_ok s'.
Proof.
  intros Hc H Hn.
  assert (KH : forall k q, idle s RCtrl = true -> k_handle g s k q = ANext s' ->
     (work s' <= workq q + worko (p_out s) + match k with KStart _ => 18 | KStop => 12 | KInited _ => 2 | _ => 0 end)%nat /\ ctrl_ok s').
  { intros k q Hi K. unfold k_handle in K. destruct (k_step g (p_ctrl s) k) as [[c os]|] eqn:E; [|discriminate K]. injection K as <-. unfold work, ctrl_ok in *. cbn [p_q p_out p_ctrl].
    pose proof (worko_at (p_out s) RCtrl (flat_map k_sends os)) as W. unfold idle in Hi. destruct (at_r (p_out s) RCtrl); [|discriminate Hi].
    cbn [set_r] in W |- *. match type of W with (?a + _ = _)%nat => remember a as A eqn:HA end. remember (worko (p_out s)) as B eqn:HB. remember (workq q) as C eqn:HC. clear HA HB HC.
    destruct (match k with KStart false => true | _ => false end) eqn:Ek.
    - destruct k as [[]| | | |]; try discriminate Ek. apply k_step_throw in E as [-> ->]. change (sumw wo (flat_map k_sends [KoThrow])) with 0%nat in W. change (sumw wo []) with 0%nat in W. split; [lia|exact Hc].
    - destruct (k_ua_step g _ k c os Hc E) as (B1 & B2 & pre & B3 & B4); [destruct k as [[]| | | |]; try exact I; discriminate Ek|]. split; [|exact B2].
      rewrite B3, sumw_app, (sumw_modbus pre B4) in W. destruct k as [| | |[]|]; try destruct (k_ua (p_ctrl s)); repeat match type of W with context [sumw wo ?l] => let n := eval cbv in (sumw wo l) in change (sumw wo l) with n in W end; lia. }
  assert (MH : forall k q, idle s RModbus = true -> m_handle s k q = ANext s' -> (work s' <= workq q + worko (p_out s))%nat /\ ctrl_ok s').
  { intros k q Hi K. unfold m_handle in K. destruct (mb_step (p_modbus s) k) as [[b os]|] eqn:E; [|discriminate K]. destruct (m_ends os); [discriminate K|]. injection K as <-.
    unfold work, ctrl_ok in *. cbn [p_q p_out p_ctrl]. split; [|exact Hc]. pose proof (worko_at (p_out s) RModbus (flat_map m_sends os)) as W. unfold idle in Hi.
    destruct (at_r (p_out s) RModbus); [|discriminate Hi].
    cbn [set_r] in W |- *. match type of W with (?a + _ = _)%nat => remember a as A eqn:HA end. remember (worko (p_out s)) as B eqn:HB. remember (workq q) as C eqn:HC. clear HA HB HC. rewrite (proj2 (sumw_zero wo (flat_map m_sends os))) in W; [change (sumw wo []) with 0%nat in W; lia|].
    intros m Hm. apply in_flat_map in Hm as (o & _ & Hm). apply m_sends_inert in Hm as (x & ->). reflexivity. }
  destruct e as [st kept|r kept|tok|acc lis|e| |e]; cbn [astep ua_move] in *; try discriminate Hn.
  - destruct (at_r (p_out s) r) as [|m rest] eqn:Er; [discriminate H|]. injection H as <-. unfold work, ctrl_ok in *. cbn [p_q p_out p_ctrl]. split; [|exact Hc].
    pose proof (work_push (p_q s) m kept). pose proof (worko_at (p_out s) r rest) as W. rewrite Er, sumw_cons in W. cbn [head_ua]. unfold wo at 1 in W.
    destruct (about_ua m) eqn:Em; [lia|]. rewrite (wq_zero m Em) in *. lia.
  - unfold with_next in H. destruct (idle s RCtrl) eqn:Ei; [|discriminate H]. cbn [at_r] in H. destruct (x_c (p_q s)) as [|m rest] eqn:Eq; [discriminate H|].
    pose proof (workq_at (p_q s) RCtrl rest) as W. cbn [at_r] in W. rewrite Eq, sumw_cons in W. destruct (k_event tok m) as [k|] eqn:Ek; [|discriminate H].
    destruct (KH k _ eq_refl H) as [K1 K2]. split; [|exact K2]. unfold work in *. cbn [head_ua].
    destruct m as [| | |[]|[]| | | | | | | |]; cbn [k_event] in Ek; try discriminate Ek; injection Ek as <-; cbn [about_ua wq] in *; lia.
  - unfold with_next in H. destruct (idle s RUa) eqn:Ei; [|discriminate H]. cbn [at_r] in H. destruct (x_u (p_q s)) as [|m rest] eqn:Eq; [discriminate H|].
    pose proof (workq_at (p_q s) RUa rest) as W. cbn [at_r] in W. rewrite Eq, sumw_cons in W. unfold idle in Ei. destruct (at_r (p_out s) RUa) eqn:Eo; [|discriminate Ei].
    assert (V : forall l, (worko (mkBox (x_m (p_out s)) l (x_c (p_out s))) = worko (p_out s) + sumw wo l)%nat) by (intros l; pose proof (worko_at (p_out s) RUa l) as V; cbn [set_r] in V; rewrite Eo in V; change (sumw wo []) with 0%nat in V; lia).
    unfold u_handle, u_next in H. cbn [head_ua].
    destruct m as [| |e|[]|[]| | | | | |[]|[] a|[]]; try destruct (p_port s); try destruct acc, lis; cbn [negb] in H; try discriminate H; injection H as <-; unfold work, ctrl_ok in *; cbn [p_q p_out p_ctrl about_ua wq] in *;
      cbn [set_r] in W |- *; rewrite V; (split; [match goal with |- context [sumw wo ?l] => let n := eval cbv in (sumw wo l) in change (sumw wo l) with n end; lia|exact Hc]).
  - unfold with_next in H. destruct (idle s RModbus) eqn:Ei; [|discriminate H]. cbn [at_r] in H. destruct (x_m (p_q s)) as [|m rest] eqn:Eq; [discriminate H|].
    pose proof (workq_at (p_q s) RModbus rest) as W. cbn [at_r] in W. rewrite Eq, sumw_cons in W. destruct (m_event m e) eqn:Em; [|discriminate H].
    destruct (MH e _ eq_refl H) as [K1 K2]. split; [|exact K2]. unfold work in *. cbn [head_ua]. destruct m; try discriminate Em; cbn [about_ua wq] in *; lia.
  - destruct (idle s RCtrl) eqn:Ei; [|discriminate H]. cbn [andb] in H. destruct (k_enabled _ _); [|discriminate H]. destruct (KH _ _ eq_refl H) as [K1 K2]. unfold work in *. split; [lia|exact K2].
  - destruct (idle s RModbus) eqn:Ei; [|discriminate H]. destruct e; try discriminate H; destruct (MH _ _ eq_refl H) as [K1 K2]; unfold work in *; (split; [lia|exact K2]).
Qed.

(** Queues and outboxes change at their ends only. *)
Lemma queue_step g s e s' r : astep g s e = ANext s' ->
  (takes r (Some e) /\ exists m rest, at_r (p_q s) r = m :: rest /\ at_r (p_q s') r = rest) \/ (exists ext, at_r (p_q s') r = at_r (p_q s) r ++ ext).
Proof.
  intros H.
  assert (N : p_q s' = p_q s -> exists ext, at_r (p_q s') r = at_r (p_q s) r ++ ext) by (intros ->; exists []; now rewrite app_nil_r).
  assert (P : forall m kept, p_q s' = push_msg (p_q s) m kept -> exists ext, at_r (p_q s') r = at_r (p_q s) r ++ ext).
  { intros m kept ->. unfold push_msg. destruct kept; [|exists []; now rewrite app_nil_r]. destruct (home m), r; cbn [set_r at_r x_m x_u x_c]; try (exists []; now rewrite app_nil_r); eexists; reflexivity. }
  assert (T : forall r0 m rest, at_r (p_q s) r0 = m :: rest -> p_q s' = set_r (p_q s) r0 rest -> takes r0 (Some e) ->
     (takes r (Some e) /\ exists m rest, at_r (p_q s) r = m :: rest /\ at_r (p_q s') r = rest) \/ (exists ext, at_r (p_q s') r = at_r (p_q s) r ++ ext)).
  { intros r0 m rest A B C. destruct r0, r; cbn [at_r set_r x_m x_u x_c] in *; try (left; split; [exact C|]; exists m, rest; rewrite B; split; [exact A|reflexivity]); right; rewrite B; exists []; now rewrite app_nil_r. }
  destruct e as [st kept|r0 kept|tok|acc lis|e| |e]; cbn [astep] in H.
  - right. injection H as <-. eapply P. reflexivity.
  - right. destruct (at_r (p_out s) r0) as [|m rest]; [discriminate H|]. injection H as <-. eapply P. reflexivity.
  - unfold with_next in H. destruct (idle s RCtrl); [|discriminate H]. destruct (at_r (p_q s) RCtrl) as [|m rest] eqn:Eq; [discriminate H|].
    destruct (k_event tok m); [|discriminate H]. unfold k_handle in H. destruct (k_step _ _ _) as [[c os]|]; [|discriminate H]. injection H as <-. eapply T; [exact Eq|reflexivity|exact I].
  - unfold with_next in H. destruct (idle s RUa); [|discriminate H]. destruct (at_r (p_q s) RUa) as [|m rest] eqn:Eq; [discriminate H|].
    apply (T RUa m rest Eq); [|exact I]. unfold u_handle, u_next in H.
    destruct m as [| |e|[]|[]| | | | | |[]|[] a|[]]; try destruct (p_port s); try destruct acc, lis; cbn [negb] in H; try discriminate H; injection H as <-; reflexivity.
  - unfold with_next in H. destruct (idle s RModbus); [|discriminate H]. destruct (at_r (p_q s) RModbus) as [|m rest] eqn:Eq; [discriminate H|].
    destruct (m_event m e); [|discriminate H]. unfold m_handle in H. destruct (mb_step _ _) as [[c os]|]; [|discriminate H]. destruct (m_ends os); [discriminate H|]. injection H as <-. eapply T; [exact Eq|reflexivity|exact I].
  - right. destruct (idle s RCtrl && _); [|discriminate H]. unfold k_handle in H. destruct (k_step _ _ _) as [[c os]|]; [|discriminate H]. injection H as <-. now apply N.
  - right. destruct (idle s RModbus); [|discriminate H]. destruct e; try discriminate H; unfold m_handle in H; (destruct (mb_step _ _) as [[c os]|]; [|discriminate H]; destruct (m_ends os); [discriminate H|]; injection H as <-; now apply N).
Qed.
Lemma out_step g s e s' r : astep g s e = ANext s' ->
  (puts r (Some e) /\ exists m rest, at_r (p_out s) r = m :: rest /\ at_r (p_out s') r = rest) \/ at_r (p_out s) r = [] \/ at_r (p_out s') r = at_r (p_out s) r.
Proof.
  intros H.
  assert (T : forall r0 l, idle s r0 = true -> p_out s' = set_r (p_out s) r0 l -> at_r (p_out s) r = [] \/ at_r (p_out s') r = at_r (p_out s) r).
  { intros r0 l A B. rewrite B. unfold idle in A. destruct r0, r; cbn [at_r set_r x_m x_u x_c] in *; auto; left; destruct (_ : list amsg); congruence. }
  destruct e as [st kept|r0 kept|tok|acc lis|e| |e]; cbn [astep] in H.
  - right; right. injection H as <-. reflexivity.
  - destruct (at_r (p_out s) r0) as [|m rest] eqn:Er; [discriminate H|]. injection H as <-. cbn [p_out].
    destruct r0, r; cbn [at_r set_r x_m x_u x_c puts] in *; try (left; split; [reflexivity|]; exists m, rest; split; [exact Er|reflexivity]); right; right; reflexivity.
  - unfold with_next in H. destruct (idle s RCtrl) eqn:Ei; [|discriminate H]. destruct (at_r (p_q s) RCtrl) as [|m rest] eqn:Eq; [discriminate H|].
    destruct (k_event tok m); [|discriminate H]. unfold k_handle in H. destruct (k_step _ _ _) as [[c os]|]; [|discriminate H]. injection H as <-. right. eapply T; [exact Ei|reflexivity].
  - unfold with_next in H. destruct (idle s RUa) eqn:Ei; [|discriminate H]. destruct (at_r (p_q s) RUa) as [|m rest] eqn:Eq; [discriminate H|].
    right. unfold u_handle, u_next in H.
    destruct m as [| |e|[]|[]| | | | | |[]|[] a|[]]; try destruct (p_port s); try destruct acc, lis; cbn [negb] in H; try discriminate H; injection H as <-; (eapply T; [exact Ei|reflexivity]).
  - unfold with_next in H. destruct (idle s RModbus) eqn:Ei; [|discriminate H]. destruct (at_r (p_q s) RModbus) as [|m rest] eqn:Eq; [discriminate H|].
    destruct (m_event m e); [|discriminate H]. unfold m_handle in H. destruct (mb_step _ _) as [[c os]|]; [|discriminate H]. destruct (m_ends os); [discriminate H|]. injection H as <-. right. eapply T; [exact Ei|reflexivity].
  - right. destruct (idle s RCtrl) eqn:Ei; [|discriminate H]. destruct (k_enabled _ _); [|discriminate H]. cbn [andb] in H. unfold k_handle in H. destruct (k_step _ _ _) as [[c os]|]; [|discriminate H]. injection H as <-. eapply T; [exact Ei|reflexivity].
  - right. destruct (idle s RModbus) eqn:Ei; [|discriminate H]. destruct e; try discriminate H; unfold m_handle in H; (destruct (mb_step _ _) as [[c os]|]; [|discriminate H]; destruct (m_ends os); [discriminate H|]; injection H as <-; eapply T; [exact Ei|reflexivity]).
Qed.

Section Live.
Variables (g : list Z) (st : nat -> app) (ev : nat -> option aev) (k : nat).
Hypothesis X : execution g st ev.
Hypothesis Fair : fair st ev.
Hypothesis Last : forall n, (k < n)%nat -> match ev n with Some (ACmd _ _) => False | _ => True end.

Lemma exec_inv n : exists b, UaInv (st n) b.
Proof.
  induction n as [|n [b IH]]; [exists false; rewrite (ex_start _ _ _ X); exact inv0|]. pose proof (ex_step _ _ _ X n) as E. destruct (ev n) as [e|]; [|exists b; now rewrite E].
  destruct E as [E G]. eexists. eapply inv_step; eauto.
Qed.
Lemma exec_ctrl n : ctrl_ok (st n).
Proof. destruct (exec_inv n) as [b I]. exact (ui_ctrl _ _ I). Qed.
Lemma exec_after b : UaInv (st (S k)) b -> forall d, UaInv (st (S k + d)) b.
Proof.
  intros H d. induction d as [|d IH]; [now rewrite Nat.add_0_r|]. rewrite Nat.add_succ_r. pose proof (ex_step _ _ _ X (S k + d)) as E. pose proof (Last (S k + d)) as L.
  destruct (ev (S k + d)) as [e|]; [|now rewrite E]. destruct E as [E G]. pose proof (inv_step g _ _ _ _ IH G E) as R. destruct e; try exact R. destruct L. lia.
Qed.
Lemma exec_work n : (k < n)%nat -> (work (st (S n)) <= work (st n))%nat /\ match ev n with Some e => ua_move (st n) e = true -> (work (st (S n)) < work (st n))%nat | None => True end.
Proof.
  intros Hn. pose proof (ex_step _ _ _ X n) as E. pose proof (Last n Hn) as L. destruct (ev n) as [e|]; [|rewrite E; split; [lia|exact I]]. destruct E as [E _].
  destruct (work_step g _ _ _ (exec_ctrl n) E) as [W _]; [destruct e; auto; destruct L|]. split; [destruct (ua_move (st n) e); lia|]. intros M. rewrite M in W. lia.
Qed.
Lemma exec_mono n d : (k < n)%nat -> (work (st (n + d)) <= work (st n))%nat.
Proof. intros Hn. induction d as [|d IH]; [now rewrite Nat.add_0_r|]. rewrite Nat.add_succ_r. destruct (exec_work (n + d)) as [W _]; lia. Qed.

(** A message at position [j] of a queue is handled. *)
Lemma queue_progress r : forall j n m, (k < n)%nat -> nth_error (at_r (p_q (st n)) r) j = Some m -> about_ua m = true ->
  exists n', (n <= n')%nat /\ (work (st (S n')) < work (st n'))%nat.
Proof.
  induction j as [j IHj] using lt_wf_ind. intros n m Hn Hm Ha. destruct (Fair r n) as [(p & Hp & Hf) _]. revert n Hn Hm Hp.
  enough (D : forall d n, (p - n)%nat = d -> (k < n)%nat -> nth_error (at_r (p_q (st n)) r) j = Some m -> (n <= p)%nat -> exists n', (n <= n')%nat /\ (work (st (S n')) < work (st n'))%nat).
  { intros n Hn Hm Hp. now apply (D (p - n)%nat n). }
  induction d as [|d IHd]; intros n Hd Hn Hm Hp.
  - assert (n = p) by lia. subst n. destruct Hf as [Hf|Hf]; [|rewrite Hf in Hm; destruct j; discriminate Hm].
    pose proof (ex_step _ _ _ X p) as E. pose proof (exec_work p Hn) as [_ W]. destruct (ev p) as [e|] eqn:Ee; [|destruct Hf]. destruct E as [E _].
    destruct (queue_step g _ _ _ r E) as [(_ & x & rest & Q1 & Q2)|(ext & Q)].
    + destruct j as [|j].
      * exists p. split; [lia|]. apply W. rewrite Q1 in Hm. injection Hm as ->. destruct e, r; try destruct Hf; cbn [ua_move at_r] in *; rewrite Q1; exact Ha.
      * destruct (IHj j ltac:(lia) (S p) m) as (n' & N1 & N2); [lia|rewrite Q2; rewrite Q1 in Hm; exact Hm|exact Ha|]. exists n'. split; [lia|exact N2].
    + (* a step that takes from [r] cannot append *)
      exfalso. clear - E Hf Q Hm.
      assert (L : (length (at_r (p_q (st (S p))) r) < length (at_r (p_q (st p)) r))%nat).
      { destruct e as [| |tok|acc lis|e| |], r; try destruct Hf; cbn [astep] in E; unfold with_next in E.
        - destruct (idle (st p) RCtrl); [|discriminate E]. destruct (at_r (p_q (st p)) RCtrl) as [|x rest]; [discriminate E|]. destruct (k_event tok x); [|discriminate E]. unfold k_handle in E.
          destruct (k_step _ _ _) as [[c os]|]; [|discriminate E]. injection E as <-. cbn. lia.
        - destruct (idle (st p) RUa); [|discriminate E]. destruct (at_r (p_q (st p)) RUa) as [|x rest]; [discriminate E|]. unfold u_handle, u_next in E.
          destruct x as [| |e|[]|[]| | | | | |[]|[] a|[]]; try destruct (p_port (st p)); try destruct acc, lis; cbn [negb] in E; try discriminate E; injection E as <-; cbn; lia.
        - destruct (idle (st p) RModbus); [|discriminate E]. destruct (at_r (p_q (st p)) RModbus) as [|x rest]; [discriminate E|]. destruct (m_event x e); [|discriminate E]. unfold m_handle in E.
          destruct (mb_step _ _) as [[c os]|]; [|discriminate E]. destruct (m_ends os); [discriminate E|]. injection E as <-. cbn. lia. }
      rewrite Q, app_length in L. lia.
  - pose proof (ex_step _ _ _ X n) as E. pose proof (exec_work n Hn) as [_ W]. destruct (ev n) as [e|] eqn:Ee.
    + destruct E as [E _]. destruct (queue_step g _ _ _ r E) as [(T & x & rest & Q1 & Q2)|(ext & Q)].
      * destruct j as [|j].
        -- exists n. split; [lia|]. apply W. rewrite Q1 in Hm. injection Hm as ->. destruct e, r; try destruct T; cbn [ua_move at_r] in *; rewrite Q1; exact Ha.
        -- destruct (IHj j ltac:(lia) (S n) m) as (n' & N1 & N2); [lia|rewrite Q2; rewrite Q1 in Hm; exact Hm|exact Ha|]. exists n'. split; [lia|exact N2].
      * destruct (IHd (S n)) as (n' & N1 & N2); [lia|lia| |lia|exists n'; split; [lia|exact N2]]. rewrite Q, nth_error_app1; [exact Hm|]. apply nth_error_Some. congruence.
    + destruct (IHd (S n)) as (n' & N1 & N2); [lia|lia|now rewrite E|lia|exists n'; split; [lia|exact N2]].
Qed.
Lemma out_progress r : forall j n m, (k < n)%nat -> nth_error (at_r (p_out (st n)) r) j = Some m -> about_ua m = true ->
  exists n', (n <= n')%nat /\ (work (st (S n')) < work (st n'))%nat.
Proof.
  induction j as [j IHj] using lt_wf_ind. intros n m Hn Hm Ha. destruct (Fair r n) as [_ (p & Hp & Hf)]. revert n Hn Hm Hp.
  enough (D : forall d n, (p - n)%nat = d -> (k < n)%nat -> nth_error (at_r (p_out (st n)) r) j = Some m -> (n <= p)%nat -> exists n', (n <= n')%nat /\ (work (st (S n')) < work (st n'))%nat).
  { intros n Hn Hm Hp. now apply (D (p - n)%nat n). }
  assert (PUT : forall n e, (k < n)%nat -> nth_error (at_r (p_out (st n)) r) j = Some m -> ev n = Some e -> puts r (Some e) -> exists n', (n <= n')%nat /\ (work (st (S n')) < work (st n'))%nat).
  { intros n e Hn Hm Ee Hput. pose proof (ex_step _ _ _ X n) as E. pose proof (exec_work n Hn) as [_ W]. rewrite Ee in E, W. destruct E as [E _].
    destruct e as [|r0 kept| | | | |]; cbn [puts] in Hput; try contradiction. subst r0. cbn [astep] in E. destruct (at_r (p_out (st n)) r) as [|x rest] eqn:Q1; [discriminate E|].
    destruct j as [|j].
    - exists n. split; [lia|]. apply W. injection Hm as ->. cbn [ua_move]. rewrite Q1. exact Ha.
    - destruct (IHj j ltac:(lia) (S n) m) as (n' & N1 & N2); [lia| |exact Ha|exists n'; split; [lia|exact N2]]. injection E as <-. cbn [p_out]. destruct r; exact Hm. }
  induction d as [|d IHd]; intros n Hd Hn Hm Hp.
  - assert (n = p) by lia. subst n. destruct Hf as [Hf|Hf]; [|rewrite Hf in Hm; destruct j; discriminate Hm].
    destruct (ev p) as [e|] eqn:Ee; [|destruct Hf]. eapply PUT; eauto.
  - pose proof (ex_step _ _ _ X n) as E. destruct (ev n) as [e|] eqn:Ee.
    + destruct E as [E _]. destruct (out_step g _ _ _ r E) as [(T & _)|[Q|Q]].
      * eapply PUT; eauto.
      * rewrite Q in Hm. destruct j; discriminate Hm.
      * destruct (IHd (S n)) as (n' & N1 & N2); [lia|lia|now rewrite Q|lia|exists n'; split; [lia|exact N2]].
    + destruct (IHd (S n)) as (n' & N1 & N2); [lia|lia|now rewrite E|lia|exists n'; split; [lia|exact N2]].
Qed.

Lemma sumw_pos f l : (0 < sumw f l)%nat -> exists j m, nth_error l j = Some m /\ (0 < f m)%nat.
Proof.
  induction l as [|x l IH]; [cbn; lia|]. rewrite sumw_cons. destruct (f x) eqn:E; [|exists 0%nat, x; split; [reflexivity|lia]].
  intros H. destruct IH as (j & m & A & B); [lia|]. exists (S j), m. auto.
Qed.
Lemma wo_pos m : (0 < wo m)%nat -> about_ua m = true.
Proof. unfold wo. destruct (about_ua m); [reflexivity|lia]. Qed.
Lemma work_progress n : (k < n)%nat -> (0 < work (st n))%nat -> exists n', (n <= n')%nat /\ (work (st (S n')) < work (st n'))%nat.
Proof.
  intros Hn Hw. unfold work, workq, worko in Hw.
  assert (C : (exists r, (0 < sumw wq (at_r (p_q (st n)) r))%nat) \/ (exists r, (0 < sumw wo (at_r (p_out (st n)) r))%nat)).
  { destruct (sumw wq (x_m (p_q (st n)))) eqn:E1; [|left; exists RModbus; cbn [at_r]; lia].
    destruct (sumw wq (x_u (p_q (st n)))) eqn:E2; [|left; exists RUa; cbn [at_r]; lia].
    destruct (sumw wq (x_c (p_q (st n)))) eqn:E3; [|left; exists RCtrl; cbn [at_r]; lia].
    destruct (sumw wo (x_m (p_out (st n)))) eqn:E4; [|right; exists RModbus; cbn [at_r]; lia].
    destruct (sumw wo (x_u (p_out (st n)))) eqn:E5; [|right; exists RUa; cbn [at_r]; lia].
    right; exists RCtrl; cbn [at_r]; lia. }
  destruct C as [[r C]|[r C]]; apply sumw_pos in C as (j & m & A & B).
  - apply (queue_progress r j n m Hn A). now apply wq_pos.
  - apply (out_progress r j n m Hn A). now apply wo_pos.
Qed.
Lemma work_ends : forall w n, (k < n)%nat -> (work (st n) <= w)%nat -> exists N, (n <= N)%nat /\ forall d, work (st (N + d)) = 0%nat.
Proof.
  induction w as [|w IH]; intros n Hn Hw.
  - exists n. split; [lia|]. intros d. pose proof (exec_mono n d Hn). lia.
  - destruct (work (st n)) eqn:E; [apply (IH n Hn); lia|]. destruct (work_progress n Hn) as (n' & N1 & N2); [lia|].
    destruct (IH (S n')) as (N & A & B); [lia| |exists N; split; [lia|exact B]].
    replace n' with (n + (n' - n))%nat in N2 at 2 by lia. pose proof (exec_mono n (n' - n) Hn). lia.
Qed.
End Live.
