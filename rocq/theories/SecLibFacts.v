(** The server side of the secure channel library: invariant over all histories. *)
From Verif Require Import Base ModbusCodecModel ModbusCodecSpec ModbusClientModel UaCodecModel UaCodecSpec UaCodecProofs ModbusClientProofs UaTcpModel UaTcpSpec UaTcpProofs UaTcpFacts
  UaChanModel UaChanSpec UaChanProofs ProtoConnModel ProtoConnSpec ProtoConnProofs ProtoConnFacts SecLibModel SecLibSpec SecLibProofs.
Local Open Scope Z_scope.

(** * Running the calls of a channel *)
Definition is_send (k : pcall) : Prop := match k with KSend _ _ => True | _ => False end.
Definition pks (ks : list pcall) : list (list Z) := flat_map (fun k => match k with KSend p _ => [p] | _ => [] end) ks.
(** Packets handed over, exceptions, timers taken, things given back. *)
Definition sum (os : list pout) : list (list Z) * bool * bool * bool := (handed os, threw os, sees is_ptimer os, sees is_pfreed os).
Lemma sum_app a b : sum (a ++ b) = let '(h1, t1, m1, f1) := sum a in let '(h2, t2, m2, f2) := sum b in (h1 ++ h2, t1 || t2, m1 || m2, f1 || f2).
Proof. unfold sum, handed, threw, sees. rewrite flat_map_app, !existsb_app. reflexivity. Qed.
Lemma clean_sum os : clean os -> sum os = ([], threw os, false, false) /\ note_of os = None.
Proof.
  unfold clean. induction os as [|o os IH]; [now split|]. cbn [forallb]. intros H. apply andb_prop in H as [Ho H]. destruct (IH H) as (E & N).
  change (o :: os) with ([o] ++ os). rewrite sum_app, E. split; [|destruct o; try discriminate Ho; exact N].
  destruct o; try discriminate Ho; reflexivity.
Qed.
Lemma note_clean pre n os : clean pre -> note_of (pre ++ PNote n :: os) = Some n.
Proof.
  unfold clean. induction pre as [|o pre IH]; [reflexivity|]. cbn [forallb app]. intros H. apply andb_prop in H as [Ho H]. destruct o; try discriminate Ho; cbn; auto.
Qed.
Lemma calls_app role a b c : p_calls role (a ++ b) c = (p_calls role a ;> p_calls role b) c.
Proof.
  revert c. induction a as [|k a IH]; intros c.
  - cbn [app p_calls]. unfold pseq, pskip. destruct (p_calls role b c) as [[[c1 o1] t]|]; reflexivity.
  - cbn [app p_calls]. unfold pseq at 1. destruct (p_call role k c) as [[[c1 o1] []]|] eqn:E.
    + unfold pseq. rewrite E. reflexivity.
    + rewrite IH. unfold pseq. rewrite E. destruct (p_calls role a c1) as [[[c2 o2] []]|]; [reflexivity| |reflexivity].
      destruct (p_calls role b c2) as [[[c3 o3] t]|]; [|reflexivity]. now rewrite app_assoc.
    + unfold pseq. rewrite E. reflexivity.
Qed.
Lemma send_run role pkt w c c' os t : p_call role (KSend pkt w) c = Some (c', os, t) -> c' = c /\ t = false /\ sum os = ([pkt], false, false, false).
Proof.
  intros H. destruct c as [st ti li rx]. unfold p_call, pseq, pemit in H. cbn [p_st] in H. unfold p_send in H. cbn [p_link] in H.
  assert (G : match li with None => None | Some fd => match (if fd then w else None) with None => pemit (PSent false) (mkP st ti li rx)
     | Some n => (pemit (PTx pkt (Nat.min n (length pkt))) ;> pemit (PSent true)) (mkP st ti li rx) end end = Some (c', tl os, t) /\ os = PUser (KSend pkt w) :: tl os).
  { destruct st, li as [[]|]; try (destruct w as [n|]); cbn in H |- *; try discriminate H; injection H as <- <- <-; split; reflexivity. }
  destruct G as [G ->]. destruct li as [[]|]; [destruct w| |discriminate G]; cbn in G; injection G as <- <- <-; repeat split.
Qed.
Lemma sends_run role ks : forall c c' os t, Forall is_send ks -> p_calls role ks c = Some (c', os, t) -> c' = c /\ t = false /\ sum os = (pks ks, false, false, false).
Proof.
  induction ks as [|k ks IH]; intros c c' os t F H.
  - cbn in H. injection H as <- <- <-. repeat split.
  - inversion F as [|? ? Hk F']; subst. cbn [p_calls] in H. destruct k as [| | |pkt w]; try contradiction.
    apply pseq_inv in H as [[H ->]|(c1 & o1 & o2 & H1 & H2 & ->)]; [apply send_run in H as (_ & B & _); discriminate B|].
    apply send_run in H1 as (-> & _ & S1). apply IH in H2 as (-> & -> & S2); auto. rewrite sum_app, S1, S2. repeat split.
Qed.
Lemma close_run role c : p_st c = PsConn -> p_timer c <> None -> p_link c <> None ->
  p_calls role [KClose] c = Some (mkP PsInit None None (p_rx c), [PUser KClose; PShut; PDisarm; PFreed], false).
Proof. destruct c as [st ti li rx]. cbn [p_st p_timer p_link]. intros -> Ht Hl. destruct ti; [|congruence]. destruct li; [|congruence]. reflexivity. Qed.
Lemma home_run c : p_st c <> PsInit -> p_timer c <> None -> p_home c = Some (mkP PsInit None None (p_rx c), [PDisarm; PFreed], false).
Proof. destruct c as [st ti li rx]. cbn [p_st p_timer]. intros Hs Ht. destruct ti; [|congruence]. destruct st; [congruence|reflexivity..]. Qed.

(** Notification, calls, and back. *)
Lemma noting_calls role pre n ks c1 c' os t : noting role pre n ks c1 = Some (c', os, t) -> clean pre -> threw pre = false ->
  exists o, os = pre ++ PNote n :: o /\ (p_calls role ks ;> fin n) c1 = Some (c', o, t) /\ note_of os = Some n /\ sum os = sum o.
Proof.
  unfold noting. intros H C T. destruct ((p_calls role ks ;> fin n) c1) as [[[c2 o] t2]|] eqn:E; [|discriminate H]. injection H as <- <- <-.
  exists o. split; [reflexivity|]. split; [reflexivity|]. split; [now apply note_clean|]. destruct (clean_sum _ C) as (S & _).
  rewrite sum_app, S, T. destruct (sum o) as [[[h1 t1] m1] f1] eqn:So. unfold sum in *. injection So as <- <- <- <-. reflexivity.
Qed.
Lemma noting_stay role pre n ks c1 c' os t : noting role pre n ks c1 = Some (c', os, t) -> clean pre -> threw pre = false ->
  Forall is_send ks -> p_timer c1 <> None -> match n with NConnected | NData _ => True | _ => False end ->
  t = false /\ sum os = (pks ks, false, false, false) /\ p_st c' = p_st c1 /\ p_timer c' <> None /\ p_link c' = p_link c1.
Proof.
  intros H C T F Ht Hn. destruct (noting_calls _ _ _ _ _ _ _ _ H C T) as (o & -> & E & _ & ->).
  apply pseq_inv in E as [[E ->]|(c2 & o1 & o2 & H1 & H2 & ->)]; [apply sends_run in E as (_ & B & _); [discriminate B|auto]|].
  apply sends_run in H1 as (-> & _ & S1); [|auto]. rewrite sum_app, S1. destruct c1 as [st ti li rx]. cbn [p_timer] in Ht. destruct ti as [ti|]; [|congruence].
  destruct n; try contradiction; cbn in H2; injection H2 as <- <- <-; cbn; rewrite app_nil_r; repeat split; discriminate.
Qed.
Lemma noting_end role pre n ks c1 c' os t : noting role pre n ks c1 = Some (c', os, t) -> clean pre -> threw pre = false ->
  Forall is_send ks -> p_timer c1 <> None -> p_st c1 <> PsInit -> n = NClosed \/ n = NError ->
  t = false /\ sum os = (pks ks, false, false, true) /\ p_st c' = PsInit /\ p_timer c' = None.
Proof.
  intros H C T F Ht Hs Hn. destruct (noting_calls _ _ _ _ _ _ _ _ H C T) as (o & -> & E & _ & ->).
  apply pseq_inv in E as [[E ->]|(c2 & o1 & o2 & H1 & H2 & ->)]; [apply sends_run in E as (_ & B & _); [discriminate B|auto]|].
  apply sends_run in H1 as (-> & _ & S1); [|auto]. replace (fin n) with p_home in H2 by (destruct Hn; subst; reflexivity).
  rewrite home_run in H2 by auto. injection H2 as <- <- <-. rewrite sum_app, S1. cbn. rewrite app_nil_r. repeat split.
Qed.
Lemma noting_close role pre m ks c1 c' os t : noting role pre (NData m) (ks ++ [KClose]) c1 = Some (c', os, t) -> clean pre -> threw pre = false ->
  Forall is_send ks -> p_timer c1 <> None -> p_link c1 <> None -> p_st c1 = PsConn ->
  t = false /\ sum os = (pks ks, false, false, true) /\ p_st c' = PsInit /\ p_timer c' = None /\ In PShut os.
Proof.
  intros H C T F Ht Hl Hs. destruct (noting_calls _ _ _ _ _ _ _ _ H C T) as (o & -> & E & _ & ->).
  apply pseq_inv in E as [[E ->]|(c2 & o1 & o2 & H1 & H2 & ->)]; rewrite calls_app in *.
  - apply pseq_inv in E as [[E _]|(c2 & o1 & o2 & H1 & H2 & ->)]; [apply sends_run in E as (_ & B & _); [discriminate B|auto]|].
    apply sends_run in H1 as (-> & _ & _); [|auto]. rewrite close_run in H2 by auto. discriminate H2.
  - apply pseq_inv in H1 as [[E _]|(c3 & o3 & o4 & H3 & H4 & ->)]; [apply sends_run in E as (_ & B & _); [discriminate B|auto]|].
    apply sends_run in H3 as (-> & _ & S1); [|auto]. rewrite close_run in H4 by auto. injection H4 as <- <-. cbn in H2. injection H2 as <- <- <-.
    rewrite !sum_app, S1. cbn. rewrite !app_nil_r. repeat split. apply in_or_app. right. right. apply in_or_app. right. cbn. auto.
Qed.

(** * One event *)
Definition corr (x : sch) : Prop :=
  p_st (s_c x) = match s_st x with SInit => PsInit | SDial => PsShake | SShake | SEst => PsConn end.
Lemma msgs_send us : forall x, Forall is_send (msgs x us).
Proof. induction us as [|u us IH]; intros x; cbn [msgs]; constructor; [exact I|auto]. Qed.
(** What an event does. *)
Definition down_res (x x' : sch) (e : sev) (os : list pout) (ns : list snote) (t : bool) : Prop :=
  (exists c', x' = x_c x c' /\ ns = [] /\ clean os /\ t = threw os) \/
  exists n x1 ks ns' thr c', let m := skipn (k_tail (rx_now (s_c x) e)) (k_pkt (rx_now (s_c x) e)) in
    hcase x n m (s_w e) (match p_link (s_c x), s_w e with Some true, Some _ => true | _, _ => false end) (s_us e) x1 ks ns' thr /\ x' = x_c x1 c' /\
    ns = (match n with NData _ => [SHeard m] | _ => [] end) ++ ns' /\ t = thr /\
    sum os = (pks ks, thr, false, match s_st x1 with SInit => true | _ => false end) /\
    (talks n -> ended ns' = true -> In PShut os) /\ note_of os = Some n /\
    s_st x <> SInit /\ match n with NConnected => s_st x = SDial | NData _ => s_st x = SShake \/ s_st x = SEst | _ => True end.
Lemma down_server x e x' os ns t : has_io (s_c x) -> mem (s_c x) -> s_ok x -> corr x -> sev_ok e -> s_enabled x e = true ->
  s_down RServer x e = Some (x', (os, ns), t) ->
  (has_io (s_c x') /\ mem (s_c x') /\ corr x') /\ down_res x x' e os ns t.
Proof.
  intros HI HM HX HC Ok En H. unfold s_down in H. unfold s_enabled in En.
  destruct (lower e []) as [pe0|] eqn:El; [|discriminate H]. cbv zeta in H.
  assert (Hpe : forall ks pe, lower e ks = Some pe -> pev_ok pe).
  { intros ks pe G. destruct e; cbn in G; try discriminate G; injection G as <-; try exact I. destruct Ok as (Ok & _). destruct r; auto. }
  assert (Mem : forall ks pe c' o t0, lower e ks = Some pe -> p_step RServer pe (s_c x) = Some (c', o, t0) -> mem c').
  { intros ks pe c' o t0 G S. eapply step_mem; eauto. }
  destruct (p_step RServer pe0 (s_c x)) as [[[c0 os0] t0]|] eqn:E0; [|discriminate H].
  destruct (p_shape RServer (s_c x) e HI (ex_intro _ pe0 (conj El En))) as [(r & Hr & Hq)|(pre & n & c1 & Hpre & Tpre & Hat & Hn)].
  - rewrite (Hr _ _ El) in E0. destruct (Hq _ _ _ E0) as (C & T & I0 & Mv). destruct (clean_sum _ C) as (_ & Nn). rewrite Nn in H.
    injection H as <- <- <- <-. split.
    + split; [exact I0|]. split; [apply (Mem _ _ _ _ _ El (eq_trans (Hr _ _ El) E0))|].
      unfold corr in *. cbn [s_c x_c s_st]. destruct Mv as [-> | (B & _)]; [exact HC|]. rewrite B in HC. destruct (s_st x); discriminate HC.
    + left. exists c0. auto.
  - pose proof (Hn _ _ El) as N0. rewrite N0 in E0. destruct (noting_calls _ _ _ _ _ _ _ _ E0 Hpre Tpre) as (o0 & Eo & Ec0 & Nn & S0). rewrite Nn in H.
    set (b := rx_now (s_c x) e) in *. set (ok := match p_link (s_c x), s_w e with Some true, Some _ => true | _, _ => false end) in *.
    destruct (s_rand e) as [[rnd t1] t2] eqn:Ern.
    assert (Hb : bytes_ok (k_pkt b) /\ length (k_pkt b) = pktLen).
    { destruct e as [? ? ? ?|? ?|? ?|r w rnd0 ta tb tl us|?|?]; try (split; apply HM). destruct (rx_now_mem (s_c x) r w rnd0 ta tb tl us HM) as (A & B & _); [destruct Ok as (Ok & _); destruct r; auto|]. split; assumption. }
    assert (Hrnd : 0 <= rnd) by (destruct e; injection Ern as <- <- <-; try lia; apply Ok).
    assert (Hus : Forall body_ok (s_us e)) by (destruct e; cbn; auto; apply Ok).
    destruct (s_hear RServer x n b (s_w e) ok rnd t1 t2 (s_us e)) as [[[[x1 ks] ns'] thr]|] eqn:Eh; [|discriminate H].
    apply hear_cases in Eh; auto; [|apply Hb]. set (m := skipn (k_tail b) (k_pkt b)) in *.
    assert (Tm : p_timer c1 <> None /\ p_st c1 <> PsInit /\ p_link c1 <> None).
    { unfold has_io in HI. unfold at_note in Hat. destruct n.
      - destruct Hat as (A & B & C & D & _). rewrite A in HI. rewrite B, C. repeat split; [exact D|discriminate|apply HI].
      - destruct Hat as (A & -> & _). cbn. rewrite A in *. repeat split; try apply HI. discriminate.
      - destruct Hat as (A & B & C & D). rewrite B, C. repeat split; auto; discriminate.
      - destruct Hat as (A & B & C & D). rewrite B, C. repeat split; auto; discriminate. }
    destruct Tm as (Tm & Ti & Tl).
    assert (Nst : s_st x <> SInit /\ match n with NConnected => s_st x = SDial | NData _ => s_st x = SShake \/ s_st x = SEst | _ => True end).
    { unfold corr in HC. unfold at_note in Hat. destruct n; destruct Hat as (A & _); try rewrite A in HC; destruct (s_st x); try discriminate HC; split; auto; congruence. }
    destruct thr.
    + injection H as <- <- <- <-. inversion Eh; subst; try discriminate. destruct n; try contradiction.
      destruct Hat as (A & -> & _ & _). cbn [fin p_calls] in Ec0. cbn in Ec0. injection Ec0 as <- <- <-. cbn [app] in S0.
      split.
      * split; [unfold has_io in *; cbn; rewrite A in *; exact HI|]. split; [unfold mem; cbn; tauto|].
        unfold corr in *. cbn. rewrite H2. exact HC.
      * right. exists (NData m0), x1, [], [], true, (y_rx (y_rx (y_rx (s_c x) b) (sdu_reset b)) (mkSdu (s_tl e) (k_head b) (k_pkt b))).
        fold b m ok. split; [exact Eh|]. split; [reflexivity|]. split; [reflexivity|]. split; [reflexivity|]. split; [|split; [intros _ B; discriminate B|]].
        -- rewrite H2, sum_app, S0. destruct H1 as [-> | ->]; reflexivity.
        -- split; [|exact Nst]. revert Nn. generalize (pre ++ PNote (NData m0) :: []). clear. induction l as [|o l IH]; [discriminate|]. destruct o; cbn; auto.
    + destruct (lower e ks) as [pe|] eqn:Elk; [|discriminate H]. rewrite (Hn _ _ Elk) in H.
      destruct (noting RServer pre n ks c1) as [[[c2 os2] t3]|] eqn:E2; [|discriminate H]. injection H as <- <- <- <-.
      assert (M2 : mem c2) by (eapply Mem; [exact Elk|rewrite (Hn _ _ Elk); exact E2]).
      destruct (noting_calls _ _ _ _ _ _ _ _ E2 Hpre Tpre) as (o2 & Eo2 & _ & Nn2 & _).
      assert (Dn : forall P : Prop, (has_io c2 /\ p_st c2 = match s_st x1 with SInit => PsInit | SDial => PsShake | _ => PsConn end) -> t3 = false ->
         sum os2 = (pks ks, false, false, match s_st x1 with SInit => true | _ => false end) -> (talks n -> ended ns' = true -> In PShut os2) ->
         (has_io (s_c (x_c x1 c2)) /\ mem (s_c (x_c x1 c2)) /\ corr (x_c x1 c2)) /\ down_res x (x_c x1 c2) e os2 (heard n b ++ ns') t3).
      { intros _ (A & B) -> S Hs. split; [cbn [s_c x_c]; split; [exact A|]; split; [exact M2|exact B]|].
        right. exists n, x1, ks, ns', false, c2. fold b m ok. split; [exact Eh|]. split; [reflexivity|]. split; [destruct n; reflexivity|]. split; [reflexivity|]. split; [exact S|]. split; [exact Hs|]. split; [exact Nn2|exact Nst]. }
      assert (Stay : forall st, Forall is_send ks -> s_st x1 = st -> st <> SInit -> match n with NConnected | NData _ => True | _ => False end -> p_st c1 = match st with SDial => PsShake | _ => PsConn end -> ended ns' = false ->
         (has_io (s_c (x_c x1 c2)) /\ mem (s_c (x_c x1 c2)) /\ corr (x_c x1 c2)) /\ down_res x (x_c x1 c2) e os2 (heard n b ++ ns') t3).
      { intros st F Es Ns Hm Hc1 Hnd. destruct (noting_stay _ _ _ _ _ _ _ _ E2 Hpre Tpre F Tm Hm) as (A & B & C & D & L).
        apply (Dn True); auto; [|rewrite B, Es; destruct st; [congruence|reflexivity..]|intros _ B0; rewrite Hnd in B0; discriminate B0].
        rewrite Es. split; [unfold has_io; rewrite C, Hc1, L; destruct st; [congruence|split; auto..]|]. rewrite C, Hc1. destruct st; [congruence|reflexivity..]. }
      assert (Cls : forall l, ks = l ++ [KClose] -> Forall is_send l -> s_st x1 = SInit -> talks n -> pks l = pks ks ->
         (has_io (s_c (x_c x1 c2)) /\ mem (s_c (x_c x1 c2)) /\ corr (x_c x1 c2)) /\ down_res x (x_c x1 c2) e os2 (heard n b ++ ns') t3).
      { intros l -> F Es Hm Hp. destruct n; try contradiction.
        destruct (noting_close _ _ _ _ _ _ _ _ E2 Hpre Tpre F Tm Tl) as (A & B & C & D & G); [destruct Hat as (A & -> & _); exact A|].
        apply (Dn True); auto; [|rewrite B, Es, Hp; reflexivity]. rewrite Es. split; [unfold has_io; now rewrite C|exact C]. }
      assert (At : talks n -> p_st c1 = PsConn) by (intros B; destruct n; try contradiction; destruct Hat as (A & -> & _); exact A).
      assert (Pk : forall l, pks l = pks (l ++ [KClose])) by (intros l; unfold pks; rewrite flat_map_app; cbn; now rewrite app_nil_r).
      assert (StI : s_st x = SInit -> False).
      { intros B. unfold corr in HC. rewrite B in HC. unfold at_note in Hat. destruct n; destruct Hat as (A & _); congruence. }
      inversion Eh; subst.
      * apply (Stay (s_st x1)); auto; try (intros B; auto; fail).
        -- destruct n; auto.
        -- unfold at_note in Hat. unfold corr in HC. destruct n.
           ++ destruct Hat as (A & B & _). rewrite A in HC. destruct (s_st x1); try discriminate HC. congruence.
           ++ destruct Hat as (A & -> & _). cbn. rewrite A in *. destruct (s_st x1); try discriminate HC; reflexivity.
           ++ contradiction.
           ++ contradiction.
      * apply (Stay SShake); [constructor|reflexivity|discriminate|exact I|apply Hat|reflexivity].
      * destruct (bumps_same (s_us e) x) as (_ & _ & _). 
        destruct (noting_end _ _ _ _ _ _ _ _ E2 Hpre Tpre (msgs_send _ _) Tm Ti) as (A & B & C & D); [tauto|].
        apply (Dn True); auto; [split; [unfold has_io; now rewrite C|exact C]|]. intros B0. destruct H as [(-> & _)|(-> & _)]; contradiction.
      * apply (Stay SEst); [repeat constructor|reflexivity|discriminate|destruct n; auto|auto|reflexivity].
      * match goal with |- context [x_bump ?z] => eapply (Cls (_ :: msgs (x_bump z) (s_us e))) end; [reflexivity|constructor; [exact I|apply msgs_send]|reflexivity|assumption|apply Pk].
      * apply (Cls (msgs x (s_us e))); auto using msgs_send.
      * apply (Cls (msgs x (s_us e))); auto using msgs_send.
      * apply (Stay SEst); [apply msgs_send|reflexivity|discriminate|destruct n; auto|auto|reflexivity].
Qed.

(** * Histories *)
Definition numbered (a : Z) (l : list (list Z)) : Prop :=
  forall i p, nth_error l i = Some p -> pkt_seq p = (a + Z.of_nat i) mod 4294967296 /\ (is_opn p = true \/ is_msg p = true).
Lemma num_nil a : numbered a []. Proof. intros [|i] p H; discriminate H. Qed.
Lemma num_cons a p l : pkt_seq p = a mod 4294967296 -> is_opn p = true \/ is_msg p = true -> numbered (a + 1) l -> numbered a (p :: l).
Proof.
  intros H1 H2 H3 [|i] q H; cbn in H; [injection H as <-; split; [rewrite H1; f_equal; lia|auto]|].
  destruct (H3 i q H) as (A & B). split; [rewrite A; f_equal; lia|auto].
Qed.
Lemma num_app a l1 l2 : numbered a l1 -> numbered (a + Z.of_nat (length l1)) l2 -> numbered a (l1 ++ l2).
Proof.
  intros H1 H2 i p H. destruct (Nat.ltb_spec i (length l1)).
  - rewrite nth_error_app1 in H by auto. auto.
  - rewrite nth_error_app2 in H by auto. destruct (H2 _ _ H) as (A & B). split; [rewrite A; f_equal; lia|auto].
Qed.
Lemma num_mod a b l : a mod 4294967296 = b mod 4294967296 -> numbered a l -> numbered b l.
Proof. intros E H i p Hp. destruct (H i p Hp) as (A & B). split; [|auto]. rewrite A. rewrite <- Zplus_mod_idemp_l, E, Zplus_mod_idemp_l. reflexivity. Qed.
Lemma bumps_tx us : forall x, s_tx (bumps x us) mod 4294967296 = (s_tx x + Z.of_nat (length us)) mod 4294967296.
Proof.
  induction us as [|u us IH]; intros x; cbn [bumps length]; [now rewrite Z.add_0_r|]. rewrite IH. cbn [x_bump s_tx]. unfold u32. rewrite Zplus_mod_idemp_l. f_equal. lia.
Qed.
Lemma msgs_num us : forall x, s_ok x -> numbered (s_tx x) (pks (msgs x us)) /\ length (pks (msgs x us)) = length us.
Proof.
  induction us as [|u us IH]; intros x Hx; cbn [msgs pks flat_map app length]; [split; [apply num_nil|reflexivity]|]. fold (pks (msgs (x_bump x) us)).
  destruct (IH (x_bump x) (bump_ok _ Hx)) as (A & B). split; [|now rewrite B].
  destruct Hx as [X1 X2 X3 X4]. destruct (msgp_fields (s_id x) (s_tok x) (s_tx x) (s_req x) (fst u)) as (F1 & F2 & F3); auto.
  apply num_cons; [unfold pkt_seq; rewrite F2, F1; symmetry; apply Z.mod_small; exact X2|now right|].
  eapply num_mod; [|exact A]. cbn [x_bump s_tx]. unfold u32. now rewrite Z.mod_mod.
Qed.

Record SI (x : sch) (tr : strace) : Prop := {
  si_io : has_io (s_c x); si_mem : mem (s_c x); si_ok : s_ok x; si_corr : corr x;
  si_open : v_open (view tr) = match s_st x with SEst => true | _ => false end;
  si_view : s_st x = SEst -> v_id (view tr) = s_id x /\ v_tok (view tr) = s_tok x /\
     (forall q, v_last (view tr) = Some q -> q = s_rxn x) /\ (forall q, v_req (view tr) = Some q -> q = s_req x);
  si_tx : s_tx x = (1 + Z.of_nat (length (sent tr))) mod 4294967296;
  si_num : numbered 1 (sent tr);
  si_life : life false tr = Some (match s_st x with SInit => false | _ => true end)
}.
Lemma view_snoc tr y : view (tr ++ [y]) = view_next (view tr) y.
Proof. unfold view. now rewrite fold_left_app. Qed.
Lemma life_snoc tr y : forall b, life b (tr ++ [y]) = match life b tr with Some b' => life_next b' y | None => None end.
Proof. induction tr as [|z tr IH]; intros b; cbn; [destruct (life_next b y); reflexivity|]. destruct (life_next b z); auto. Qed.
Lemma sent_snoc tr e os ns : sent (tr ++ [(e, (os, ns))]) = sent tr ++ handed os.
Proof. unfold sent, souts, handed. rewrite map_app, concat_app, flat_map_app. cbn. now rewrite app_nil_r. Qed.

(** Changes of the sequence counter and the packets together. *)
Lemma tx_next tr l a b : a = (1 + Z.of_nat (length (sent tr))) mod 4294967296 -> numbered a l -> is_u32 b ->
  b mod 4294967296 = (a + Z.of_nat (length l)) mod 4294967296 -> numbered 1 (sent tr) ->
  b = (1 + Z.of_nat (length (sent tr ++ l))) mod 4294967296 /\ numbered 1 (sent tr ++ l).
Proof.
  intros Ha Hl Hu Hb Hn. split.
  - rewrite <- (Z.mod_small b 4294967296) by exact Hu. rewrite Hb, Ha, Zplus_mod_idemp_l, app_length. f_equal. lia.
  - apply num_app; [auto|]. eapply num_mod; [|exact Hl]. rewrite Ha. now rewrite Z.mod_mod.
Qed.

Lemma accept_run c tok : p_st c = PsInit -> p_step RServer (PvCall (KAccept tok)) c =
  Some (if tok then (mkP PsShake (Some (Some receiveTimeout)) (Some true) (sdu_reset (p_rx c)), [PUser (KAccept true); PLink; PTimer; PArm receiveTimeout], false)
        else (y_link c (Some true), [PUser (KAccept false); PLink; PThrow], true)).
Proof. destruct c as [st ti li rx]. cbn [p_st]. intros ->. destruct tok; reflexivity. Qed.

Lemma sum_inv os h t m f : sum os = (h, t, m, f) -> handed os = h /\ threw os = t /\ sees is_ptimer os = m /\ sees is_pfreed os = f.
Proof. unfold sum. intros H. injection H as <- <- <- <-. repeat split. Qed.

(** Life of a channel in one event that is not an open. *)
Lemma life_next_down e os ns st st' : (match e with SvOpen _ _ _ _ => False | _ => True end) -> sees is_ptimer os = false ->
  (st = SInit -> st' = SInit /\ ns = [] /\ sees is_pfreed os = false) ->
  (st <> SInit -> (st' = SInit /\ sees is_pfreed os = true /\ length (filter is_end ns) = 1%nat) \/ (st' <> SInit /\ sees is_pfreed os = false /\ filter is_end ns = [])) ->
  life_next (match st with SInit => false | _ => true end) (e, (os, ns)) = Some (match st' with SInit => false | _ => true end).
Proof.
  intros He Hm H0 H1. unfold life_next.
  assert (G0 : st = SInit -> match ns with [] => if sees is_pfreed os || sees is_ptimer os then None else Some false | _ => None end = Some (match st' with SInit => false | _ => true end)).
  { intros E. destruct (H0 E) as (-> & -> & ->). now rewrite Hm. }
  assert (G1 : st <> SInit -> (if sees is_ptimer os then None else match filter is_end ns with [] => if sees is_pfreed os then None else Some true | [_] => if sees is_pfreed os then Some false else None | _ => None end) = Some (match st' with SInit => false | _ => true end)).
  { intros E. rewrite Hm. destruct (H1 E) as [(-> & -> & L)|(N & -> & ->)]; [|destruct st'; [congruence|reflexivity..]].
    destruct (filter is_end ns) as [|a [|b l]]; try discriminate L. reflexivity. }
  destruct st; destruct e; try contradiction; first [apply G0; reflexivity|apply G1; discriminate].
Qed.

Lemma SI_step x tr e x' os ns t : SI x tr -> sev_ok e -> s_enabled x e = true -> s_step RServer x e = Some (x', (os, ns), t) ->
  SI x' (tr ++ [(e, (os, ns))]) /\ (lower e [] <> None -> down_res x x' e os ns t).
Proof.
  intros [IO ME OK CO VO VI TX NU LI] Ok En H.
  assert (Dn : s_down RServer x e = Some (x', (os, ns), t) -> match e with SvOpen _ _ _ _ => False | _ => True end -> SI x' (tr ++ [(e, (os, ns))]) /\ (lower e [] <> None -> down_res x x' e os ns t)).
  { clear H. intros H He. destruct (down_server x e x' os ns t IO ME OK CO Ok En H) as ((IO' & ME' & CO') & R). clear H. split; [|auto].
    destruct R as [(c' & -> & -> & Cl & ->)|(n & x1 & ks & ns' & thr & c' & Hc & -> & -> & -> & Su & _ & _ & Ni & Nw)].
    - destruct (clean_sum _ Cl) as (Su & _). apply sum_inv in Su as (S1 & S2 & S3 & S4). constructor; [exact IO'|exact ME'| |exact CO'|..].
      + destruct OK. now constructor.
      + rewrite view_snoc. exact VO.
      + rewrite view_snoc. exact VI.
      + rewrite sent_snoc, S1, app_nil_r. exact TX.
      + rewrite sent_snoc, S1, app_nil_r. exact NU.
      + rewrite life_snoc, LI. apply life_next_down; auto.
    - apply sum_inv in Su as (S1 & S2 & S3 & S4). rename x1 into y1. set (m := skipn _ _) in *. set (hd := match n with NData _ => [SHeard m] | _ => [] end).
      assert (Hend : forall l, filter is_end (hd ++ l) = filter is_end l) by (intros l; unfold hd; destruct n; reflexivity).
      assert (Hended : forall l, ended (hd ++ l) = ended l) by (intros l; unfold hd; destruct n; reflexivity).
      assert (Fin : s_ok y1 -> (numbered (s_tx x) (pks ks) /\ s_tx y1 mod 4294967296 = (s_tx x + Z.of_nat (length (pks ks))) mod 4294967296) ->
         (let v := view_next (view tr) (e, (os, hd ++ ns')) in v_open v = match s_st y1 with SEst => true | _ => false end /\
            (s_st y1 = SEst -> v_id v = s_id y1 /\ v_tok v = s_tok y1 /\ (forall q, v_last v = Some q -> q = s_rxn y1) /\ (forall q, v_req v = Some q -> q = s_req y1))) ->
         ((s_st y1 = SInit /\ length (filter is_end ns') = 1%nat) \/ (s_st y1 <> SInit /\ filter is_end ns' = [])) ->
         SI (x_c y1 c') (tr ++ [(e, (os, hd ++ ns'))])).
      { intros X1 (X2 & X3) (X4 & X5) X7. destruct (tx_next tr (pks ks) (s_tx x) (s_tx y1)) as (Y1 & Y2); auto; [apply X1|]. constructor; [exact IO'|exact ME'| |exact CO'|..].
        - destruct X1. now constructor.
        - rewrite view_snoc. exact X4.
        - rewrite view_snoc. exact X5.
        - rewrite sent_snoc, S1. exact Y1.
        - rewrite sent_snoc, S1. exact Y2.
        - rewrite life_snoc, LI. cbn [s_st x_c]. apply life_next_down; auto; [intros B; contradiction|]. intros _. rewrite Hend.
          destruct X7 as [(A & B)|(A & B)]; [left|right]; repeat split; auto; rewrite S4; [now rewrite A|destruct (s_st y1); [congruence|reflexivity..]]. }
      assert (Over : forall y, ended ns' = true -> s_ok y -> y1 = x_st (bumps y (s_us e)) SInit -> length (filter is_end ns') = 1%nat ->
         (numbered (s_tx x) (pks ks) /\ s_tx y1 mod 4294967296 = (s_tx x + Z.of_nat (length (pks ks))) mod 4294967296) -> SI (x_c y1 c') (tr ++ [(e, (os, hd ++ ns'))])).
      { intros y Ee Hy -> Le N. apply Fin; auto.
        - destruct (bumps_ok (s_us e) y Hy). now constructor.
        - cbv zeta. unfold view_next. rewrite Hended, Ee. split; [reflexivity|discriminate]. }
      assert (NumM : forall y, s_ok y -> numbered (s_tx y) (pks (msgs y (s_us e))) /\ s_tx (bumps y (s_us e)) mod 4294967296 = (s_tx y + Z.of_nat (length (pks (msgs y (s_us e))))) mod 4294967296).
      { intros y Hy. destruct (msgs_num (s_us e) y Hy) as (A & B). split; [exact A|]. rewrite B. apply bumps_tx. }
      assert (Pk : forall l, pks (l ++ [KClose]) = pks l) by (intros l; unfold pks; rewrite flat_map_app; cbn; now rewrite app_nil_r).
      assert (Num0 : numbered (s_tx x) (pks []) /\ s_tx x mod 4294967296 = (s_tx x + Z.of_nat (length (pks []))) mod 4294967296) by (split; [apply num_nil|cbn; now rewrite Z.add_0_r]).
      inversion Hc; subst; clear Hc.
      + apply Fin; auto.
        * destruct n; try contradiction. cbv zeta. assert (Ho : is_opn m = false) by (destruct H as [H|[H|(H & _)]]; [congruence|destruct Nw; congruence|exact H]).
          cbn [view_next hd ended existsb is_end app orb heard_of requested is_request]. rewrite Ho. split; auto.
      + apply Fin; auto; [destruct OK; now constructor| |right; split; [discriminate|reflexivity]].
        cbv zeta. cbn [view_next hd ended existsb app heard_of s_st x_st]. split; [|discriminate]. rewrite VO, H0. reflexivity.
      + destruct H as [(_ & ->)|(_ & ->)]; apply (Over x); auto; apply (NumM x OK).
      + destruct n; try contradiction. rename H3 into Hy. destruct (opn_fields (s_id x) (s_tx x) (open_req (skipn 12 m)) tok t1 t2 life (so_id _ Hy) (so_tx _ Hy) (so_tok _ Hy) (so_req _ Hy)) as (F1 & F2 & F3 & F4).
        apply Fin.
        * destruct Hy. constructor; auto. apply u32_ok.
        * cbn [pks flat_map app length]. split; [apply num_cons; [|auto|apply num_nil]|].
          -- match goal with |- pkt_seq ?p = _ => change p with (opn_pkt (s_id x) (s_tx x) (open_req (skipn 12 m)) tok t1 t2 life) end. unfold pkt_seq. rewrite F4, F2. symmetry. apply Z.mod_small. apply Hy.
          -- cbn [s_tx x_st x_bump x_opened]. unfold u32. now rewrite Z.mod_mod.
        * cbv zeta. cbn [view_next hd ended existsb is_end app orb heard_of]. rewrite H0, S1. cbn [pks flat_map app]. match goal with |- context [le_at 8 ?p] => change p with (opn_pkt (s_id x) (s_tx x) (open_req (skipn 12 m)) tok t1 t2 life) end. rewrite F1, F3.
          cbn [v_open v_id v_tok v_last v_req s_st x_st x_bump s_id s_tok s_rxn s_req]. split; [reflexivity|]. intros _. repeat split; intros q Hq; injection Hq as <-; reflexivity.
        * right. split; [discriminate|reflexivity].
      + subst y. rename H3 into Hy. destruct (opn_fields (s_id x) (s_tx x) (open_req (skipn 12 m)) tok t1 t2 life (so_id _ Hy) (so_tx _ Hy) (so_tok _ Hy) (so_req _ Hy)) as (F1 & F2 & F3 & F4).
        apply (Over (x_bump (x_opened x m life tok))); auto using bump_ok. destruct (NumM _ (bump_ok _ Hy)) as (A & B).
        set (pk := opn_pkt (s_id x) (s_tx x) (open_req (skipn 12 m)) tok t1 t2 life) in *.
        assert (E : pks (KSend pk (s_w e) :: msgs (x_bump (x_opened x m life tok)) (s_us e) ++ [KClose]) = pk :: pks (msgs (x_bump (x_opened x m life tok)) (s_us e))).
        { cbn [pks flat_map app]. f_equal. apply Pk. }
        assert (G : numbered (s_tx x) (pk :: pks (msgs (x_bump (x_opened x m life tok)) (s_us e))) /\
          s_tx (bumps (x_bump (x_opened x m life tok)) (s_us e)) mod 4294967296 = (s_tx x + Z.of_nat (length (pk :: pks (msgs (x_bump (x_opened x m life tok)) (s_us e))))) mod 4294967296).
        { split.
          - apply num_cons; [|auto|].
            + unfold pkt_seq. rewrite F4, F2. symmetry. apply Z.mod_small. apply Hy.
            + eapply num_mod; [|exact A]. cbn [x_bump s_tx x_opened]. unfold u32. now rewrite Z.mod_mod.
          - rewrite B. cbn [x_bump s_tx x_opened length]. unfold u32. rewrite Zplus_mod_idemp_l. f_equal. lia. }
        rewrite <- E in G. exact G.
      + destruct n; try contradiction. apply Fin; auto.
        * rewrite H5. exact Num0.
        * cbv zeta. cbn [view_next hd ended existsb is_end app orb heard_of]. rewrite H0, S1. first [match goal with E : true = threw os |- _ => rewrite <- E end|match goal with E : threw os = true |- _ => rewrite E end]. cbn [pks flat_map v_open v_id v_tok v_last v_req]. rewrite H2. split; [exact VO|].
          intros B. destruct (VI B) as (V1 & V2 & _). rewrite H4, H6. repeat split; auto; intros q Hq; discriminate Hq.
        * right. rewrite H2. auto.
      + apply (Over x); auto. rewrite Pk. apply (NumM x OK).
      + apply (Over x); auto. rewrite Pk. apply (NumM x OK).
      + destruct n; try contradiction.
        rename H5 into Hq.
        destruct (bumps_same (s_us e) y) as (B1 & B2 & B3 & B4 & B5 & B6 & B7).
        apply Fin.
        * destruct (bumps_ok (s_us e) y Hq). now constructor.
        * destruct (NumM y Hq) as (A & B). split; [exact A|exact B].
        * cbv zeta. cbn [view_next hd ended existsb is_end app orb heard_of requested is_request]. rewrite H0. cbn [v_open v_id v_tok v_last v_req s_st x_st s_id s_tok s_rxn s_req].
          rewrite B3, B4, B5, B7. cbn [y x_took s_id s_tok s_rxn s_req sq_num sq_req]. destruct (VI H3) as (V1 & V2 & _). split; [rewrite VO, H3; reflexivity|].
          intros _. repeat split; auto; intros q Hq'; injection Hq' as <-; reflexivity.
        * right. split; [discriminate|reflexivity]. }
  destruct e as [lok tok cok rnd|body w|w us|r w rnd t1 t2 tl us|us|us]; cbn [s_step] in H; try (apply Dn; [exact H|exact I]); clear Dn.
  - split; [|intros B; destruct B; reflexivity]. destruct (s_st x) eqn:Es.
    2, 3, 4: injection H as <- <- <- <-; constructor; auto; rewrite ?Es; auto; [rewrite view_snoc; exact VO|rewrite view_snoc; exact VI|rewrite sent_snoc, app_nil_r; exact TX|rewrite sent_snoc, app_nil_r; exact NU|rewrite life_snoc, LI; reflexivity].
    assert (Hc : p_st (s_c x) = PsInit) by (unfold corr in CO; rewrite Es in CO; exact CO).
    assert (Hid : is_u32 (rnd mod 2147483647)) by (unfold is_u32; cbn in Ok; lia).
    rewrite accept_run in H by exact Hc. destruct tok; injection H as <- <- <- <-.
    + constructor; try (rewrite view_snoc).
      * cbn. split; discriminate.
      * exact ME.
      * destruct OK. now constructor.
      * reflexivity.
      * exact VO.
      * discriminate.
      * rewrite sent_snoc. cbn [handed flat_map]. rewrite app_nil_r. exact TX.
      * rewrite sent_snoc. cbn [handed flat_map]. rewrite app_nil_r. exact NU.
      * rewrite life_snoc, LI. reflexivity.
    + constructor; try (rewrite view_snoc).
      * unfold has_io in *. cbn. rewrite Hc in *. exact IO.
      * exact ME.
      * destruct OK. now constructor.
      * unfold corr in *. cbn. rewrite Es in *. exact CO.
      * cbn [s_st x_c x_id]. rewrite Es. exact VO.
      * cbn [s_st x_c x_id]. rewrite Es. discriminate.
      * rewrite sent_snoc. cbn [handed flat_map]. rewrite app_nil_r. exact TX.
      * rewrite sent_snoc. cbn [handed flat_map]. rewrite app_nil_r. exact NU.
      * rewrite life_snoc, LI. cbn [s_st x_c x_id]. rewrite Es. reflexivity.
  - split; [|intros B; destruct B; reflexivity]. cbn in Ok. rewrite s_send_eq in H by auto. cbn [fst snd] in H.
    destruct (p_step RServer _ (s_c x)) as [[[c1 os1] t1]|] eqn:E1; [|discriminate H]. injection H as <- <- <- <-. cbn [p_step] in E1.
    destruct (send_run _ _ _ _ _ _ _ E1) as (-> & -> & Su). apply sum_inv in Su as (S1 & S2 & S3 & S4).
    destruct (msgp_fields (s_id x) (s_tok x) (s_tx x) (s_req x) body (so_id _ OK) (so_tok _ OK) (so_tx _ OK) (so_req _ OK)) as (F1 & F2 & F3).
    destruct (tx_next tr [msg_pkt (s_id x) (s_tok x) (s_tx x) (s_req x) body] (s_tx x) (s_tx (x_bump x))) as (Y1 & Y2); auto.
    + apply num_cons; [unfold pkt_seq; rewrite F2, F1; symmetry; apply Z.mod_small; apply OK|auto|apply num_nil].
    + cbn. apply u32_ok.
    + cbn [x_bump s_tx length]. unfold u32. now rewrite Z.mod_mod.
    + constructor; try (rewrite view_snoc); try (rewrite sent_snoc, S1); auto.
      * destruct OK. constructor; auto. apply u32_ok.
      * rewrite life_snoc, LI. apply life_next_down; [exact I|exact S3|auto|]. intros B. right. auto.
Qed.

Theorem reach_SI b0 ini x tr : sreach RServer b0 ini x tr -> SI x tr.
Proof.
  induction 1 as [Hb Hi|x tr e x' [os ns] t R IH Ok En St].
  - destruct ini as [[[[a b] c] d] f]. destruct Hi as (I1 & I2 & I3 & I4 & I5). constructor; try reflexivity.
    + destruct Hb as [Hl Hb]. split; [|exact Hb]. cbn [s_c sch_new conn0 p_rx k_pkt]. pose proof pktLen_Z. lia.
    + constructor; auto. unfold is_u32. cbn. lia.
    + discriminate.
    + apply num_nil.
  - eapply SI_step; eauto.
Qed.
