(** The connection under a channel is used as its library expects, for both roles. *)
From Verif Require Import Base ModbusCodecModel ModbusCodecSpec ModbusClientModel UaCodecModel UaCodecSpec UaCodecProofs ModbusClientProofs UaTcpModel UaTcpSpec UaTcpProofs UaTcpFacts
  UaChanModel UaChanSpec UaChanProofs ProtoConnModel ProtoConnSpec ProtoConnProofs ProtoConnFacts SecLibModel SecLibSpec SecLibProofs SecLibFacts.
Local Open Scope Z_scope.

Definition mild (k : pcall) : Prop := match k with KSend _ _ | KClose => True | _ => False end.
Lemma send_mild ks : Forall is_send ks -> Forall mild ks.
Proof. apply Forall_impl. intros []; cbn; tauto. Qed.
Lemma s_send_call x u x1 k : s_send x u = Some (x1, k) -> is_send k /\ s_c x1 = s_c x.
Proof. unfold s_send. destruct (tx_packet _ _); [|discriminate]. intros H. injection H as <- <-. split; [exact I|reflexivity]. Qed.
Lemma s_sends_calls us : forall x x1 ks, s_sends x us = Some (x1, ks) -> Forall is_send ks.
Proof.
  induction us as [|u us IH]; intros x x1 ks H; cbn [s_sends] in H; [injection H as <- <-; constructor|].
  destruct (s_send x u) as [[x2 k]|] eqn:E; [|discriminate H]. destruct (s_sends x2 us) as [[x3 l]|] eqn:E2; [|discriminate H]. injection H as <- <-.
  constructor; [eapply s_send_call; eauto|eauto].
Qed.
Lemma s_tell_calls role x pre n us ks st x1 l ns thr : Forall mild pre -> Forall mild ks -> s_tell role x pre n us ks st = Some (x1, l, ns, thr) ->
  Forall mild l /\ thr = false /\ ns = [n].
Proof.
  unfold s_tell. intros Hp Hk H. destruct (match role with RServer => s_sends x us | RClient => Some (x, []) end) as [[y sn]|] eqn:E; [|discriminate H].
  injection H as <- <- <- <-. split; [|split; reflexivity]. apply Forall_app. split; [auto|]. apply Forall_app. split; [|auto].
  destruct role; [injection E as <- <-; constructor|apply send_mild; eapply s_sends_calls; eauto].
Qed.
Ltac nothing_here H N0 := lazymatch type of H with Some (_, [], [], false) = _ => exact (N0 _ H) | _ => idtac end.
(** A channel only sends and closes, and closes only when told of data. *)
Lemma hear_calls role x n b w ok rnd t1 t2 us x1 ks ns thr : s_hear role x n b w ok rnd t1 t2 us = Some (x1, ks, ns, thr) ->
  Forall mild ks /\ (n = NConnected -> Forall is_send ks) /\ (thr = true -> talks n) /\ heard_of ns = None.
Proof.
  assert (M0 : Forall mild []) by constructor. assert (M1 : Forall mild [KClose]) by (repeat constructor).
  assert (MS : forall p, Forall mild [KSend p w]) by (repeat constructor).
  assert (N0 : forall y, Some (y, @nil pcall, @nil snote, false) = Some (x1, ks, ns, thr) -> Forall mild ks /\ (n = NConnected -> Forall is_send ks) /\ (thr = true -> talks n) /\ heard_of ns = None)
    by (intros y G; injection G as <- <- <- <-; split; [constructor|]; split; [constructor|]; split; [discriminate|reflexivity]).
  assert (TL : forall r y pre k u l st, Forall mild pre -> Forall mild l -> n <> NConnected -> heard_of [k] = None -> s_tell r y pre k u l st = Some (x1, ks, ns, thr) ->
     Forall mild ks /\ (n = NConnected -> Forall is_send ks) /\ (thr = true -> talks n) /\ heard_of ns = None).
  { intros r y pre k u l st Hp Hl Hn Hk G. apply s_tell_calls in G as (A & -> & ->); auto. split; [exact A|]. split; [congruence|]. split; [discriminate|exact Hk]. }
  intros H. unfold s_hear in H. destruct role, n.
  - destruct (s_st x); nothing_here H N0. destruct open_req_pkt; [|discriminate H]. injection H as <- <- <- <-. split; [auto|]. split; [repeat constructor|]; split; [discriminate|reflexivity].
  - destruct (s_st x); nothing_here H N0. destruct (_ <? 3)%nat; [discriminate H|]. destruct (has_octets _ _); [|(apply TL in H; [exact H|try apply MS; assumption|assumption|discriminate|reflexivity])].
    destruct (dec_open_rsp_pkt b); [exact (N0 _ H)| |discriminate H|discriminate H]. injection H as <- <- <- <-. split; [constructor|]. split; [constructor|]. split; [intros _; exact I|reflexivity].
  - destruct (s_st x); nothing_here H N0; (apply TL in H; [exact H|try apply MS; assumption|assumption|discriminate|reflexivity]).
  - destruct (s_st x); nothing_here H N0; (apply TL in H; [exact H|try apply MS; assumption|assumption|discriminate|reflexivity]).
  - destruct (s_st x); nothing_here H N0.
  - destruct (_ <? 3)%nat; [discriminate H|]. destruct (has_octets _ opn_type).
    + assert (G : s_open x b w ok rnd t1 t2 us = Some (x1, ks, ns, thr) -> Forall mild ks /\ (NData m = NConnected -> Forall is_send ks) /\ (thr = true -> talks (NData m)) /\ heard_of ns = None).
      { clear H. intros H. unfold s_open in H. destruct ((do h <- _; _) b) as [q b1| | |]; [|injection H as <- <- <- <-; split; [constructor|]; split; [constructor|]; split; [intros _; exact I|reflexivity]|discriminate H|discriminate H].
        destruct (dec_cont _ _ b1) as [r b2| | |]; [|injection H as <- <- <- <-; split; [constructor|]; split; [constructor|]; split; [intros _; exact I|reflexivity]|discriminate H|discriminate H].
        cbv zeta in H. destruct (open_rsp_pkt _ t1 t2); [|discriminate H]. destruct ok; [injection H as <- <- <- <-; split; [auto|]; split; [repeat constructor|]; split; [discriminate|reflexivity]|].
        (apply TL in H; [exact H|try apply MS; assumption|assumption|discriminate|reflexivity]). }
      destruct (s_st x); auto; exact (N0 _ H).
    + destruct (has_octets _ clo_type).
      * destruct (s_st x); nothing_here H N0. unfold s_close in H. destruct (s_check x b) as [[q|]|]; [| |discriminate H]; (apply TL in H; [exact H|try apply MS; assumption|assumption|discriminate|reflexivity]).
      * destruct (has_octets _ msg_type); [|exact (N0 _ H)]. destruct (s_st x); nothing_here H N0.
        unfold s_msg in H. destruct (s_check x b) as [[q|]|]; [| |discriminate H]; (apply TL in H; [exact H|try apply MS; assumption|assumption|discriminate|reflexivity]).
  - destruct (s_st x); nothing_here H N0; (apply TL in H; [exact H|try apply MS; assumption|assumption|discriminate|reflexivity]).
  - destruct (s_st x); nothing_here H N0; (apply TL in H; [exact H|try apply MS; assumption|assumption|discriminate|reflexivity]).
Qed.

(** ** What calls emit *)
Definition from (P : pcall -> Prop) (o : pout) : Prop := match o with PNote _ => False | PUser k => P k | _ => True end.
Lemma call_from role k c c' os t : p_call role k c = Some (c', os, t) -> Forall (from (eq k)) os.
Proof.
  intros H. destruct c as [st ti li rx]. destruct st, k; pstates; prun H; injection H as <- <- <-; repeat (apply Forall_cons; [exact eq_refl || exact I|]); constructor.
Qed.
Lemma calls_from role (P : pcall -> Prop) ks : forall c c' os t, Forall P ks -> p_calls role ks c = Some (c', os, t) -> Forall (from P) os.
Proof.
  induction ks as [|k ks IH]; intros c c' os t F H.
  - cbn in H. injection H as <- <- <-. constructor.
  - inversion F; subst. cbn [p_calls] in H. assert (G : forall o, Forall (from (eq k)) o -> Forall (from P) o).
    { intros o. apply Forall_impl. intros []; cbn; auto. intros <-; auto. }
    apply pseq_inv in H as [[H ->]|(c1 & o1 & o2 & H1' & H2' & ->)]; [eauto using call_from|]. apply Forall_app. split; [eauto using call_from|eauto].
Qed.
Lemma fin_from P n c c' os t : fin n c = Some (c', os, t) -> Forall (from P) os.
Proof.
  intros H. destruct c as [st ti li rx]. destruct n; cbn [fin] in H; destruct st; pstates; prun H; injection H as <- <- <-; repeat (apply Forall_cons; [exact I|]); constructor.
Qed.
Lemma clean_split pre n o a n' b : clean pre -> Forall (from (fun _ => True)) o -> pre ++ PNote n :: o = a ++ PNote n' :: b -> n' = n /\ b = o.
Proof.
  intros Hp Ho. revert a. induction pre as [|p pre IH]; intros a E.
  - destruct a as [|q a]; cbn in E; injection E as E1 E2; [subst; now split|].
    exfalso. rewrite E2 in Ho. apply Forall_app in Ho as [_ Ho]. inversion Ho; subst. contradiction.
  - unfold clean in Hp. cbn [forallb] in Hp. apply andb_prop in Hp as [P1 P2]. destruct a as [|q a]; cbn in E; injection E as E1 E2; [subst; discriminate P1|eauto].
Qed.
Lemma noting_mannered role pre n ks c1 c' os t : noting role pre n ks c1 = Some (c', os, t) -> clean pre -> threw pre = false ->
  Forall mild ks -> (n = NConnected -> Forall is_send ks) -> mannered os.
Proof.
  intros H C T F Fs. destruct (noting_calls _ _ _ _ _ _ _ _ H C T) as (o & -> & E & _ & _). clear H.
  assert (G : forall P : pcall -> Prop, Forall P ks -> Forall (from P) o).
  { intros P FP. apply pseq_inv in E as [[E ->]|(c2 & o1 & o2 & H1 & H2 & ->)]; [eapply calls_from; eauto|]. apply Forall_app. split; [eapply calls_from; eauto|eapply fin_from; eauto]. }
  intros a n' b Eb. apply clean_split in Eb as (-> & ->); [|exact C|].
  2:{ apply G. apply Forall_forall. auto. }
  destruct n; auto.
  - intros B. specialize (G _ (Fs eq_refl)). rewrite Forall_forall in G. apply (G _ B).
  - intros b1 b2 Eo q B. specialize (G _ F). rewrite Eo in G. apply Forall_app in G as [_ G]. inversion G as [|? ? _ G2]; subst. rewrite Forall_forall in G2. specialize (G2 _ B). destruct q as [k| | | | | | | | | | |]; auto. destruct k; auto.
  - intros b1 b2 Eo q B. specialize (G _ F). rewrite Eo in G. apply Forall_app in G as [_ G]. inversion G as [|? ? _ G2]; subst. rewrite Forall_forall in G2. specialize (G2 _ B). destruct q as [k| | | | | | | | | | |]; auto. destruct k; auto.
Qed.
Lemma clean_users os : clean os -> forall o, In o os -> ~ starts_anew o.
Proof. unfold clean. rewrite forallb_forall. intros H o Ho S. specialize (H o Ho). destruct o; try contradiction. discriminate H. Qed.
Lemma noting_users role pre n ks c1 c' os t : noting role pre n ks c1 = Some (c', os, t) -> clean pre -> threw pre = false ->
  Forall mild ks -> forall o, In o os -> ~ starts_anew o.
Proof.
  intros H C T F. destruct (noting_calls _ _ _ _ _ _ _ _ H C T) as (o & -> & E & _ & _). clear H.
  assert (G : Forall (from mild) o).
  { apply pseq_inv in E as [[E ->]|(c2 & o1 & o2 & H1 & H2 & ->)]; [eapply calls_from; eauto|]. apply Forall_app. split; [eapply calls_from; eauto|eapply fin_from; eauto]. }
  intros q B S. apply in_app_or in B as [B|[<-|B]]; [exact (clean_users _ C _ B S)|exact S|].
  rewrite Forall_forall in G. specialize (G _ B). destruct q as [k| | | | | | | | | | |]; auto. destruct k; auto.
Qed.
Lemma clean_mannered os : clean os -> mannered os.
Proof.
  intros C a n b ->. unfold clean in C. rewrite forallb_app in C. cbn in C. rewrite andb_false_r in C. discriminate C.
Qed.
Lemma call_mannered role k c c' os t : p_call role k c = Some (c', os, t) -> mannered os.
Proof.
  intros H a n b ->. apply call_from in H. apply Forall_app in H as [_ H]. inversion H; subst. contradiction.
Qed.

(** ** One event *)
Definition low (role : prole) (x x' : sch) (e : sev) (os : list pout) (ns : list snote) (t : bool) : Prop :=
  (s_c x' = s_c x /\ os = [] /\ ns = [] /\ t = false /\ match e with SvOpen _ _ _ _ | SvSend _ _ => True | _ => False end) \/
  exists pe, pev_ok pe /\ p_enabled (s_c x) pe = true /\ (lower e [] <> None -> (exists ks, lower e ks = Some pe) /\ forall o, In o os -> ~ starts_anew o) /\ (forall w, prx_next w (pe, os) = srx_next w (e, (os, ns))) /\
    ((p_step role pe (s_c x) = Some (s_c x', os, t) /\ mannered os /\ (heard_of ns <> None -> threw os = false)) \/
     exists c0 os0 b, p_step role pe (s_c x) = Some (c0, os0, false) /\ mannered os0 /\ os = os0 ++ [PThrow] /\ t = true /\ heard_of ns <> None /\
       p_st (s_c x) = PsConn /\ s_c x' = y_rx c0 b).
Lemma step_low role x e x' os ns t : has_io (s_c x) -> sev_ok e -> s_enabled x e = true -> s_step role x e = Some (x', (os, ns), t) -> low role x x' e os ns t.
Proof.
  intros HI Ok En H.
  assert (Dn : s_down role x e = Some (x', (os, ns), t) -> low role x x' e os ns t).
  { clear H. intros H. unfold s_down in H. unfold s_enabled in En.
    destruct (lower e []) as [pe0|] eqn:El; [|discriminate H]. cbv zeta in H.
    assert (Hpe : forall ks pe, lower e ks = Some pe -> pev_ok pe /\ p_enabled (s_c x) pe = true /\ forall w, prx_next w (pe, os) = srx_next w (e, (os, ns))).
    { intros ks pe G. destruct e; cbn in G, El; try discriminate G; injection G as <-; injection El as <-; (split; [try exact I|split; [exact En|reflexivity]]).
      destruct Ok as (Ok & _). destruct r; auto. }
    destruct (p_step role pe0 (s_c x)) as [[[c0 os0] t0]|] eqn:E0; [|discriminate H].
    right. destruct (p_shape role (s_c x) e HI (ex_intro _ pe0 (conj El En))) as [(r & Hr & Hq)|(pre & n & c1 & Hpre & Tpre & Hat & Hn)].
    - pose proof E0 as E1. rewrite (Hr _ _ El) in E1. destruct (Hq _ _ _ E1) as (C & T & I0 & Mv). destruct (clean_sum _ C) as (_ & Nn). rewrite Nn in H.
      injection H as <- <- <- <-. exists pe0. destruct (Hpe _ _ El) as (A & B & D). split; [exact A|]. split; [exact B|]. split; [intros _; split; [eauto|now apply clean_users]|]. split; [exact D|]. left.
      split; [exact E0|]. split; [now apply clean_mannered|]. cbn. congruence.
    - pose proof (Hn _ _ El) as N0. pose proof E0 as E1. rewrite N0 in E1. destruct (noting_calls _ _ _ _ _ _ _ _ E1 Hpre Tpre) as (o0 & Eo & Ec0 & Nn & S0). rewrite Nn in H.
      destruct (s_rand e) as [[rnd t1] t2] eqn:Ern.
      destruct (s_hear role x n _ (s_w e) _ rnd t1 t2 (s_us e)) as [[[[x1 ks] ns'] thr]|] eqn:Eh; [|discriminate H].
      destruct (hear_calls _ _ _ _ _ _ _ _ _ _ _ _ _ _ Eh) as (Mk & Mc & Tk & _). destruct thr.
      + injection H as <- <- <- <-. specialize (Tk eq_refl). destruct n; try contradiction. exists pe0. destruct (Hpe _ _ El) as (A & B & D).
        split; [exact A|]. split; [exact B|]. split; [intros _; split; [eauto|intros o Ho; apply in_app_or in Ho as [Ho|[<-|[]]]; [|intros BB; exact BB]; revert o Ho; eapply noting_users; eauto; constructor]|]. split; [exact D|]. right.
        assert (t0 = false) as ->. { clear - Ec0. cbn [fin p_calls] in Ec0. cbn in Ec0. injection Ec0 as _ _ <-. reflexivity. }
        eexists c0, os0, _. split; [exact E0|]. split; [eapply noting_mannered; eauto; constructor|]. split; [reflexivity|]. split; [reflexivity|].
        split; [discriminate|]. split; [apply Hat|reflexivity].
      + destruct (lower e ks) as [pe|] eqn:Elk; [|discriminate H].
        destruct (p_step role pe (s_c x)) as [[[c2 os2] t3]|] eqn:E2; [|discriminate H]. injection H as <- <- <- <-.
        exists pe. destruct (Hpe _ _ Elk) as (A & B & D). split; [exact A|]. split; [exact B|]. split; [intros _; split; [eauto|eapply noting_users; [rewrite <- (Hn _ _ Elk); exact E2|eauto..]]|]. split; [exact D|]. left. split; [exact E2|].
        rewrite (Hn _ _ Elk) in E2. split; [eapply noting_mannered; eauto|]. intros Hh.
        destruct (noting_calls _ _ _ _ _ _ _ _ E2 Hpre Tpre) as (o2 & Eo2 & Ec2 & _ & S2).
        apply sum_inv in S2 as (_ & -> & _). clear Eo2.
        assert (G : forall a b, Forall (from mild) a -> b = false -> b = false) by auto. clear G.
        assert (Hc1 : p_timer c1 <> None /\ p_link c1 <> None).
        { unfold has_io in HI. unfold at_note in Hat. destruct n.
          - destruct Hat as (A' & B' & C' & D' & _). rewrite A' in HI. rewrite C'. split; [exact D'|apply HI].
          - destruct Hat as (A' & -> & _). cbn. rewrite A' in HI. exact HI.
          - destruct Hat as (A' & B' & C' & D'). rewrite C'. split; [exact D'|discriminate].
          - destruct Hat as (A' & B' & C' & D'). rewrite C'. split; [exact D'|discriminate]. }
        clear - Ec2 Mk Hh. revert c1 o2 Ec2.
        assert (NT : forall k c c' os t, mild k -> p_call role k c = Some (c', os, t) -> threw os = t /\ t = false).
        { intros k c c' os t M H. destruct c as [st ti li rx]. destruct k; try contradiction; destruct st; pstates; prun H; injection H as <- <- <-; split; reflexivity. }
        assert (NF : forall n c c' os t, fin n c = Some (c', os, t) -> threw os = false).
        { intros m c c' os t H. destruct c as [st ti li rx]. destruct m; cbn [fin] in H; destruct st; pstates; prun H; injection H as <- <- <-; reflexivity. }
        induction ks as [|k ks IH]; intros c1 o2 Ec2.
        * cbn [p_calls] in Ec2. unfold pseq, pskip in Ec2. destruct (fin n c1) as [[[c5 o5] t5]|] eqn:E5; [|discriminate Ec2]. injection Ec2 as _ <- _. eapply NF; eauto.
        * inversion Mk; subst. cbn [p_calls] in Ec2. unfold pseq at 2 in Ec2. unfold pseq at 1 in Ec2.
          destruct (p_call role k c1) as [[[c3 o3] t4]|] eqn:E3; [|discriminate Ec2]. destruct (NT _ _ _ _ _ H1 E3) as (T3 & ->).
          destruct (p_calls role ks c3) as [[[c4 o4] t6]|] eqn:E4; [|discriminate Ec2].
          assert (G : exists o6, (p_calls role ks ;> fin n) c3 = Some (c2, o6, t3) /\ o2 = o3 ++ o6).
          { unfold pseq. rewrite E4. destruct t6; [injection Ec2 as <- <- <-; eauto|]. destruct (fin n c4) as [[[c5 o5] t5]|]; [|discriminate Ec2].
            injection Ec2 as <- <- <-. exists (o4 ++ o5). split; [reflexivity|now rewrite app_assoc]. }
          destruct G as (o6 & G & ->). unfold threw. rewrite existsb_app. fold (threw o3) (threw o6). rewrite T3. cbn [orb]. eapply IH; eauto. }
  destruct e as [lok tok cok rnd|body w|w us|r w rnd t1 t2 tl us|us|us]; cbn [s_step] in H; try (apply Dn; exact H); clear Dn.
  - destruct (s_st x); try (injection H as <- <- <- <-; left; repeat split).
    set (k := match role with RClient => KConnect lok tok cok | RServer => KAccept tok end) in *.
    destruct (p_step role (PvCall k) (s_c x)) as [[[c o] t0]|] eqn:E; [|discriminate H]. right. exists (PvCall k).
    assert (G : s_c x' = c /\ os = o /\ ns = [] /\ t = t0) by (destruct t0; injection H as <- <- <- <-; repeat split).
    destruct G as (G1 & -> & -> & ->). split; [exact I|]. split; [reflexivity|]. split; [intros B; destruct B; reflexivity|]. split; [reflexivity|]. left. rewrite G1. split; [exact E|]. split; [eapply call_mannered; exact E|]. cbn. congruence.
  - destruct role; [injection H as <- <- <- <-; left; repeat split|].
    destruct (s_send x (body, w)) as [[x1 k]|] eqn:Es; [|discriminate H]. destruct (p_step RServer (PvCall k) (s_c x)) as [[[c o] t0]|] eqn:E; [|discriminate H].
    injection H as <- <- <- <-. right. exists (PvCall k). split; [exact I|]. split; [reflexivity|]. split; [intros B; destruct B; reflexivity|]. split; [reflexivity|]. left. cbn [s_c x_c]. split; [exact E|]. split; [exact (call_mannered RServer k _ _ _ _ E)|]. cbn. congruence.
Qed.

Lemma io_J c : has_io c -> exists ph r, J c ph r.
Proof.
  unfold has_io, J. destruct (p_st c).
  - intros ->. exists Idle, None. auto.
  - intros [H1 H2]. destruct (p_timer c) as [r|]; [|congruence]. exists Trying, r. auto.
  - intros [H1 H2]. destruct (p_timer c) as [r|]; [|congruence]. exists Trying, r. auto.
  - intros [H1 H2]. destruct (p_timer c) as [r|]; [|congruence]. exists Up, r. auto.
Qed.
Lemma J_io c ph r : J c ph r -> has_io c.
Proof. unfold has_io, J. destruct (p_st c); intros (A & B & C); auto; split; auto; congruence. Qed.

(** ** Histories *)
Record SL (role : prole) (b0 : list Z) (x : sch) (tr : strace) : Prop := {
  sl_io : has_io (s_c x);
  sl_armed : dials (souts tr) -> A (s_c x);
  sl_conn : caught tr = false -> exists ptr, preach role b0 (s_c x) ptr /\ well_mannered ptr /\ pouts ptr = souts tr /\ unread ptr = sunread tr
}.
Lemma souts_snoc tr y : souts (tr ++ [y]) = souts tr ++ fst (snd y).
Proof. unfold souts. rewrite map_app, concat_app. cbn. now rewrite app_nil_r. Qed.
Lemma caught_snoc tr e os ns : caught (tr ++ [(e, (os, ns))]) = caught tr || (threw os && match heard_of ns with Some _ => true | None => false end).
Proof. unfold caught. rewrite existsb_app. cbn. now rewrite orb_false_r. Qed.
Lemma srx_none tr e : srx_next (sunread tr) (e, ([], [])) = match e with SvData (RxBytes bs) _ _ _ _ _ _ => sunread tr ++ bs | _ => sunread tr end.
Proof. destruct e as [| | |[]| |]; reflexivity. Qed.
Theorem reach_SL role b0 ini x tr : sreach role b0 ini x tr -> SL role b0 x tr.
Proof.
  induction 1 as [Hb Hi|x tr e x' [os ns] t R IH Ok En St].
  - destruct ini as [[[[a b] c] d] f]. constructor.
    + reflexivity.
    + intros _. exact I.
    + intros _. exists []. split; [constructor; auto|]. split; [constructor|]. split; reflexivity.
  - destruct IH as [IO AR CO]. pose proof (step_low _ _ _ _ _ _ _ IO Ok En St) as L. destruct (io_J _ IO) as (ph & r & HJ).
    destruct L as [(Ec & -> & -> & -> & Ne)|(pe & Pk & Pe & _ & Rx & [(Ps & Mn & Hh)|(c0 & os0 & b & Ps & Mn & -> & -> & Hh & Hs & Ec)])].
    + constructor; rewrite ?Ec; auto.
      * rewrite souts_snoc. cbn. rewrite app_nil_r. exact AR.
      * rewrite caught_snoc, orb_false_r. intros B. destruct (CO B) as (ptr & P1 & P2 & P3 & P4). exists ptr. rewrite souts_snoc. cbn [fst snd]. rewrite app_nil_r.
        repeat split; auto. unfold sunread. rewrite fold_left_app. cbn [fold_left]. fold (sunread tr). rewrite srx_none. destruct e; auto; contradiction.
    + destruct (step_ok _ _ _ _ _ _ _ _ HJ Pe Ps Mn) as (ph' & _ & J').
      constructor.
      * eapply J_io; eauto.
      * rewrite souts_snoc. cbn [fst snd]. intros B. apply dials_app in B as [B1 B2]. exact (step_A _ _ _ _ _ _ _ _ HJ (AR B1) Pe Ps Mn B2).
      * rewrite caught_snoc. intros B. apply orb_false_elim in B as [B _]. destruct (CO B) as (ptr & P1 & P2 & P3 & P4). exists (ptr ++ [(pe, os)]).
        split; [eapply pr_step; eauto|]. split; [apply Forall_app; split; [auto|constructor; [exact Mn|constructor]]|].
        split; [unfold pouts; rewrite map_app, concat_app, souts_snoc, <- P3; cbn; now rewrite app_nil_r|].
        unfold unread, sunread. rewrite !fold_left_app. cbn [fold_left]. fold (unread ptr) (sunread tr). rewrite P4. apply Rx.
    + destruct (step_ok _ _ _ _ _ _ _ _ HJ Pe Ps Mn) as (ph' & _ & J').
      constructor.
      * rewrite Ec. apply J_io in J'. exact J'.
      * rewrite souts_snoc. cbn [fst snd]. intros B. apply dials_app in B as [B1 B2]. apply dials_app in B2 as [B2 _]. rewrite Ec.
        assert (G : A c0) by (exact (step_A _ _ _ _ _ _ _ _ HJ (AR B1) Pe Ps Mn B2)). exact G.
      * rewrite caught_snoc. intros B. apply orb_false_elim in B as [_ B]. unfold threw in B. rewrite existsb_app in B. cbn in B. rewrite orb_true_r in B.
        destruct (heard_of ns); [discriminate B|congruence].
Qed.

(** ** What is heard *)
Lemma recv_tail c r c1 res : u_receive c r = Some (c1, res) -> k_tail (t_rx c1) = k_tail (t_rx c).
Proof.
  unfold u_receive. intros H. destruct (1024 <? _); [injection H as <- <-; reflexivity|]. destruct (t_link c) as [fd|]; [|discriminate H].
  destruct (if fd then r else RxErr) as [| |bs]; [injection H as <- <-; reflexivity..|].
  cbv zeta in H. destruct (_ <? 8); [injection H as <- <-; reflexivity|]. destruct (getMsgSizeFromHdr _); [|discriminate H].
  destruct (_ <? z); [injection H as <- <-; reflexivity|]. destruct (negb _); injection H as <- <-; reflexivity.
Qed.
Lemma heard_note role x e x' os ns t m : has_io (s_c x) -> s_enabled x e = true -> s_step role x e = Some (x', (os, ns), t) -> heard_of ns = Some m ->
  lower e [] <> None /\ exists h, In (PNote (NData (firstn h (k_pkt (rx_now (s_c x) e))))) os /\ p_st (s_c x) = PsConn /\
    m = skipn (k_tail (p_rx (s_c x))) (k_pkt (rx_now (s_c x) e)).
Proof.
  intros HI En H Hm.
  assert (Dn : s_down role x e = Some (x', (os, ns), t) -> lower e [] <> None /\ exists h, In (PNote (NData (firstn h (k_pkt (rx_now (s_c x) e))))) os /\ p_st (s_c x) = PsConn /\
    m = skipn (k_tail (p_rx (s_c x))) (k_pkt (rx_now (s_c x) e))).
  { clear H. intros H. unfold s_down in H. unfold s_enabled in En.
    destruct (lower e []) as [pe0|] eqn:El; [|discriminate H]. split; [discriminate|]. cbv zeta in H.
    destruct (p_step role pe0 (s_c x)) as [[[c0 os0] t0]|] eqn:E0; [|discriminate H].
    destruct (p_shape role (s_c x) e HI (ex_intro _ pe0 (conj El En))) as [(r & Hr & Hq)|(pre & n & c1 & Hpre & Tpre & Hat & Hn)].
    - rewrite (Hr _ _ El) in E0. destruct (Hq _ _ _ E0) as (C & T & I0 & Mv). destruct (clean_sum _ C) as (_ & Nn). rewrite Nn in H.
      injection H as <- <- <- <-. discriminate Hm.
    - pose proof (Hn _ _ El) as N0. rewrite N0 in E0. destruct (noting_calls _ _ _ _ _ _ _ _ E0 Hpre Tpre) as (o0 & Eo & Ec0 & Nn & S0). rewrite Nn in H.
      destruct (s_rand e) as [[rnd t1] t2] eqn:Ern.
      destruct (s_hear role x n _ (s_w e) _ rnd t1 t2 (s_us e)) as [[[[x1 ks] ns'] thr]|] eqn:Eh; [|discriminate H].
      assert (Hns : In (PNote n) os /\ ns = heard n (rx_now (s_c x) e) ++ ns').
      { destruct thr.
        - injection H as <- <- <- <-. split; [|reflexivity]. rewrite Eo, <- app_assoc. apply in_or_app. right. now left.
        - destruct (lower e ks) as [pe|] eqn:Elk; [|discriminate H]. rewrite (Hn _ _ Elk) in H.
          destruct (noting role pre n ks c1) as [[[c2 os2] t3]|] eqn:E2; [|discriminate H]. injection H as <- <- <- <-. split; [|reflexivity].
          destruct (noting_calls _ _ _ _ _ _ _ _ E2 Hpre Tpre) as (o2 & -> & _). apply in_or_app. right. now left. }
      destruct Hns as (Hin & ->). clear H.
      destruct n; cbn [heard app] in Hm.
      1, 3, 4: exfalso; destruct (hear_calls _ _ _ _ _ _ _ _ _ _ _ _ _ _ Eh) as (_ & _ & _ & B); congruence.
      destruct Hat as (A & _ & -> & Ev). cbn [heard_of] in Hm. injection Hm as <-. eexists. split; [exact Hin|]. split; [exact A|]. f_equal.
      destruct Ev as (rr & w & rn & ta & tb & tl & us & ->). unfold rx_now. unfold p_receive. destruct (u_receive _ rr) as [[ct rs]|] eqn:Er; [|reflexivity].
      cbn [pskip]. unfold pskip. cbn [p_rx y_rx]. apply recv_tail in Er. exact Er. }
  destruct e; cbn [s_step] in H; auto.
  - exfalso. destruct (s_st x); [|injection H as <- <- <- <-; discriminate Hm..]. destruct (p_step _ _ _) as [[[? ?] []]|]; [injection H as <- <- <- <-; discriminate Hm..|discriminate H].
  - exfalso. destruct role; [injection H as <- <- <- <-; discriminate Hm|]. destruct (s_send _ _) as [[? ?]|]; [|discriminate H].
    destruct (p_step _ _ _) as [[[? ?] ?]|]; [injection H as <- <- <- <-; discriminate Hm|discriminate H].
Qed.
