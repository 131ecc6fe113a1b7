(** Proofs about the secure channel library. *)
From Verif Require Import Base ModbusCodecModel ModbusCodecSpec ModbusClientModel UaCodecModel UaCodecSpec UaCodecProofs ModbusClientProofs UaTcpModel UaTcpSpec UaTcpProofs UaTcpFacts
  UaChanModel UaChanSpec UaChanProofs ProtoConnModel ProtoConnSpec ProtoConnProofs ProtoConnFacts SecLibModel SecLibSpec.
Local Open Scope Z_scope.

(** * The connection under a channel *)
(** Effects without notifications, calls, and changes of ownership. *)
Definition plainb (o : pout) : bool := match o with PNote _ | PUser _ | PFreed | PTimer => false | _ => true end.
Definition clean (os : list pout) : Prop := forallb plainb os = true.
Definition has_io (c : pconn) : Prop := match p_st c with PsInit => p_timer c = None | _ => p_timer c <> None /\ p_link c <> None end.
Definition moved (c c' : pconn) : Prop := p_st c' = p_st c \/ (p_st c = PsDial /\ p_st c' = PsShake).
(** What a connection does after the user has returned from a notification. *)
Definition fin (n : pnote) : pm := match n with NConnected => p_preact ;> p_start establishTimeout | NData _ => p_preact | _ => p_home end.
Definition noting (role : prole) (pre : list pout) (n : pnote) (ks : list pcall) (c1 : pconn) : pres :=
  match (p_calls role ks ;> fin n) c1 with None => None | Some (c2, o, t) => Some (c2, pre ++ PNote n :: o, t) end.
Definition at_note (c c1 : pconn) (n : pnote) (e : sev) : Prop :=
  match n with
  | NConnected => p_st c = PsShake /\ p_st c1 = PsConn /\ p_link c1 = p_link c /\ p_timer c1 <> None /\ exists r w rnd t1 t2 tl us, e = SvData r w rnd t1 t2 tl us
  | NData m => p_st c = PsConn /\ c1 = y_rx c (rx_now c e) /\ m = firstn (k_head (rx_now c e)) (k_pkt (rx_now c e)) /\ exists r w rnd t1 t2 tl us, e = SvData r w rnd t1 t2 tl us
  | NError => p_st c <> PsInit /\ p_st c1 = p_st c /\ p_link c1 = Some false /\ p_timer c1 <> None
  | NClosed => p_st c = PsConn /\ p_st c1 = PsConn /\ p_link c1 = Some false /\ p_timer c1 <> None
  end.
(** An event leads to no notification, or to one, and which does not depend on what is called from inside of it. *)
Definition no_note (role : prole) (c : pconn) (e : sev) : Prop :=
  exists r : pres, (forall ks pe, lower e ks = Some pe -> p_step role pe c = r) /\
    forall c' os t, r = Some (c', os, t) -> clean os /\ t = threw os /\ has_io c' /\ moved c c'.
Definition one_note (role : prole) (c : pconn) (e : sev) : Prop :=
  exists pre n c1, clean pre /\ threw pre = false /\ at_note c c1 n e /\ forall ks pe, lower e ks = Some pe -> p_step role pe c = noting role pre n ks c1.

Lemma seq_note a cb k c : (p_note a cb ;> k) c = match (cb ;> k) c with None => None | Some (c2, o, t) => Some (c2, PNote a :: o, t) end.
Proof.
  unfold p_note, pseq, pemit. destruct (cb c) as [[[c1 o1] []]|]; [reflexivity| |reflexivity].
  cbn. destruct (k c1) as [[[c2 o2] t]|]; reflexivity.
Qed.
Lemma shut_eq c : p_link c <> None -> p_shut c = Some (y_link c (Some false), [PShut], false).
Proof. intros H. unfold p_shut. destruct (p_link c); [reflexivity|congruence]. Qed.
Lemma shut_note role ks n c : p_link c <> None -> match n with NClosed | NError => True | _ => False end ->
  (p_shut ;> p_note n (p_calls role ks) ;> p_home) c = noting role [PShut] n ks (y_link c (Some false)).
Proof.
  intros Hl Hn. unfold pseq at 1. rewrite shut_eq by auto. rewrite seq_note. unfold noting.
  replace (fin n) with p_home by (destruct n; now try contradiction).
  destruct ((p_calls role ks ;> p_home) (y_link c (Some false))) as [[[c1 o1] t]|]; reflexivity.
Qed.
Lemma p_fail_eq role ks c : p_link c <> None -> p_fail (p_calls role ks) c = noting role [PShut] NError ks (y_link c (Some false)).
Proof. intros Hl. unfold p_fail. now apply shut_note. Qed.
Lemma seq_done a b c c1 o1 : a c = Some (c1, o1, false) -> (a ;> b) c = match b c1 with None => None | Some (c2, o2, t) => Some (c2, o1 ++ o2, t) end.
Proof. intros H. unfold pseq. now rewrite H. Qed.
Lemma stop_eq c : p_timer c <> None -> p_stop c = Some (y_timer c (Some None), [PDisarm], false).
Proof. intros H. unfold p_stop. destruct (p_timer c); [reflexivity|congruence]. Qed.
Lemma up_eq role ks c : p_st c = PsShake -> p_timer c <> None ->
  p_transit PsConn true (p_calls role ks) c = noting role [PDisarm] NConnected ks (y_st (y_timer c (Some None)) PsConn).
Proof.
  intros Hs Ht. unfold p_transit. rewrite Hs. cbn [pst_eqb p_exit p_enter]. rewrite (seq_done _ _ _ _ _ (stop_eq c Ht)).
  rewrite (seq_done _ _ _ (y_st (y_timer c (Some None)) PsConn) []) by reflexivity. rewrite seq_note. unfold noting.
  cbn [fin]. destruct ((p_calls role ks ;> p_preact ;> p_start establishTimeout) _) as [[[c1 o1] t]|]; reflexivity.
Qed.

Lemma rcv_eq r k c ct res : u_receive (mkT UConn (p_timer c) (p_link c) (p_rx c) None) r = Some (ct, res) ->
  p_receive r k c = k res (y_rx c (t_rx ct)) /\ forall w rnd t1 t2 tl us, rx_now c (SvData r w rnd t1 t2 tl us) = t_rx ct.
Proof. intros H. split; [unfold p_receive; now rewrite H|]. intros. unfold rx_now, p_receive. rewrite H. reflexivity. Qed.

Ltac quiet := left; eexists; split; [intros ks pe Hp; cbn [lower] in Hp; injection Hp as <-; cbn [p_step]|].
Ltac noted := intros ks pe Hp; cbn [lower] in Hp; injection Hp as <-; cbn [p_step].

Lemma noting_pre role o pre n ks c1 : match noting role pre n ks c1 with None => None | Some (c2, o2, t) => Some (c2, o ++ o2, t) end = noting role (o ++ pre) n ks c1.
Proof. unfold noting. destruct ((p_calls role ks ;> fin n) c1) as [[[c2 o2] t]|]; [|reflexivity]. now rewrite <- app_assoc. Qed.

Lemma p_shape role c e : has_io c -> (exists pe, lower e [] = Some pe /\ p_enabled c pe = true) -> no_note role c e \/ one_note role c e.
Proof.
  intros HI (pe0 & El & En).
  assert (Skip : forall (f : list pcall -> pev) c1, (forall ks pe, lower e ks = Some pe -> pe = f ks) -> (forall ks, p_step role (f ks) c = pskip c1) ->
    has_io c1 -> p_st c1 = p_st c -> no_note role c e).
  { intros f c1 Hf Hs Hi Hl. exists (pskip c1). split; [intros ks pe Hp; rewrite (Hf _ _ Hp); apply Hs|].
    intros c' os t Hc. unfold pskip in Hc. injection Hc as <- <- <-. exact (conj eq_refl (conj eq_refl (conj Hi (or_introl Hl)))). }
  assert (IO : p_st c <> PsInit -> p_timer c <> None /\ p_link c <> None) by (intros B; unfold has_io in HI; destruct (p_st c); [congruence|exact HI..]).
  assert (YX : forall b, has_io (y_rx c b)) by (intros b; exact HI).
  destruct e as [lok tok cok rnd|body w|w us|r w rnd t1 t2 tl us|us|us]; try discriminate El; cbn [lower] in El; injection El as <-; cbn [p_enabled] in En.
  - assert (Q0 : p_st c <> PsDial -> no_note role c (SvConnected w us)).
    { intros Hs. apply (Skip (fun ks => PvConnected w ks) c); auto; [intros ks pe Hp; injection Hp as <-; reflexivity|].
      intros ks. cbn [p_step]. destruct (p_st c); congruence. }
    destruct (p_st c) eqn:Es; try (left; apply Q0; discriminate). clear Skip Q0.
    destruct (IO ltac:(discriminate)) as (Ht & Hl). destruct (p_link c) as [fd|] eqn:Elk; [|congruence]. destruct fd; [|discriminate En].
    destruct w as [n|].
    + quiet; [rewrite Es; unfold p_send_enc; rewrite greeting_eq; unfold p_send; rewrite Elk; reflexivity|].
      intros c' os t Hc. destruct c as [st ti li rx]. cbn in Es, Elk, Ht. subst st li. destruct ti as [ti|]; [|congruence].
      cbv [pseq pemit p_transit p_exit p_stop p_enter p_start p_preact pset p_st p_timer p_link p_rx y_timer y_st y_rx pst_eqb app] in Hc.
      injection Hc as <- <- <-. split; [reflexivity|]. split; [reflexivity|]. split; [split; discriminate|right; split; reflexivity].
    + right. exists [PShut], NError, (y_link c (Some false)). split; [reflexivity|]. split; [reflexivity|]. split; [cbn; rewrite Es; repeat split; congruence|].
      noted. rewrite Es. unfold p_send_enc. rewrite greeting_eq. unfold p_send. rewrite Elk. apply p_fail_eq. congruence.
  - set (ev := SvData r w rnd t1 t2 tl us) in *.
    assert (Q0 : p_st c = PsInit \/ p_st c = PsDial -> no_note role c ev).
    { intros Hs. apply (Skip (fun ks => PvData r w ks) c); auto; [intros ks pe Hp; injection Hp as <-; reflexivity|].
      intros ks. cbn [p_step]. destruct Hs as [-> | ->]; reflexivity. }
    destruct (u_receive (mkT UConn (p_timer c) (p_link c) (p_rx c) None) r) as [[ct res]|] eqn:Er.
    2:{ destruct (p_st c) eqn:Es; try (left; apply Q0; auto; fail).
        all: quiet; [rewrite Es; unfold p_receive; rewrite Er; reflexivity|intros c' os t Hc; discriminate Hc]. }
    pose proof (fun k => proj1 (rcv_eq r k c ct res Er)) as RE. pose proof (proj2 (rcv_eq r (fun _ => pskip) c ct res Er) w rnd t1 t2 tl us) as RN. fold ev in RN.
    destruct (p_st c) eqn:Es; try (left; apply Q0; auto; fail); clear Q0; destruct (IO ltac:(discriminate)) as (Ht & Hl).
    + destruct res.
      * left. eexists. split; [noted; rewrite Es, RE; reflexivity|]. intros c' os t Hc. unfold pskip in Hc. injection Hc as <- <- <-.
        exact (conj eq_refl (conj eq_refl (conj (YX _) (or_introl eq_refl)))).
      * assert (F : forall b ks, p_fail (p_calls role ks) (y_rx (y_rx c (t_rx ct)) b) = noting role [PShut] NError ks (y_link (y_rx (y_rx c (t_rx ct)) b) (Some false))) by (intros; apply p_fail_eq; exact Hl).
        assert (FO : forall b, one_note role c ev \/ (forall ks, p_step role (PvData r w ks) c = p_fail (p_calls role ks) (y_rx (y_rx c (t_rx ct)) b)) -> one_note role c ev).
        { intros b [G|G]; [exact G|]. exists [PShut], NError, (y_link (y_rx (y_rx c (t_rx ct)) b) (Some false)). split; [reflexivity|]. split; [reflexivity|].
          split; [cbn; rewrite Es; repeat split; auto; congruence|]. intros ks pe Hp. injection Hp as <-. rewrite G. apply F. }
        assert (UO : forall b pre, clean pre -> threw pre = false -> (forall ks, p_step role (PvData r w ks) c = match p_transit PsConn true (p_calls role ks) (y_rx (y_rx c (t_rx ct)) b) with None => None | Some (c2, o2, t) => Some (c2, pre ++ o2, t) end) -> one_note role c ev).
        { intros b pre Hc Hp G. exists (pre ++ [PDisarm]), NConnected, (y_st (y_timer (y_rx (y_rx c (t_rx ct)) b) (Some None)) PsConn).
          split; [unfold clean in *; rewrite forallb_app, Hc; reflexivity|]. split; [unfold threw in *; rewrite existsb_app, Hp; reflexivity|]. split; [cbn; rewrite Es; split; [reflexivity|]; split; [reflexivity|]; split; [reflexivity|]; split; [discriminate|]; unfold ev; eauto 10|].
          intros ks pe Hq. injection Hq as <-. rewrite G, up_eq by (cbn; auto). apply noting_pre. }
        assert (Sh : forall ks, p_step role (PvData r w ks) c = p_shake role w (p_calls role ks) (y_rx c (t_rx ct))) by (intros; cbn [p_step]; rewrite Es, RE; reflexivity).
        assert (YY : forall b, y_rx (y_rx c (t_rx ct)) b = y_rx c b) by reflexivity.
        unfold p_shake in Sh. cbv zeta in Sh. cbn [p_rx y_rx] in Sh. destruct role.
        -- destruct (has_octets _ _) eqn:Eh.
           ++ destruct (dec_ack_msg (t_rx ct)) as [a b| | |] eqn:Ed.
              2, 3, 4: left; eexists; split; [intros ks pe Hp; injection Hp as <-; rewrite Sh; reflexivity|intros c' os t Hc; discriminate Hc].
              right. apply (UO b []); [reflexivity..|]. intros ks. rewrite Sh. unfold y_rx at 1 2. cbn [p_st p_timer p_link]. destruct (p_transit _ _ _ _) as [[[? ?] ?]|]; reflexivity.
           ++ right. apply (FO (t_rx ct)). right. intros ks. rewrite Sh. reflexivity.
        -- destruct (has_octets _ _) eqn:Eh.
           ++ destruct (dec_hello_msg (t_rx ct)) as [a b| | |] eqn:Ed.
              3, 4: left; eexists; split; [intros ks pe Hp; injection Hp as <-; rewrite Sh; reflexivity|intros c' os t Hc; discriminate Hc].
              ** unfold p_send_enc in Sh. rewrite ackp_eq in Sh. unfold p_send in Sh. cbn [y_rx p_link] in Sh.
                 destruct (p_link c) as [[]|] eqn:Elk; [|discriminate En|congruence]. destruct w as [nw|].
                 --- right. apply (UO b [PTx ack_packet (Nat.min nw (length ack_packet))]); [reflexivity..|]. intros ks. rewrite Sh. unfold pseq, pemit. reflexivity.
                 --- right. apply (FO b). right. intros ks. rewrite Sh. reflexivity.
              ** left. eexists. split; [intros ks pe Hp; injection Hp as <-; rewrite Sh; reflexivity|]. intros c' os t Hc. unfold pthrow in Hc. injection Hc as <- <- <-.
                 exact (conj eq_refl (conj eq_refl (conj (YX _) (or_introl eq_refl)))).
           ++ right. apply (FO (t_rx ct)). right. intros ks. rewrite Sh. reflexivity.
      * right. exists [PShut], NError, (y_link (y_rx c (t_rx ct)) (Some false)). split; [reflexivity|]. split; [reflexivity|]. split; [cbn; rewrite Es; repeat split; auto; congruence|].
        noted. rewrite Es, RE. apply p_fail_eq. exact Hl.
      * left. eexists. split; [noted; rewrite Es, RE; reflexivity|]. intros c' os t Hc. unfold pskip in Hc. injection Hc as <- <- <-. exact (conj eq_refl (conj eq_refl (conj (YX _) (or_introl eq_refl)))).
    + destruct res.
      * left. eexists. split; [noted; rewrite Es, RE; reflexivity|]. intros c' os t Hc. unfold pskip in Hc. injection Hc as <- <- <-.
        exact (conj eq_refl (conj eq_refl (conj (YX _) (or_introl eq_refl)))).
      * right. exists [], (NData (firstn (k_head (t_rx ct)) (k_pkt (t_rx ct)))), (y_rx c (t_rx ct)). split; [reflexivity|]. split; [reflexivity|].
        split; [cbn [at_note]; rewrite RN; unfold ev; repeat split; eauto 10|]. noted. rewrite Es, RE. rewrite seq_note. unfold noting. cbn [fin]. reflexivity.
      * right. exists [PShut], NError, (y_link (y_rx c (t_rx ct)) (Some false)). split; [reflexivity|]. split; [reflexivity|]. split; [cbn; rewrite Es; repeat split; auto; congruence|].
        noted. rewrite Es, RE. apply p_fail_eq. exact Hl.
      * left. eexists. split; [noted; rewrite Es, RE; reflexivity|]. intros c' os t Hc. unfold pskip in Hc. injection Hc as <- <- <-. exact (conj eq_refl (conj eq_refl (conj (YX _) (or_introl eq_refl)))).
  - destruct (pst_eqb (p_st c) PsDial) eqn:Es.
    + assert (p_st c = PsDial) as Es' by (destruct (p_st c); [discriminate Es|reflexivity|discriminate Es|discriminate Es]). destruct (IO ltac:(congruence)) as (Ht & Hl).
      right. exists [], NError, (y_link c (Some false)). split; [reflexivity|]. split; [reflexivity|]. split; [cbn; rewrite Es'; repeat split; auto; congruence|].
      noted. rewrite Es', seq_note. unfold noting. cbn [fin]. reflexivity.
    + left. apply (Skip (fun ks => PvError ks) (y_link c (Some false))); auto; [intros ks pe Hp; injection Hp as <-; reflexivity| |].
      * intros ks. cbn [p_step]. destruct (p_st c); [reflexivity|discriminate Es|reflexivity|reflexivity].
      * unfold has_io in *. cbn [p_st y_link p_timer p_link]. destruct (p_st c); [exact HI|..]; (split; [apply HI|discriminate]).
  - destruct (p_timer c) as [[tm|]|] eqn:Etm; try discriminate En.
    assert (p_st c <> PsInit) as N0 by (intros B; unfold has_io in HI; rewrite B in HI; congruence). destruct (IO N0) as (Ht & Hl). right.
    destruct (pst_eqb (p_st c) PsConn) eqn:E1.
    + assert (p_st c = PsConn) as Es by (destruct (p_st c); [discriminate E1..|reflexivity]).
        exists [PShut], NClosed, (y_link (y_timer c (Some None)) (Some false)). split; [reflexivity|]. split; [reflexivity|]. split; [cbn; rewrite Es; repeat split; auto; congruence|].
        noted. rewrite Es. apply shut_note; [exact Hl|exact I].
    + exists [PShut], NError, (y_link (y_timer c (Some None)) (Some false)). split; [reflexivity|]. split; [reflexivity|]. split; [cbn; repeat split; auto; congruence|].
        noted. destruct (p_st c); [congruence| | |discriminate E1]; apply p_fail_eq; exact Hl.
Qed.

(** ** The receive buffer keeps its size *)
Definition mem (c : pconn) : Prop := length (k_pkt (p_rx c)) = pktLen /\ bytes_ok (k_pkt (p_rx c)).
Definition keeps (m : pm) : Prop := forall c c' os t, m c = Some (c', os, t) -> k_pkt (p_rx c') = k_pkt (p_rx c).
Lemma k_seq a b : keeps a -> keeps b -> keeps (a ;> b).
Proof. intros Ha Hb c c' os t H. apply pseq_inv in H as [[H ->]|(c1 & o1 & o2 & H1 & H2 & ->)]; [eapply Ha; eauto|]. rewrite (Hb _ _ _ _ H2). eapply Ha; eauto. Qed.
Lemma k_skip : keeps pskip. Proof. intros c c' os t H. now injection H as <- _ _. Qed.
Lemma k_emit o : keeps (pemit o). Proof. intros c c' os t H. now injection H as <- _ _. Qed.
Lemma k_throw : keeps pthrow. Proof. intros c c' os t H. now injection H as <- _ _. Qed.
Lemma k_set f : (forall c, k_pkt (p_rx (f c)) = k_pkt (p_rx c)) -> keeps (pset f).
Proof. intros Hf c c' os t H. injection H as <- _ _. apply Hf. Qed.
Lemma k_shut : keeps p_shut.
Proof. intros c c' os t H. unfold p_shut in H. destruct (p_link c); [|discriminate H]. revert H. apply k_seq; [apply k_set; reflexivity|apply k_emit]. Qed.
Lemma k_stop : keeps p_stop.
Proof. intros c c' os t H. unfold p_stop in H. destruct (p_timer c); [|discriminate H]. revert H. apply k_seq; [apply k_set; reflexivity|apply k_emit]. Qed.
Lemma k_start us : keeps (p_start us).
Proof. intros c c' os t H. unfold p_start in H. destruct (p_timer c); [|discriminate H]. revert H. apply k_seq; [apply k_set; reflexivity|apply k_emit]. Qed.
Lemma k_dial ok : keeps (p_dial ok).
Proof. intros c c' os t H. unfold p_dial in H. destruct (p_link c); [|discriminate H]. destruct ok; [revert H; apply k_seq; [apply k_set; reflexivity|apply k_emit]|now apply k_throw in H]. Qed.
Lemma k_release : keeps p_release. Proof. apply k_seq; [apply k_set; reflexivity|apply k_emit]. Qed.
Lemma k_preact : keeps p_preact. Proof. apply k_set; reflexivity. Qed.
Lemma k_calls role ks : keeps (p_calls role ks).
Proof. intros c c' os t H. apply (calls_D _ _ _ _ _ _ H). Qed.
Lemma k_transit st cok cb : keeps cb -> keeps (p_transit st cok cb).
Proof.
  intros Hc c c' os t H. unfold p_transit in H. destruct (pst_eqb (p_st c) st); [now injection H as <- _ _|]. revert H.
  apply k_seq; [destruct (p_st c); [apply k_skip|apply k_stop..]|]. apply k_seq; [apply k_set; reflexivity|].
  destruct st; cbn [p_enter].
  - apply k_release.
  - apply k_seq; [apply k_dial|apply k_start].
  - apply k_seq; [apply k_start|apply k_preact].
  - apply k_seq; [apply k_seq; [apply k_emit|exact Hc]|]. apply k_seq; [apply k_preact|apply k_start].
Qed.
Lemma k_fail cb : keeps cb -> keeps (p_fail cb).
Proof. intros Hc. apply k_seq; [apply k_shut|]. apply k_seq; [apply k_seq; [apply k_emit|exact Hc]|]. apply k_transit, k_skip. Qed.
Lemma k_send_enc e w k : (forall ok, keeps (k ok)) -> keeps (p_send_enc e w k).
Proof.
  intros Hk c c' os t H. unfold p_send_enc, p_send in H. destruct (tx_packet e []); [|discriminate H]. destruct (p_link c) as [fd|]; [|discriminate H].
  destruct (if fd then w else None); [|now apply Hk in H]. revert H. apply k_seq; [apply k_emit|apply Hk].
Qed.
Lemma k_shake role w cb : keeps cb -> keeps (p_shake role w cb).
Proof.
  intros Hc c c' os t H. unfold p_shake in H. cbv zeta in H. destruct role.
  - destruct (has_octets _ _); [|now apply k_fail in H]. destruct (dec_ack_msg (p_rx c)) as [a b| | |] eqn:Ed; [|discriminate H..].
    apply k_transit in H; [|exact Hc]. rewrite H. cbn. eapply dec_ack_pkt; eauto.
  - destruct (has_octets _ _); [|now apply k_fail in H]. pose proof (throw_or_ok_hello (p_rx c)) as TH.
    destruct (dec_hello_msg (p_rx c)) as [a b| | |] eqn:Ed; [| |discriminate H|discriminate H].
    + apply k_send_enc in H; [rewrite H; cbn; tauto|]. intros []; [now apply k_transit|now apply k_fail].
    + apply k_throw in H. rewrite H. reflexivity.
Qed.
Lemma recv_mem c r c1 res : length (k_pkt (t_rx c)) = pktLen -> bytes_ok (k_pkt (t_rx c)) -> lrx_ok r -> u_receive c r = Some (c1, res) ->
  length (k_pkt (t_rx c1)) = pktLen /\ bytes_ok (k_pkt (t_rx c1)) /\ k_tail (t_rx c1) = k_tail (t_rx c).
Proof.
  intros HL HB Hr H. pose proof pktLen_Z as PZ. unfold u_receive in H.
  destruct (Z.ltb_spec 1024 (Z.of_nat (k_head (t_rx c)))) as [H1|H1]; [apply some2 in H as (<- & <-); auto|].
  destruct (t_link c) as [fd|]; [|discriminate H]. destruct (if fd then r else RxErr) as [| |bs] eqn:E; [apply some2 in H as (<- & <-); auto..|].
  assert (bytes_ok bs) as Hbs by (destruct fd; [subst r; exact Hr|discriminate E]).
  set (m := buf_write _ _ _) in H.
  assert (Hm : length m = pktLen) by (unfold m; rewrite bw_length; rewrite ?firstn_length; lia).
  assert (Hmb : bytes_ok m) by (apply bw_bytes; [auto|now apply firstn_bytes]).
  set (n := (k_head (t_rx c) + _)%nat) in H. clearbody m n.
  destruct (Z.of_nat n <? 8); [apply some2 in H as (<- & <-); auto|]. destruct (getMsgSizeFromHdr _) as [size|]; [|discriminate H].
  destruct (Z.of_nat n <? size); [apply some2 in H as (<- & <-); auto|]. destruct (Z.of_nat n =? size); apply some2 in H as (<- & <-); auto.
Qed.
Lemma step_mem role e c c' os t : mem c -> pev_ok e -> p_step role e c = Some (c', os, t) -> mem c'.
Proof.
  intros [HL HB] Ok H. destruct e as [k|w us|r w us|us|us]; cbn [p_step] in H.
  - destruct (call_D _ _ _ _ _ _ H) as (_ & K & _). unfold mem. now rewrite K.
  - unfold mem. destruct (p_st c); try (apply k_skip in H; now rewrite H).
    apply k_send_enc in H; [now rewrite H|]. intros []; [apply k_transit, k_skip|apply k_fail, k_calls].
  - assert (R : forall k, (forall res, keeps (k res)) -> p_receive r k c = Some (c', os, t) -> mem c').
    { intros k Hk G. unfold p_receive in G. destruct (u_receive _ r) as [[ct res]|] eqn:Er; [|discriminate G]. apply Hk in G.
      apply recv_mem in Er; [|exact HL|exact HB|destruct r; exact Ok || exact I]. unfold mem. rewrite G. cbn. tauto. }
    destruct (p_st c); try (apply k_skip in H; unfold mem; now rewrite H).
    + apply R in H; [exact H|]. intros []; [apply k_skip|apply k_shake, k_calls|apply k_fail, k_calls|apply k_skip].
    + apply R in H; [exact H|]. intros []; [apply k_skip| |apply k_fail, k_calls|apply k_skip].
      intros d d' o0 t0 G. revert G. apply k_seq; [apply k_seq; [apply k_emit|apply k_calls]|apply k_preact].
  - unfold mem. destruct (p_st c); try (apply k_skip in H; now rewrite H).
    apply k_seq in H; [now rewrite H|apply k_seq; [apply k_emit|apply k_calls]|apply k_transit, k_skip].
  - unfold mem. destruct (p_st c); [apply k_skip in H; now rewrite H|apply k_fail in H; [now rewrite H|apply k_calls]..|].
    apply k_seq in H; [now rewrite H|apply k_shut|]. apply k_seq; [apply k_seq; [apply k_emit|apply k_calls]|apply k_transit, k_skip].
Qed.
Lemma rx_now_mem c r w rnd t1 t2 tl us : mem c -> lrx_ok r -> let b := rx_now c (SvData r w rnd t1 t2 tl us) in
  length (k_pkt b) = pktLen /\ bytes_ok (k_pkt b) /\ k_tail b = k_tail (p_rx c).
Proof.
  intros [HL HB] Hr. cbv zeta. unfold rx_now, p_receive. destruct (u_receive _ r) as [[ct res]|] eqn:Er; [|auto].
  apply recv_mem in Er; auto.
Qed.

(** * Packets *)
Lemma wf_uh ty id : length ty = 3%nat -> bytes_ok ty -> is_u32 id -> wf_uhdr (mkUh ty 70 0 id).
Proof. intros H1 H2 H3. unfold wf_uhdr. cbn [uh_type uh_final uh_size uh_chan]. split; [split; assumption|]. split; [unfold is_byte; lia|]. split; [unfold is_u32; lia|assumption]. Qed.
Ltac byte3 := unfold msg_type, opn_type, clo_type; repeat (apply Forall_cons; [unfold is_byte; lia|]); constructor.
Lemma msg_pkt_eq id tok seq req body : is_u32 id -> Z.of_nat (length body) <= 4072 ->
  tx_packet (enc_uhdr (mkUh msg_type 70 0 id) ;; enc_tokhdr (mkTh tok) ;; enc_seqhdr (mkSq seq req)) body = Some (msg_pkt id tok seq req body).
Proof.
  intros Hi Hl.
  assert (W : Wr (enc_uhdr (mkUh msg_type 70 0 id) ;; enc_tokhdr (mkTh tok) ;; enc_seqhdr (mkSq seq req))
     (s_uhdr (mkUh msg_type 70 0 id) ++ le_bytes 4 tok ++ le_bytes 4 seq ++ le_bytes 4 req)).
  { apply Wr_seq; [apply W_uhdr, wf_uh; auto; byte3|]. apply Wr_seq; [apply W_tok|apply W_seq]. }
  assert (L : length (s_uhdr (mkUh msg_type 70 0 id) ++ le_bytes 4 tok ++ le_bytes 4 seq ++ le_bytes 4 req) = 24%nat) by (rewrite !app_length, !le_bytes_length; reflexivity).
  rewrite (tx_packet_eq _ _ body W) by lia. f_equal. rewrite L. unfold s_uhdr. cbn [uh_type uh_final uh_size uh_chan app firstn skipn msg_type le_bytes]. unfold msg_pkt.
  replace (Z.of_nat (24 + length body)) with (24 + Z.of_nat (length body)) by lia. reflexivity.
Qed.

Lemma opn_pkt_eq id seq req tok t1 t2 life : is_u32 id ->
  tx_packet (enc_uhdr (mkUh opn_type 70 0 id) ;; open_rsp_octets id seq req 0 tok t1 t2 life) [] = Some (opn_pkt id seq req tok t1 t2 life).
Proof.
  intros Hi.
  assert (W : Wr (enc_uhdr (mkUh opn_type 70 0 id) ;; open_rsp_octets id seq req 0 tok t1 t2 life)
     (s_uhdr (mkUh opn_type 70 0 id) ++ open_rsp id seq req 0 tok t1 t2 life)).
  { apply Wr_seq; [apply W_uhdr, wf_uh; auto; byte3|]. apply W_open. }
  pose proof (open_len id seq req 0 tok t1 t2 life) as Lo. unfold opn_pkt. set (body := open_rsp id seq req 0 tok t1 t2 life) in *. clearbody body.
  assert (L : length (s_uhdr (mkUh opn_type 70 0 id) ++ body) = 135%nat) by (rewrite app_length, Lo; reflexivity).
  rewrite (tx_packet_eq _ _ [] W) by (cbn [length]; lia). f_equal. rewrite L. unfold s_uhdr. cbn [uh_type uh_final uh_size uh_chan app firstn skipn opn_type le_bytes].
  rewrite app_nil_r. reflexivity.
Qed.
Lemma opn_fields id seq req tok t1 t2 life : is_u32 id -> is_u32 seq -> is_u32 tok -> is_u32 req ->
  let p := opn_pkt id seq req tok t1 t2 life in le_at 8 p = id /\ le_at 71 p = seq /\ le_at 115 p = tok /\ is_opn p = true.
Proof.
  intros H1 H2 H3 H4. destruct (open_fields id seq req 0 tok t1 t2 life H2 H3 H4) as (A & B & _). cbv zeta. unfold opn_pkt.
  split; [apply (le_at_app 8 ([79; 80; 78; 70] ++ le_bytes 4 135)); auto|].
  set (body := open_rsp id seq req 0 tok t1 t2 life) in *. clearbody body.
  assert (S : forall i, le_at (12 + i) ([79; 80; 78; 70] ++ le_bytes 4 135 ++ le_bytes 4 id ++ body) = le_at i body) by (intros i; rewrite <- le_at_skip; reflexivity).
  split; [exact (eq_trans (S 59%nat) A)|]. split; [exact (eq_trans (S 103%nat) B)|reflexivity].
Qed.
Lemma msgp_fields id tok seq req body : is_u32 id -> is_u32 tok -> is_u32 seq -> is_u32 req ->
  let p := msg_pkt id tok seq req body in le_at 16 p = seq /\ is_opn p = false /\ is_msg p = true.
Proof.
  intros H1 H2 H3 H4. cbv zeta. split; [|split; reflexivity]. unfold msg_pkt.
  apply (le_at_app 16 ([77; 83; 71; 70] ++ le_bytes 4 (24 + Z.of_nat (length body)) ++ le_bytes 4 id ++ le_bytes 4 tok)); auto.
Qed.

(** * What the server does when notified *)
Record s_ok (x : sch) : Prop := { so_id : is_u32 (s_id x); so_tx : is_u32 (s_tx x); so_req : is_u32 (s_req x); so_tok : is_u32 (s_tok x) }.
Lemma u32_ok v : is_u32 (u32 v). Proof. unfold is_u32, u32. lia. Qed.
Lemma bump_ok x : s_ok x -> s_ok (x_bump x). Proof. intros []. constructor; cbn; auto using u32_ok. Qed.
Fixpoint bumps (x : sch) (us : list (list Z * option nat)) : sch := match us with [] => x | _ :: r => bumps (x_bump x) r end.
Fixpoint msgs (x : sch) (us : list (list Z * option nat)) : list pcall :=
  match us with [] => [] | u :: r => KSend (msg_pkt (s_id x) (s_tok x) (s_tx x) (s_req x) (fst u)) (snd u) :: msgs (x_bump x) r end.
Lemma s_send_eq x u : s_ok x -> body_ok u -> s_send x u = Some (x_bump x, KSend (msg_pkt (s_id x) (s_tok x) (s_tx x) (s_req x) (fst u)) (snd u)).
Proof. intros [] [Hb Hl]. unfold s_send. now rewrite msg_pkt_eq. Qed.
Lemma s_sends_eq us : forall x, s_ok x -> Forall body_ok us -> s_sends x us = Some (bumps x us, msgs x us).
Proof.
  induction us as [|u us IH]; intros x Hx Hu; [reflexivity|]. inversion Hu; subst. cbn [s_sends]. rewrite s_send_eq by auto.
  rewrite IH by auto using bump_ok. reflexivity.
Qed.
Lemma bumps_ok us : forall x, s_ok x -> s_ok (bumps x us).
Proof. induction us as [|u us IH]; intros x Hx; cbn; auto using bump_ok. Qed.
Lemma bumps_same us : forall x, let y := bumps x us in s_st y = s_st x /\ s_c y = s_c x /\ s_id y = s_id x /\ s_rxn y = s_rxn x /\ s_req y = s_req x /\ s_life y = s_life x /\ s_tok y = s_tok x.
Proof. induction us as [|u us IH]; intros x; [now repeat split|]. cbn [bumps]. apply (IH (x_bump x)). Qed.

Definition x_opened (x : sch) (m : list Z) (life tok : Z) : sch :=
  mkS (s_st x) (s_c x) (s_id x) (s_tx x) (open_seq (skipn 12 m)) (open_req (skipn 12 m)) life tok.
Definition good (x : sch) (m : list Z) : Prop := le_at 12 m = s_tok x /\ le_at 16 m = u32 (s_rxn x + 1).
Definition talks (n : pnote) : Prop := match n with NData _ => True | _ => False end.
Inductive hcase (x : sch) (n : pnote) (m : list Z) (w : option nat) (ok : bool) (us : list (list Z * option nat)) : sch -> list pcall -> list snote -> bool -> Prop :=
| h_skip : match n with
           | NConnected => s_st x <> SDial
           | NData _ => s_st x = SInit \/ s_st x = SDial \/ (is_opn m = false /\ (s_st x = SShake \/ (is_clo m = false /\ is_msg m = false)))
           | _ => s_st x = SInit
           end -> hcase x n m w ok us x [] [] false
| h_conn : n = NConnected -> s_st x = SDial -> hcase x n m w ok us (x_st x SShake) [] [] false
| h_down k : n = NClosed /\ k = SClosed \/ n = NError /\ k = SError -> s_st x <> SInit -> hcase x n m w ok us (x_st (bumps x us) SInit) (msgs x us) [k] false
| h_open life tok t1 t2 : talks n -> is_opn m = true -> s_st x = SShake \/ s_st x = SEst -> ok = true ->
    let y := x_opened x m life tok in s_ok y ->
    hcase x n m w ok us (x_st (x_bump y) SEst) [KSend (opn_pkt (s_id y) (s_tx y) (s_req y) tok t1 t2 life) w] [] false
| h_fail life tok t1 t2 : talks n -> is_opn m = true -> s_st x = SShake \/ s_st x = SEst -> ok = false ->
    let y := x_opened x m life tok in s_ok y ->
    hcase x n m w ok us (x_st (bumps (x_bump y) us) SInit) (KSend (opn_pkt (s_id y) (s_tx y) (s_req y) tok t1 t2 life) w :: msgs (x_bump y) us ++ [KClose]) [SError] false
| h_throw x1 : talks n -> is_opn m = true -> s_st x = SShake \/ s_st x = SEst ->
    s_st x1 = s_st x -> s_c x1 = s_c x -> s_id x1 = s_id x -> s_tx x1 = s_tx x -> s_tok x1 = s_tok x -> s_ok x1 -> hcase x n m w ok us x1 [] [] true
| h_close : talks n -> is_opn m = false -> is_clo m = true -> s_st x = SEst -> good x m -> hcase x n m w ok us (x_st (bumps x us) SInit) (msgs x us ++ [KClose]) [SClosed] false
| h_bad : talks n -> is_opn m = false -> is_clo m = true \/ is_msg m = true -> s_st x = SEst -> ~ good x m -> hcase x n m w ok us (x_st (bumps x us) SInit) (msgs x us ++ [KClose]) [SError] false
| h_req : talks n -> is_opn m = false -> is_clo m = false -> is_msg m = true -> s_st x = SEst -> good x m ->
    let y := x_took x (mkSq (le_at 16 m) (le_at 20 m)) in s_ok y -> hcase x n m w ok us (x_st (bumps y us) SEst) (msgs y us) [SRequest] false.

Lemma tell_eq x pre n us ks st : s_ok x -> Forall body_ok us -> s_tell RServer x pre n us ks st = Some (x_st (bumps x us) st, pre ++ msgs x us ++ ks, [n], false).
Proof. intros Hx Hu. unfold s_tell. now rewrite s_sends_eq. Qed.

Lemma uhdr_any t h p v b' : dec_uhdr uhdr0 (mkSdu t h p) = DOk v b' -> b' = mkSdu (t + 12) h p.
Proof.
  intros E. unfold dec_uhdr, uhdr0 in E. cbn [uh_type dec_each] in E. unfold fresh, dec_byte, dec_u32, rd32, bind, ret in E.
  repeat match type of E with context [read ?b] => let F := fresh "F" in destruct (read b) as [? ?| | |] eqn:F; [apply read_some in F as [_ ->]|discriminate E..]; cbn [k_tail k_head k_pkt] in E end.
  injection E as _ <-. f_equal; lia.
Qed.
Lemma s_open_cases x n b w ok rnd t1 t2 us x1 ks ns thr : s_ok x -> bytes_ok (k_pkt b) -> 0 <= rnd -> Forall body_ok us ->
  let m := skipn (k_tail b) (k_pkt b) in talks n -> is_opn m = true -> s_st x = SShake \/ s_st x = SEst ->
  s_open x b w ok rnd t1 t2 us = Some (x1, ks, ns, thr) -> hcase x n m w ok us x1 ks ns thr.
Proof.
  intros Hx Hb Hr Hu m Hn Ho Hs H. unfold s_open in H. destruct b as [t h p]. cbn [k_tail k_head k_pkt] in *. unfold bind at 1 2 in H.
  assert (T0 : Some (x, [], [], true) = Some (x1, ks, ns, thr) -> hcase x n m w ok us x1 ks ns thr).
  { intros G. injection G as <- <- <- <-. apply h_throw; auto. }
  destruct (dec_uhdr uhdr0 (mkSdu t h p)) as [v b1| | |] eqn:E1; [|auto|discriminate H|discriminate H]. apply uhdr_any in E1 as ->.
  destruct (dec_sechdr sechdr0 (mkSdu (t + 12) h p)) as [sv b2| | |] eqn:E2; [|auto|discriminate H|discriminate H]. apply sechdr_any in E2 as (t2' & -> & S2); [|auto].
  destruct (dec_seqhdr (mkSdu t2' h p)) as [q b3| | |] eqn:E3; [|auto|discriminate H|discriminate H]. apply seqhdr_any in E3 as (-> & ->); [|auto].
  assert (Q : mkSq (le_at t2' p) (le_at (t2' + 4) p) = mkSq (open_seq (skipn 12 m)) (open_req (skipn 12 m))).
  { unfold open_seq, open_req, m. rewrite skipn_skipn'. rewrite <- S2, !le_at_skip, Nat.add_0_r. reflexivity. }
  rewrite Q in H. clear Q S2.
  assert (Uq : is_u32 (open_req (skipn 12 m))).
  { unfold open_req. apply le_at_bound. assert (G : forall k l, bytes_ok l -> bytes_ok (skip_strs k l)) by (induction k; cbn [skip_strs]; auto using bytes_skipn).
    apply G, bytes_skipn. unfold m. now apply bytes_skipn. }
  destruct (dec_cont dec_openreq (cont_new 446 openreq0) (mkSdu (t2' + 8) h p)) as [r b4| | |]; [| |discriminate H|discriminate H].
  2:{ injection H as <- <- <- <-. apply h_throw; auto. destruct Hx. constructor; cbn; auto. }
  set (y := x_tok (x_life (x_took x _) _) _) in H. unfold open_rsp_pkt in H.
  assert (Hid : s_id y = s_id x) by reflexivity. rewrite opn_pkt_eq in H by (rewrite Hid; apply Hx).
  assert (Ht : is_u32 (rnd mod 2147483647)) by (unfold is_u32; lia).
  assert (Hy0 : s_ok y) by (destruct Hx; constructor; cbn [s_id s_tx s_req s_tok y x_tok x_life x_took sq_num sq_req]; auto).
  assert (Hy : s_ok (x_bump y)) by (now apply bump_ok).
  destruct ok.
  - injection H as <- <- <- <-. apply (h_open x n m w true us (oq_life (co_msg r)) (rnd mod 2147483647) t1 t2); auto.
  - rewrite tell_eq in H by auto. injection H as <- <- <- <-. apply (h_fail x n m w false us (oq_life (co_msg r)) (rnd mod 2147483647) t1 t2); auto.
Qed.
Lemma s_check_eq x b o : bytes_ok (k_pkt b) -> let m := skipn (k_tail b) (k_pkt b) in s_check x b = Some o ->
  (o = Some (mkSq (le_at 16 m) (le_at 20 m)) /\ good x m) \/ (o = None /\ ~ good x m).
Proof.
  intros Hb m H. unfold s_check in H. destruct b as [t h p]. cbn [k_tail k_pkt] in *. unfold bind at 1 in H. unfold good.
  destruct (dec_uhdr uhdr0 (mkSdu t h p)) as [v b1| | |] eqn:E1; [|discriminate H..]. apply uhdr_any in E1 as ->.
  unfold dec_tokhdr, dec_u32, bind, ret in H. destruct (rd32 (mkSdu (t + 12) h p)) as [tk b2| | |] eqn:E2; [|discriminate H..]. apply rd32_any in E2 as (_ & -> & ->); [|auto].
  cbn [th_token] in H. unfold m. rewrite !le_at_skip.
  destruct (Z.eqb_spec (le_at (t + 12) p) (s_tok x)) as [Ht|Ht]; cbn [negb] in H; [|injection H as <-; right; tauto].
  destruct (dec_seqhdr (mkSdu (t + 12 + 4) h p)) as [q b3| | |] eqn:E3; [|discriminate H..]. apply seqhdr_any in E3 as (-> & ->); [|auto]. cbn [sq_num] in H.
  replace (t + 12 + 4)%nat with (t + 16)%nat in H by lia. replace (t + 16 + 4)%nat with (t + 20)%nat in H by lia.
  destruct (Z.eqb_spec (le_at (t + 16) p) (u32 (s_rxn x + 1))); injection H as <-; [left|right]; tauto.
Qed.
Lemma hear_cases x n b w ok rnd t1 t2 us x1 ks ns thr : s_ok x -> bytes_ok (k_pkt b) -> 0 <= rnd -> Forall body_ok us ->
  let m := skipn (k_tail b) (k_pkt b) in
  s_hear RServer x n b w ok rnd t1 t2 us = Some (x1, ks, ns, thr) -> hcase x n m w ok us x1 ks ns thr.
Proof.
  intros Hx Hb Hr Hu m H. unfold s_hear in H. cbv zeta in H. fold m in H.
  assert (T0 : forall (P : Prop), Some (x, [], [], false) = Some (x1, ks, ns, thr) ->
     match n with
           | NConnected => s_st x <> SDial
           | NData _ => s_st x = SInit \/ s_st x = SDial \/ (is_opn m = false /\ (s_st x = SShake \/ (is_clo m = false /\ is_msg m = false)))
           | _ => s_st x = SInit
           end -> hcase x n m w ok us x1 ks ns thr).
  { intros _ G C. injection G as <- <- <- <-. now apply h_skip. }
  destruct n as [|pm| |].
  - destruct (s_st x) eqn:Es; try (apply (T0 True); [exact H|congruence]). injection H as <- <- <- <-. now apply h_conn.
  - destruct (length m <? 3)%nat; [discriminate H|]. change (has_octets m opn_type) with (is_opn m) in H. change (has_octets m clo_type) with (is_clo m) in H. change (has_octets m msg_type) with (is_msg m) in H.
    destruct (is_opn m) eqn:Eo.
    + destruct (s_st x) eqn:Es; [apply (T0 True); auto|apply (T0 True); auto|..]; (eapply s_open_cases in H; eauto; exact I).
    + destruct (is_clo m) eqn:Ec.
      * destruct (s_st x) eqn:Es; try (apply (T0 True); auto; fail). unfold s_close in H. destruct (s_check x b) as [o|] eqn:Ek; [|discriminate H].
        apply s_check_eq in Ek; [|auto]. fold m in Ek. destruct Ek as [(-> & G)|(-> & G)]; rewrite tell_eq in H by auto; injection H as <- <- <- <-;
          [apply h_close|apply h_bad]; auto; exact I.
      * destruct (is_msg m) eqn:Em; [|apply (T0 True); auto 7]. destruct (s_st x) eqn:Es; try (apply (T0 True); auto; fail).
        unfold s_msg in H. destruct (s_check x b) as [o|] eqn:Ek; [|discriminate H].
        apply s_check_eq in Ek; [|auto]. fold m in Ek. destruct Ek as [(-> & G)|(-> & G)].
        -- assert (Hy : s_ok (x_took x (mkSq (le_at 16 m) (le_at 20 m)))) by (destruct Hx; constructor; cbn [s_id s_tx s_req s_tok x_took sq_num sq_req]; auto; apply le_at_bound; unfold m; now apply bytes_skipn).
           rewrite tell_eq in H; auto.
           rewrite app_nil_r in H. injection H as <- <- <- <-. apply h_req; auto; exact I.
        -- rewrite tell_eq in H by auto. injection H as <- <- <- <-. apply h_bad; auto; exact I.
  - destruct (s_st x) eqn:Es; [apply (T0 True); auto|..]; rewrite tell_eq in H by auto; rewrite app_nil_r in H; injection H as <- <- <- <-; apply h_down; auto; congruence.
  - destruct (s_st x) eqn:Es; [apply (T0 True); auto|..]; rewrite tell_eq in H by auto; rewrite app_nil_r in H; injection H as <- <- <- <-; apply h_down; auto; congruence.
Qed.
