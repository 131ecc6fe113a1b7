(** Timers, received octets and definedness of the connection library. *)
From Verif Require Import Base ModbusCodecSpec ModbusClientModel UaCodecModel UaCodecSpec UaCodecProofs UaCodecLocal ModbusClientProofs UaTcpModel UaTcpSpec UaTcpProofs UaTcpFacts ProtoConnModel ProtoConnSpec ProtoConnProofs.
Local Open Scope Z_scope.

(** ** A timer always runs *)
Definition A (c : pconn) : Prop :=
  match p_st c with
  | PsInit => True
  | PsDial => p_timer c = Some (Some connectTimeout)
  | PsShake => p_timer c = Some (Some receiveTimeout)
  | PsConn => p_timer c = Some (Some establishTimeout)
  end.

Lemma dials_app a b : dials (a ++ b) -> dials a /\ dials b.
Proof. intros H. split; intros l t Hin; apply (H l t), in_or_app; auto. Qed.

Lemma call_A role k c c' os t : A c -> p_call role k c = Some (c', os, t) -> dials os -> A c'.
Proof.
  destruct c as [st ti li rx]. unfold A at 1. cbn [p_st p_timer]. intros HA H D.
  destruct st, k; pstates; prun H; inversion H; subst; clear H; try exact I; try exact HA; try reflexivity; exfalso; eapply D; left; reflexivity.
Qed.
Lemma calls_A role ks : forall c c' os t, A c -> p_calls role ks c = Some (c', os, t) -> dials os -> A c'.
Proof.
  induction ks as [|k ks IH]; intros c c' os t HA H D.
  - cbn in H. inversion H; subst. exact HA.
  - cbn [p_calls] in H. apply pseq_inv in H as [[H ->]|(c1 & o1 & o2 & H1 & H2 & ->)]; [eauto using call_A|].
    apply dials_app in D as [D1 D2]. eauto using call_A.
Qed.

(** ** What calls leave alone *)
Definition D (c c' : pconn) (os : list pout) : Prop :=
  (p_st c' = p_st c /\ p_rx c' = p_rx c /\ (p_st c = PsInit \/ p_st c = PsDial \/ forall us, ~ In (PArm us) os)) \/
  p_st c' = PsInit \/ p_st c' = PsDial \/ (p_st c' = PsShake /\ k_head (p_rx c') = 0%nat /\ k_tail (p_rx c') = 0%nat /\ exists us, In (PArm us) os).
Lemma call_D role k c c' os t : p_call role k c = Some (c', os, t) ->
  D c c' os /\ k_pkt (p_rx c') = k_pkt (p_rx c) /\ (forall n, ~ In (PNote n) os).
Proof.
  destruct c as [st ti li rx]. intros H. unfold D. cbn [p_st p_rx].
  destruct st, k; pstates; prun H; inversion H; subst; clear H; cbn [p_st p_rx k_pkt k_head k_tail sdu_reset];
    (split; [|split; [reflexivity|intros nn Hn; repeat (destruct Hn as [Hn|Hn]; [discriminate Hn|]); destruct Hn]]);
    first [left; split; [reflexivity|]; split; [reflexivity|];
             first [left; reflexivity|right; left; reflexivity|right; right; intros us Hn; repeat (destruct Hn as [Hn|Hn]; [discriminate Hn|]); destruct Hn]
          |right; left; reflexivity|right; right; left; reflexivity|idtac].
  all: right; right; right; repeat split; eexists; cbn; eauto.
Qed.
Lemma calls_D role ks : forall c c' os t, p_calls role ks c = Some (c', os, t) ->
  D c c' os /\ k_pkt (p_rx c') = k_pkt (p_rx c) /\ (forall n, ~ In (PNote n) os).
Proof.
  induction ks as [|k ks IH]; intros c c' os t H.
  - cbn in H. inversion H; subst. split; [left; split; [reflexivity|]; split; [reflexivity|]; right; right; intros us []|]. split; [reflexivity|intros n []].
  - cbn [p_calls] in H. apply pseq_inv in H as [[H ->]|(c1 & o1 & o2 & H1 & H2 & ->)]; [eapply call_D; exact H|].
    destruct (call_D _ _ _ _ _ _ H1) as (D1 & K1 & N1). destruct (IH _ _ _ _ H2) as (D2 & K2 & N2).
    split; [|split; [congruence|intros n Hn; apply in_app_or in Hn as [Hn|Hn]; [exact (N1 n Hn)|exact (N2 n Hn)]]].
    unfold D in *. destruct D2 as [(E2 & R2 & P2)|[D2|[D2|(E2 & A2 & B2 & us & I2)]]].
    + destruct D1 as [(E1 & R1 & P1)|[D1|[D1|(E1 & A1 & B1 & us & I1)]]].
      * left. split; [congruence|]. split; [congruence|]. destruct P1 as [P1|[P1|P1]]; [now left|right; now left|].
        destruct P2 as [P2|[P2|P2]]; [left; congruence|right; left; congruence|]. right; right. intros us Hn. apply in_app_or in Hn as [Hn|Hn]; [exact (P1 us Hn)|exact (P2 us Hn)].
      * right. left. congruence.
      * right. right. left. congruence.
      * right. right. right. rewrite R2. split; [congruence|]. repeat split; auto. exists us. apply in_or_app. auto.
    + auto.
    + auto.
    + right. right. right. repeat split; auto. exists us. apply in_or_app. auto.
Qed.

(** ** Received octets *)
(** [thr]: an exception was thrown before. *)
Record X (c : pconn) (w : list Z) (thr : bool) : Prop := {
  x_len : length (k_pkt (p_rx c)) = pktLen;
  x_bytes : bytes_ok (k_pkt (p_rx c));
  x_rx : p_st c = PsShake \/ p_st c = PsConn -> rx_ok (p_rx c) w;
  x_conn : p_st c = PsConn -> k_tail (p_rx c) = 0%nat;
  x_shake : p_st c = PsShake -> thr = false -> k_tail (p_rx c) = 0%nat
}.
Lemma X_idle c c' w w' thr thr' : X c w thr -> k_pkt (p_rx c') = k_pkt (p_rx c) -> p_st c' = PsInit \/ p_st c' = PsDial -> X c' w' thr'.
Proof. intros [] E S. constructor; rewrite ?E; auto; intuition congruence. Qed.
Lemma rx_ok_nil b : k_head b = 0%nat -> k_tail b = 0%nat -> rx_ok b [].
Proof. intros H1 H2. unfold rx_ok. rewrite H1, firstn_nil. auto. Qed.
Lemma X_reset c c' w thr thr' : X c w thr -> k_pkt (p_rx c') = k_pkt (p_rx c) -> k_head (p_rx c') = 0%nat -> k_tail (p_rx c') = 0%nat -> X c' [] thr'.
Proof. intros [] E H1 H2. constructor; rewrite ?E; auto using rx_ok_nil. Qed.

Definition has_note (os : list pout) : bool := existsb (fun o => match o with PNote _ => true | _ => false end) os.
Definition has_arm (os : list pout) : bool := existsb (fun o => match o with PArm _ => true | _ => false end) os.
Lemma has_arm_in us os : In (PArm us) os -> has_arm os = true.
Proof. intros H. apply existsb_exists. now exists (PArm us). Qed.
Lemma no_arm os : (forall us, ~ In (PArm us) os) -> has_arm os = false.
Proof. intros H. destruct (has_arm os) eqn:E; [|reflexivity]. apply existsb_exists in E as (o & Ho & E). destruct o; try discriminate E. destruct (H _ Ho). Qed.
Lemma no_note os : (forall n, ~ In (PNote n) os) -> has_note os = false.
Proof. intros H. destruct (has_note os) eqn:E; [|reflexivity]. apply existsb_exists in E as (o & Ho & E). destruct o; try discriminate E. destruct (H _ Ho). Qed.
Lemma has_note_in n os : In (PNote n) os -> has_note os = true.
Proof. intros H. apply existsb_exists. now exists (PNote n). Qed.

(** Facts about one event. *)
Record Q (role : prole) (w : list Z) (thr : bool) (e : pev) (os : list pout) : Prop := {
  q_data : forall m, In (PNote (NData m)) os -> exists bs wr us, e = PvData (RxBytes bs) wr us /\ m = firstn pktLen (w ++ bs) /\ sized m;
  q_conn : In (PNote NConnected) os -> exists bs wr us, e = PvData (RxBytes bs) wr us /\
     (thr = false -> let m := firstn pktLen (w ++ bs) in sized m /\ firstn 3 m = awaited role) /\
     (role = RServer -> exists n b, os = PTx ack_packet n :: PDisarm :: PNote NConnected :: b) /\
     (role = RClient -> exists b, os = PDisarm :: PNote NConnected :: b)
}.
Lemma Q_none role w thr e os : (forall n, In (PNote n) os -> n = NError \/ n = NClosed) -> Q role w thr e os.
Proof.
  intros H. constructor.
  - intros m Hm. destruct (H _ Hm); discriminate.
  - intros Hm. destruct (H _ Hm); discriminate.
Qed.

Lemma ending_pkt role us n c c' os t : (p_note n (p_calls role us) ;> p_home) c = Some (c', os, t) ->
  k_pkt (p_rx c') = k_pkt (p_rx c) /\ forall n', In (PNote n') os -> n' = n.
Proof.
  intros H. assert (Hh : forall c c' os t, p_home c = Some (c', os, t) -> k_pkt (p_rx c') = k_pkt (p_rx c) /\ forall n', ~ In (PNote n') os).
  { clear. intros [st ti li rx] c' os t H. destruct st; pstates; prun H; inversion H; subst; clear H; (split; [reflexivity|]);
      intros n' Hn; repeat (destruct Hn as [Hn|Hn]; [discriminate Hn|]); destruct Hn. }
  unfold p_note in H. apply pseq_inv in H as [[H ->]|(c1 & o1 & o2 & H1 & H2 & ->)].
  - apply pseq_inv in H as [[H _]|(c1 & o1 & o2 & H1 & H2 & ->)]; [discriminate H|].
    unfold pemit in H1. inversion H1; subst; clear H1. destruct (calls_D _ _ _ _ _ _ H2) as (_ & K & N). split; [exact K|].
    intros n' [Hn|Hn]; [congruence|destruct (N n' Hn)].
  - apply pseq_inv in H1 as [[H1 _]|(c2 & o3 & o4 & H3 & H4 & ->)]; [discriminate H1|].
    unfold pemit in H3. inversion H3; subst; clear H3. destruct (calls_D _ _ _ _ _ _ H4) as (_ & K & N). destruct (Hh _ _ _ _ H2) as (K2 & N2).
    split; [congruence|]. intros n' Hn. apply in_app_or in Hn as [[Hn|Hn]|Hn]; [congruence|destruct (N n' Hn)|destruct (N2 n' Hn)].
Qed.
Lemma fail_pkt role us n c c' os t : (p_shut ;> p_note n (p_calls role us) ;> p_home) c = Some (c', os, t) ->
  k_pkt (p_rx c') = k_pkt (p_rx c) /\ (forall n', In (PNote n') os -> n' = n).
Proof.
  intros H. apply pseq_inv in H as [[H ->]|(c1 & o1 & o2 & H1 & H2 & ->)].
  - apply shut_ok in H as (B & _). discriminate B.
  - apply shut_ok in H1 as (_ & -> & _ & ->). destruct (ending_pkt _ _ _ _ _ _ _ H2) as (K & N). split; [exact K|].
    intros n' [Hn|Hn]; [discriminate Hn|auto].
Qed.

Lemma size_le p m : firstn (length m) p = m -> bytes_ok m -> (8 <= length m)%nat ->
  getMsgSizeFromHdr (skipn 0 p) = Some (le_at 4 m).
Proof.
  intros E Hm H8. rewrite <- (size_prefix p m H8 Hm). f_equal. cbn [skipn]. rewrite bw_put. cbn [firstn app Nat.add].
  rewrite <- E at 1. symmetry. apply firstn_skipn.
Qed.
Lemma octets_at p m t : length t = 3%nat -> firstn (length m) p = m -> (3 <= length m)%nat -> has_octets (skipn 0 p) t = true -> firstn 3 m = t.
Proof.
  intros Ht E H8 H. do 3 (destruct t as [|? t]; [discriminate Ht|]). destruct t; [|discriminate Ht]. clear Ht.
  do 3 (destruct m as [|? m]; [cbn in H8; lia|]). cbn [length firstn] in E. do 3 (destruct p as [|? p]; [discriminate E|]).
  injection E as -> -> -> _. cbn [skipn has_octets firstn] in *. apply andb_prop in H as [H ?]. apply andb_prop in H as [? ?].
  repeat match goal with H : (_ =? _) = true |- _ => apply Z.eqb_eq in H; subst end. reflexivity.
Qed.

(** A complete message in the receive buffer. *)
Lemma done_msg b w : rx_ok b w -> k_tail b = 0%nat -> bytes_ok (k_pkt b) -> (8 <= k_head b)%nat ->
  getMsgSizeFromHdr (skipn (k_tail b) (k_pkt b)) = Some (Z.of_nat (k_head b)) ->
  sized (firstn pktLen w) /\ firstn (k_head b) (k_pkt b) = firstn pktLen w /\ length (firstn pktLen w) = k_head b.
Proof.
  intros (R1 & R2 & _) T HB H8 HS. rewrite T in HS. rewrite R1 in R2.
  assert (Hb : bytes_ok (firstn pktLen w)) by (rewrite <- R2; now apply firstn_bytes).
  rewrite (size_le _ (firstn pktLen w)) in HS by (auto; lia). assert (HS' : le_at 4 (firstn pktLen w) = Z.of_nat (k_head b)) by congruence. clear HS.
  split; [|split; [rewrite R1; exact R2|now symmetry]]. split; [exact Hb|]. split; [lia|]. rewrite HS', R1. reflexivity.
Qed.

Lemma dec_ack_pkt b v b' : dec_ack_msg b = DOk v b' -> k_pkt b' = k_pkt b.
Proof.
  assert (AA : Adv dec_ack_msg) by (apply Adv_bind; [apply Loc_mhdr|intros; apply Loc_ack]).
  intros E. apply AA in E. unfold adv in E. tauto.
Qed.

(** Calls that throw have left the connected state. *)
Lemma call_throw role k c c' os : p_call role k c = Some (c', os, true) -> p_st c' = PsInit \/ p_st c' = PsDial.
Proof. destruct c as [st ti li rx]. intros H. destruct st, k; pstates; prun H; inversion H; subst; clear H; cbn [p_st]; auto. Qed.
Lemma calls_throw role ks : forall c c' os, p_calls role ks c = Some (c', os, true) -> p_st c' = PsInit \/ p_st c' = PsDial.
Proof.
  induction ks as [|k ks IH]; intros c c' os H; [discriminate H|].
  cbn [p_calls] in H. apply pseq_inv in H as [[H _]|(c1 & o1 & o2 & H1 & H2 & ->)]; eauto using call_throw.
Qed.

Lemma step_X role e c c' os t ph r w thr : J c ph r -> X c w thr -> pev_ok e -> p_enabled c e = true ->
  p_step role e c = Some (c', os, t) -> mannered os ->
  X c' (prx_next w (e, os)) (thr || existsb is_pthrow os) /\ Q role w thr e os.
Proof.
  intros HJ HX Ok En H M.
  assert (Skip : forall c1, c' = c1 -> os = [] -> p_st c1 = p_st c -> p_rx c1 = p_rx c ->
    (match e with PvData (RxBytes _) _ _ => p_st c = PsInit \/ p_st c = PsDial | _ => True end) ->
    X c' (prx_next w (e, os)) (thr || existsb is_pthrow os) /\ Q role w thr e os).
  { intros c1 -> -> E1 E2 B. split; [|apply Q_none; intros n []]. cbn [existsb]. rewrite orb_false_r.
    assert (G : prx_next w (e, []) = w \/ p_st c = PsInit \/ p_st c = PsDial).
    { unfold prx_next. cbn. destruct e as [| |[| |]| |]; auto. }
    destruct G as [->|G].
    - destruct HX. constructor; rewrite ?E1, ?E2; auto.
    - apply (X_idle c c1 w _ thr _ HX); [now rewrite E2|now rewrite E1]. }
  assert (Gone : forall n, k_pkt (p_rx c') = k_pkt (p_rx c) -> p_st c' = PsInit -> (forall n', In (PNote n') os -> n' = n) -> n = NError \/ n = NClosed ->
    X c' (prx_next w (e, os)) (thr || existsb is_pthrow os) /\ Q role w thr e os).
  { intros n K S N Hn. split; [apply (X_idle c c' w _ thr _ HX K); auto|]. apply Q_none. intros n' Hi. rewrite (N n' Hi). exact Hn. }
  destruct e as [k|wr us|rd wr us|us|us]; cbn [p_step] in H.
  - destruct (call_D _ _ _ _ _ _ H) as (HD & K & N). split; [|apply Q_none; intros n Hn; destruct (N n Hn)].
    unfold prx_next. cbn [fst snd]. fold (has_arm os). destruct HD as [(E1 & E2 & E3)|[E1|[E1|(E1 & A1 & B1 & us & I1)]]].
    + destruct E3 as [E3|[E3|E3]].
      * apply (X_idle c c' w _ thr _ HX K). rewrite E1. auto.
      * apply (X_idle c c' w _ thr _ HX K). rewrite E1. auto.
      * rewrite (no_arm _ E3). destruct HX. constructor; rewrite ?E1, ?E2; auto.
        intros S B. apply orb_false_elim in B as [B _]. auto.
    + apply (X_idle c c' w _ thr _ HX K). auto.
    + apply (X_idle c c' w _ thr _ HX K). auto.
    + rewrite (has_arm_in us os I1). apply (X_reset c c' w thr _ HX K A1 B1).
  - destruct (p_st c) eqn:Est; try (match type of H with pskip _ = _ => unfold pskip in H; inversion H; subst; apply (Skip c'); auto end).
    unfold p_send_enc in H. rewrite greeting_eq in H. unfold p_send in H.
    destruct (p_link c) as [fd|] eqn:El; [|discriminate H]. destruct (if fd then wr else None) as [n|].
    + apply pseq_inv in H as [[H _]|(c1 & o1 & o2 & H1 & H2 & ->)]; [discriminate H|].
      unfold pemit in H1. inversion H1; subst; clear H1. destruct c1 as [st ti li rx]. unfold J in HJ. cbn [p_st p_timer p_link] in *. subst st li.
      destruct HJ as (_ & -> & _). pstates. inversion H2; subst; clear H2. split; [|apply Q_none; intros nn Hn; repeat (destruct Hn as [Hn|Hn]; [discriminate Hn|]); destruct Hn].
      cbn [prx_next fst snd existsb]. eapply X_reset; [exact HX|reflexivity..].
    + pose proof (fail_ok role us NError c c' os t ph r []) as F. destruct F as (p & _ & _ & S); auto; try solve [now left|congruence|intros B; discriminate B].
      destruct (fail_pkt _ _ _ _ _ _ _ H) as (K & N). apply (Gone NError); auto.
  - destruct (p_st c) eqn:Est; try (match type of H with pskip _ = _ => unfold pskip in H; inversion H; subst; apply (Skip c'); auto; destruct rd; auto end).
    + assert (ph = Trying) as -> by (unfold J in HJ; rewrite Est in HJ; tauto).
      unfold p_receive in H. destruct (u_receive _ rd) as [[ct res]|] eqn:Er; [|discriminate H].
      assert (Hl : p_link c = Some true) by (cbn in En; destruct (p_link c) as [[]|]; congruence).
      destruct (receive_ok (mkT UConn (p_timer c) (p_link c) (p_rx c) None) w rd ct res) as (SA & T & Nt & R & Dn);
        [apply HX|apply HX|apply HX; auto|exact Hl|destruct rd; auto|exact Er|]. cbn [t_rx] in T. destruct SA as [_ _ _ _ Sl Sb].
      assert (HJ' : J (y_rx c (t_rx ct)) Trying r) by now apply J_rx.
      assert (Fail : p_fail (p_calls role us) (y_rx c (t_rx ct)) = Some (c', os, t) -> X c' (prx_next w (PvData rd wr us, os)) (thr || existsb is_pthrow os) /\ Q role w thr (PvData rd wr us) os).
      { intros F. pose proof (fail_ok role us NError (y_rx c (t_rx ct)) c' os t Trying r []) as FF. destruct FF as (p & _ & _ & S); auto; try solve [now left|cbn; congruence|intros B; discriminate B].
        destruct (fail_pkt _ _ _ _ _ _ _ F) as (K & N). split; [constructor; rewrite ?K; cbn [y_rx p_rx]; auto; intuition congruence|].
        apply Q_none. intros n Hn. left. auto. }
      destruct res; [| |auto|now destruct Nt].
      * specialize (R ltac:(discriminate)). unfold pskip in H. inversion H; subst. split; [|apply Q_none; intros n []].
        assert (prx_next w (PvData rd wr us, []) = rx_after w rd) as -> by (unfold prx_next, rx_after; cbn; now destruct rd).
        cbn [existsb]. rewrite orb_false_r. destruct HX as [_ _ X1 X2 X3]. constructor; cbn [y_rx p_rx p_st]; auto; try (rewrite Est; congruence). intros _ B. rewrite T. auto.
      * specialize (R ltac:(discriminate)). destruct (Dn eq_refl) as (H8 & Hsz). cbn [t_rx] in Hsz. rewrite <- T in Hsz.
        assert (Hbs : exists bs, rd = RxBytes bs).
        { destruct rd as [| |bs]; [| |eauto]; unfold u_receive in Er; cbn [t_link t_rx] in Er; rewrite Hl in Er; destruct (_ <? _); discriminate Er. }
        destruct Hbs as [bs ->]. cbn [rx_after] in R.
        assert (Msg : thr = false -> sized (firstn pktLen (w ++ bs)) /\ firstn (k_head (t_rx ct)) (k_pkt (t_rx ct)) = firstn pktLen (w ++ bs) /\ length (firstn pktLen (w ++ bs)) = k_head (t_rx ct)).
        { intros B. apply done_msg; auto. rewrite T. destruct HX; auto. }
        unfold p_shake in H. cbv zeta in H. cbn [y_rx p_rx] in H.
        assert (Upx : forall b o1 o2, k_pkt b = k_pkt (t_rx ct) -> os = o1 ++ o2 -> (forall o, In o o1 -> exists p n, o = PTx p n) ->
            has_octets (skipn (k_tail (t_rx ct)) (k_pkt (t_rx ct))) (awaited role) = true ->
            p_transit PsConn true (p_calls role us) (y_rx (y_rx c (t_rx ct)) b) = Some (c', o2, t) ->
            (role = RServer -> exists n, o1 = [PTx ack_packet n]) -> (role = RClient -> o1 = []) ->
            X c' (prx_next w (PvData (RxBytes bs) wr us, os)) (thr || existsb is_pthrow os) /\ Q role w thr (PvData (RxBytes bs) wr us) os).
        { intros b o1 o2 Hb -> Ho1 Ha Htr R1 R2. destruct (up_ok role us _ c' o2 t r o1 (J_rx _ b _ _ HJ') Htr M) as (p & _ & _ & S & _ & Z1 & Z2 & Z3 & _ & _ & bb & Eo & Hbb).
          assert (Hn : forall n, In (PNote n) (o1 ++ o2) -> n = NConnected).
          { intros n Hn. apply in_app_or in Hn as [Hn|Hn]; [destruct (Ho1 _ Hn) as (? & ? & B); discriminate B|]. rewrite Eo in Hn.
            destruct Hn as [Hn|[Hn|Hn]]; [discriminate Hn|congruence|]. specialize (Hbb _ Hn). destruct Hbb. }
          split.
          - unfold prx_next. cbn [fst snd]. fold (has_note (o1 ++ o2)). rewrite (has_note_in NConnected) by (rewrite Eo; apply in_or_app; right; cbn; auto).
            cbn [y_rx p_rx] in Z3. rewrite Hb in Z3. constructor; rewrite ?Z3; auto using rx_ok_nil; congruence.
          - constructor.
            + intros m Hm. apply Hn in Hm. discriminate Hm.
            + intros _. exists bs, wr, us. split; [reflexivity|]. split; [|split].
              * intros B. cbv zeta. destruct (Msg B) as (M1 & M2 & M3). split; [exact M1|].
                apply (octets_at (k_pkt (t_rx ct))); [now destruct role|now rewrite M3|lia|].
                assert (k_tail (t_rx ct) = 0%nat) as T0 by (rewrite T; destruct HX; auto). now rewrite T0 in Ha.
              * intros B. destruct (R1 B) as (n & ->). rewrite Eo. eexists n, _. reflexivity.
              * intros B. rewrite (R2 B), Eo. eexists. reflexivity. }
        destruct role.
        -- destruct (has_octets _ _) eqn:Eh; [|auto]. destruct (dec_ack_msg (t_rx ct)) as [a b| | |] eqn:Ed; try discriminate H.
           apply (Upx b [] os); auto; [eapply dec_ack_pkt; eauto|intros o []|discriminate].
        -- destruct (has_octets _ _) eqn:Eh; [|auto]. pose proof (throw_or_ok_hello (t_rx ct)) as TH.
           destruct (dec_hello_msg (t_rx ct)) as [a b| | |] eqn:Ed; [| |discriminate H|discriminate H].
           ++ unfold p_send_enc in H. rewrite ackp_eq in H. unfold p_send in H. cbn [y_rx p_link] in H. rewrite Hl in H. destruct wr as [n|].
              ** apply pseq_inv in H as [[H _]|(c1 & o1 & o2 & H1 & H2 & ->)]; [discriminate H|].
                 unfold pemit in H1. inversion H1; subst; clear H1. apply (Upx b [PTx ack_packet (Nat.min n (length ack_packet))] o2); auto; [tauto|intros o [<-|[]]; eauto|eauto|discriminate].
              ** pose proof (fail_ok RServer us NError (y_rx (y_rx c (t_rx ct)) b) c' os t Trying r []) as FF.
                 destruct FF as (p & _ & _ & S); auto using J_rx; try solve [now left|cbn; congruence|intros B; discriminate B].
                 destruct (fail_pkt _ _ _ _ _ _ _ H) as (K & N). cbn [y_rx p_rx] in K. destruct TH as [_ TH]. rewrite TH in K.
                 split; [constructor; rewrite ?K; auto; intuition congruence|]. apply Q_none. intros n Hn. left. auto.
           ++ unfold pthrow in H. inversion H; subst. split; [|apply Q_none; intros n [Hn|[]]; discriminate Hn].
              unfold prx_next. cbn [fst snd existsb is_pthrow orb]. rewrite orb_true_r. constructor; cbn [y_rx p_rx p_st k_pkt k_tail k_head]; auto; try (rewrite Est; congruence); try discriminate.
              intros _. destruct R as (R1 & R2 & R3). unfold rx_ok. cbn [k_head k_pkt k_tail]. split; [auto|]. split; [auto|].
              intros E. exfalso. rewrite E, firstn_nil in R1. cbn [length] in R1. lia.
    + assert (ph = Up) as -> by (unfold J in HJ; rewrite Est in HJ; tauto).
      unfold p_receive in H. destruct (u_receive _ rd) as [[ct res]|] eqn:Er; [|discriminate H].
      assert (Hl : p_link c = Some true) by (cbn in En; destruct (p_link c) as [[]|]; congruence).
      destruct (receive_ok (mkT UConn (p_timer c) (p_link c) (p_rx c) None) w rd ct res) as (SA & T & Nt & R & Dn);
        [apply HX|apply HX|apply HX; auto|exact Hl|destruct rd; auto|exact Er|]. cbn [t_rx] in T. destruct SA as [_ _ _ _ Sl Sb].
      assert (HJ' : J (y_rx c (t_rx ct)) Up r) by now apply J_rx.
      assert (T0 : k_tail (t_rx ct) = 0%nat) by (rewrite T; destruct HX; auto).
      destruct res; [| | |now destruct Nt].
      * specialize (R ltac:(discriminate)). unfold pskip in H. inversion H; subst. split; [|apply Q_none; intros n []].
        assert (prx_next w (PvData rd wr us, []) = rx_after w rd) as -> by (unfold prx_next, rx_after; cbn; now destruct rd).
        cbn [existsb]. constructor; cbn [y_rx p_rx p_st]; auto; try (rewrite Est; congruence).
      * specialize (R ltac:(discriminate)). destruct (Dn eq_refl) as (H8 & Hsz). cbn [t_rx] in Hsz. rewrite <- T in Hsz.
        assert (Hbs : exists bs, rd = RxBytes bs).
        { destruct rd as [| |bs]; [| |eauto]; unfold u_receive in Er; cbn [t_link t_rx] in Er; rewrite Hl in Er; destruct (_ <? _); discriminate Er. }
        destruct Hbs as [bs ->]. cbn [rx_after] in R.
        destruct (done_msg _ _ R T0 Sb H8 Hsz) as (M1 & M2 & M3). cbn [y_rx p_rx] in H. rewrite M2 in H.
        remember (firstn pktLen (w ++ bs)) as msg eqn:Emsg. assert (Hmsg : id msg = firstn pktLen (w ++ bs)) by exact Emsg. clear Emsg.
        assert (Fin : forall o2, os = PNote (NData msg) :: o2 -> (forall n, ~ In (PNote n) o2) ->
          k_pkt (p_rx c') = k_pkt (t_rx ct) -> (p_st c' = PsInit \/ p_st c' = PsDial \/ (k_head (p_rx c') = 0%nat /\ k_tail (p_rx c') = 0%nat)) ->
          X c' (prx_next w (PvData (RxBytes bs) wr us, os)) (thr || existsb is_pthrow os) /\ Q role w thr (PvData (RxBytes bs) wr us) os).
        { intros o2 -> No K S. split.
          - unfold prx_next. cbn [fst snd existsb]. assert (X1 : p_st c' = PsShake \/ p_st c' = PsConn -> k_head (p_rx c') = 0%nat /\ k_tail (p_rx c') = 0%nat) by (intuition congruence).
            constructor; rewrite ?K; auto; try (intros; apply X1; auto). intros B. destruct (X1 B). now apply rx_ok_nil.
          - constructor.
            + intros m [Hm|Hm]; [|destruct (No _ Hm)]. assert (m = msg) as -> by congruence. exists bs, wr, us. split; [reflexivity|]. split; [exact Hmsg|exact M1].
            + intros [Hm|Hm]; [discriminate Hm|destruct (No _ Hm)]. }
        unfold p_note in H. apply pseq_inv in H as [[H ->]|(c1 & o1 & o2 & H1 & H2 & ->)].
        -- apply pseq_inv in H as [[H _]|(c1 & o1 & o2 & H1 & H2 & ->)]; [discriminate H|].
           unfold pemit in H1. inversion H1; subst; clear H1. destruct (calls_D _ _ _ _ _ _ H2) as (HD & K & N).
           apply (Fin o2); auto. destruct (calls_throw _ _ _ _ _ H2); auto.
        -- apply pseq_inv in H1 as [[H1 _]|(c2 & o3 & o4 & H3 & H4 & ->)]; [discriminate H1|].
           unfold pemit in H3. inversion H3; subst; clear H3. destruct (calls_D _ _ _ _ _ _ H4) as (HD & K & N).
           unfold p_preact, pset in H2. inversion H2; subst; clear H2. rewrite app_nil_r in *. apply (Fin o4 eq_refl); auto.
      * pose proof (fail_ok role us NError (y_rx c (t_rx ct)) c' os t Up r []) as FF. destruct FF as (p & _ & _ & S); auto; try solve [now left|cbn; congruence|intros B; discriminate B].
        destruct (fail_pkt _ _ _ _ _ _ _ H) as (K & N). cbn [y_rx p_rx] in K. split; [constructor; rewrite ?K; auto; intuition congruence|].
        apply Q_none. intros n Hn. left. auto.
  - destruct (p_st c) eqn:Est; try (match type of H with pskip _ = _ => unfold pskip in H; inversion H; subst; apply (Skip (y_link c (Some false))); auto end).
    pose proof (ending_ok role us NError (y_link c (Some false)) c' os t ph r []) as FF. destruct FF as (p & _ & _ & S); auto; try solve [now left|cbn; congruence|intros B; discriminate B|apply J_link; [exact HJ|discriminate]].
    destruct (ending_pkt _ _ _ _ _ _ _ H) as (K & N). apply (Gone NError); auto.
  - assert (HJ' : J (y_timer c (Some None)) ph None \/ p_st c = PsInit).
    { unfold J in *. destruct c as [st ti li rx]. cbn [p_st p_timer p_link y_timer] in *. destruct st; [now right|left; intuition..]. }
    destruct (p_st c) eqn:Est.
    + exfalso. cbn in En. unfold J in HJ. rewrite Est in HJ. destruct HJ as (_ & _ & B). rewrite B in En. discriminate En.
    + destruct HJ' as [HJ'|B]; [|discriminate B]. pose proof (fail_ok role us NError (y_timer c (Some None)) c' os t ph None []) as FF. destruct FF as (p & _ & _ & S); auto; try solve [now left|cbn; congruence|intros B; discriminate B].
      destruct (fail_pkt _ _ _ _ _ _ _ H) as (K & N). apply (Gone NError); auto.
    + destruct HJ' as [HJ'|B]; [|discriminate B]. pose proof (fail_ok role us NError (y_timer c (Some None)) c' os t ph None []) as FF. destruct FF as (p & _ & _ & S); auto; try solve [now left|cbn; congruence|intros B; discriminate B].
      destruct (fail_pkt _ _ _ _ _ _ _ H) as (K & N). apply (Gone NError); auto.
    + destruct HJ' as [HJ'|B]; [|discriminate B]. pose proof (fail_ok role us NClosed (y_timer c (Some None)) c' os t ph None []) as FF. destruct FF as (p & _ & _ & S); auto; try solve [now right|cbn; congruence|intros B; discriminate B].
      destruct (fail_pkt _ _ _ _ _ _ _ H) as (K & N). apply (Gone NClosed); auto.
Qed.

Lemma A_rx c b : A c -> A (y_rx c b).
Proof. auto. Qed.
Lemma A_init c : p_st c = PsInit -> A c.
Proof. unfold A. intros ->. exact I. Qed.

Lemma step_A role e c c' os t ph r : J c ph r -> A c -> p_enabled c e = true ->
  p_step role e c = Some (c', os, t) -> mannered os -> dials os -> A c'.
Proof.
  intros HJ HA En H M Dl. destruct e as [k|wr us|rd wr us|us|us]; cbn [p_step] in H.
  - eauto using call_A.
  - destruct (p_st c) eqn:Est; try (match type of H with pskip _ = _ => unfold pskip in H; inversion H; subst; exact HA end).
    unfold p_send_enc in H. rewrite greeting_eq in H. unfold p_send in H.
    destruct (p_link c) as [fd|] eqn:El; [|discriminate H]. destruct (if fd then wr else None) as [n|].
    + apply pseq_inv in H as [[H _]|(c1 & o1 & o2 & H1 & H2 & ->)]; [discriminate H|].
      unfold pemit in H1. inversion H1; subst; clear H1. destruct c1 as [st ti li rx]. unfold J in HJ. cbn [p_st p_timer p_link] in *. subst st li.
      destruct HJ as (_ & -> & _). pstates. inversion H2; subst; clear H2. reflexivity.
    + pose proof (fail_ok role us NError c c' os t ph r []) as F. destruct F as (p & _ & _ & S); auto using A_init; solve [now left|congruence|intros B; discriminate B].
  - destruct (p_st c) eqn:Est; try (match type of H with pskip _ = _ => unfold pskip in H; inversion H; subst; exact HA end).
    + assert (ph = Trying) as -> by (unfold J in HJ; rewrite Est in HJ; tauto).
      unfold p_receive in H. destruct (u_receive _ rd) as [[ct res]|] eqn:Er; [|discriminate H].
      assert (HJ' : J (y_rx c (t_rx ct)) Trying r) by now apply J_rx.
      assert (Fail : forall cx px pre, J cx Trying r -> p_st cx = PsShake -> p_fail (p_calls role us) cx = Some (c', px, t) -> mannered (pre ++ px) -> A c').
      { intros cx px pre Jx Sx F Mx. pose proof (fail_ok role us NError cx c' px t Trying r pre) as FF. destruct FF as (p & _ & _ & S); auto using A_init; solve [now left|congruence|intros B; discriminate B]. }
      destruct res; try (match type of H with pskip _ = _ => unfold pskip in H; inversion H; subst; exact HA end).
      * unfold p_shake in H. cbv zeta in H. cbn [y_rx p_rx] in H.
        assert (Upx : forall b pre px, p_transit PsConn true (p_calls role us) (y_rx (y_rx c (t_rx ct)) b) = Some (c', px, t) -> mannered (pre ++ px) -> A c').
        { intros b pre px Ht Mx. destruct (up_ok role us _ c' px t r pre (J_rx _ b _ _ HJ') Ht Mx) as (p & _ & _ & S & Ti & _). unfold A. now rewrite S. }
        destruct role.
        -- destruct (has_octets _ _); [|eapply (Fail _ _ []); eauto]. destruct (dec_ack_msg (t_rx ct)) as [a b| | |]; try discriminate H. eapply (Upx b []); eauto.
        -- destruct (has_octets _ _); [|eapply (Fail _ _ []); eauto]. destruct (dec_hello_msg (t_rx ct)) as [a b| | |]; [| |discriminate H|discriminate H].
           ++ unfold p_send_enc in H. rewrite ackp_eq in H. unfold p_send in H. cbn [y_rx p_link] in H. destruct (p_link c) as [fd|]; [|discriminate H].
              destruct (if fd then wr else None) as [n|].
              ** apply pseq_inv in H as [[H _]|(c1 & o1 & o2 & H1 & H2 & ->)]; [discriminate H|].
                 unfold pemit in H1. inversion H1; subst; clear H1. eapply Upx; eauto.
              ** eapply (Fail (y_rx (y_rx c (t_rx ct)) b) _ []); eauto using J_rx.
           ++ unfold pthrow in H. inversion H; subst. exact HA.
      * eapply (Fail _ _ []); eauto.
    + assert (ph = Up) as -> by (unfold J in HJ; rewrite Est in HJ; tauto).
      unfold p_receive in H. destruct (u_receive _ rd) as [[ct res]|] eqn:Er; [|discriminate H].
      assert (HJ' : J (y_rx c (t_rx ct)) Up r) by now apply J_rx.
      destruct res; try (match type of H with pskip _ = _ => unfold pskip in H; inversion H; subst; exact HA end).
      * cbn [y_rx p_rx] in H. remember (firstn (k_head (t_rx ct)) (k_pkt (t_rx ct))) as msg. clear Heqmsg.
        unfold p_note in H. apply pseq_inv in H as [[H ->]|(c1 & o1 & o2 & H1 & H2 & ->)].
        -- apply pseq_inv in H as [[H _]|(c1 & o1 & o2 & H1 & H2 & ->)]; [discriminate H|].
           unfold pemit in H1. inversion H1; subst; clear H1. apply dials_app in Dl as [_ Dl]. eapply calls_A; [|exact H2|exact Dl]. now apply A_rx.
        -- apply dials_app in Dl as [Dl _]. apply pseq_inv in H1 as [[H1 _]|(c2 & o3 & o4 & H3 & H4 & ->)]; [discriminate H1|].
           unfold pemit in H3. inversion H3; subst; clear H3. apply dials_app in Dl as [_ Dl].
           unfold p_preact, pset in H2. inversion H2; subst; clear H2. apply A_rx. eapply calls_A; [|exact H4|exact Dl]. now apply A_rx.
      * pose proof (fail_ok role us NError (y_rx c (t_rx ct)) c' os t Up r []) as FF. destruct FF as (p & _ & _ & S); auto using A_init; solve [now left|cbn; congruence|intros B; discriminate B].
  - destruct (p_st c) eqn:Est; try (match type of H with pskip _ = _ => unfold pskip in H; inversion H; subst; exact HA end).
    pose proof (ending_ok role us NError (y_link c (Some false)) c' os t ph r []) as FF. destruct FF as (p & _ & _ & S); auto using A_init; solve [now left|cbn; congruence|intros B; discriminate B|apply J_link; [exact HJ|discriminate]].
  - assert (HJ' : J (y_timer c (Some None)) ph None \/ p_st c = PsInit).
    { unfold J in *. destruct c as [st ti li rx]. cbn [p_st p_timer p_link y_timer] in *. destruct st; [now right|left; intuition..]. }
    destruct (p_st c) eqn:Est.
    + exfalso. cbn in En. unfold J in HJ. rewrite Est in HJ. destruct HJ as (_ & _ & B). rewrite B in En. discriminate En.
    + destruct HJ' as [HJ'|B]; [|discriminate B]. pose proof (fail_ok role us NError (y_timer c (Some None)) c' os t ph None []) as FF. destruct FF as (p & _ & _ & S); auto using A_init; solve [now left|cbn; congruence|intros B; discriminate B].
    + destruct HJ' as [HJ'|B]; [|discriminate B]. pose proof (fail_ok role us NError (y_timer c (Some None)) c' os t ph None []) as FF. destruct FF as (p & _ & _ & S); auto using A_init; solve [now left|cbn; congruence|intros B; discriminate B].
    + destruct HJ' as [HJ'|B]; [|discriminate B]. pose proof (fail_ok role us NClosed (y_timer c (Some None)) c' os t ph None []) as FF. destruct FF as (p & _ & _ & S); auto using A_init; solve [now right|cbn; congruence|intros B; discriminate B].
Qed.

(** ** Histories *)
Definition all_dial (tr : ptrace) : Prop := Forall (fun x => dials (snd x)) tr.
Definition threw (tr : ptrace) : bool := existsb is_pthrow (pouts tr).

Lemma umem_len b0 : umem_ok b0 -> length b0 = pktLen /\ bytes_ok b0.
Proof. intros [H1 H2]. pose proof pktLen_Z. split; [lia|exact H2]. Qed.

Theorem reach_inv role b0 c tr : preach role b0 c tr -> well_mannered tr ->
  exists ph, phases Idle (pouts tr) = Some ph /\ J c ph (running tr) /\ X c (unread tr) (threw tr) /\ (all_dial tr -> A c).
Proof.
  induction 1 as [Hm|c tr e c' os t R IH Ok En St]; intros W.
  - exists Idle. split; [reflexivity|]. split; [cbn; auto|]. split; [|intros _; exact I].
    destruct (umem_len _ Hm). constructor; cbn; auto; intuition discriminate.
  - apply Forall_app in W as [W1 W2]. inversion W2; subst. cbn [snd] in *. destruct (IH W1) as (ph & E & HJ & HX & HA).
    destruct (step_ok _ _ _ _ _ _ _ _ HJ En St) as (p & E2 & J2); [assumption|].
    destruct (step_X _ _ _ _ _ _ _ _ _ _ HJ HX Ok En St) as (X2 & _); [assumption|].
    exists p. rewrite pouts_snoc, phases_app, E, running_snoc, unread_snoc. unfold threw. rewrite pouts_snoc, existsb_app.
    split; [exact E2|]. split; [exact J2|]. split; [exact X2|].
    intros AD. apply Forall_app in AD as [AD1 AD2]. inversion AD2; subst. cbn [snd] in *. eauto using step_A.
Qed.

Lemma preach_snoc role b0 c' tr e os : preach role b0 c' (tr ++ [(e, os)]) ->
  exists c t, preach role b0 c tr /\ pev_ok e /\ p_enabled c e = true /\ p_step role e c = Some (c', os, t).
Proof.
  intros H. remember (tr ++ [(e, os)]) as tr' eqn:E. destruct H as [Hm|c tr2 e2 c2 os2 t R Ok En St].
  - destruct tr; discriminate E.
  - apply app_inj_tail in E as [-> E]. inversion E; subst. eauto 10.
Qed.

Theorem step_Q role b0 c tr e os : preach role b0 c (tr ++ [(e, os)]) -> well_mannered (tr ++ [(e, os)]) ->
  Q role (unread tr) (threw tr) e os.
Proof.
  intros R W. apply preach_snoc in R as (c0 & t & R & Ok & En & St). apply Forall_app in W as [W1 W2]. inversion W2; subst. cbn [snd] in *.
  destruct (reach_inv _ _ _ _ R W1) as (ph & E & HJ & HX & HA). now destruct (step_X _ _ _ _ _ _ _ _ _ _ HJ HX Ok En St).
Qed.

(** ** The end of an attempt *)
Lemma timer_end role c ph r : J c ph r -> p_st c <> PsInit -> exists c' n, p_step role (PvTimer []) c = Some (c', [PShut; PNote n; PDisarm; PFreed], false) /\
  n = (match ph with Up => NClosed | _ => NError end).
Proof.
  unfold J. destruct c as [st ti li rx]. cbn [p_st p_timer p_link]. intros HJ Hn. destruct st; [congruence| | |]; destruct HJ as (-> & -> & Hl);
    destruct li as [l|]; try congruence; eexists _, _; (split; [|reflexivity]); reflexivity.
Qed.

(** A failed Link::connect leaves an attempt that nothing ends. *)
Definition stuck (c : pconn) : Prop := p_st c = PsDial /\ p_timer c = Some None /\ p_link c = Some false.
Lemma stuck_call role k c c' os t : stuck c -> p_call role k c = Some (c', os, t) ->
  c' = c /\ forall o, In o os -> match o with PUser _ => True | PSent ok => ok = false | _ => False end.
Proof.
  destruct c as [st ti li rx]. intros (A1 & A2 & A3). cbn in A1, A2, A3. subst. intros H. destruct k; pstates; prun H; inversion H; subst; clear H;
    (split; [reflexivity|]); intros o Ho; repeat (destruct Ho as [<-|Ho]; [first [exact I|reflexivity]|]); destruct Ho.
Qed.
Lemma stuck_step role e c c' os t : stuck c -> p_enabled c e = true -> p_step role e c = Some (c', os, t) ->
  c' = c /\ forall o, In o os -> match o with PUser _ => True | PSent ok => ok = false | _ => False end.
Proof.
  intros S En H. destruct e; cbn [p_step] in H; [eauto using stuck_call|..]; exfalso; destruct S as (A1 & A2 & A3); cbn in En; rewrite ?A2, ?A3 in En; discriminate En.
Qed.

(** ** Segmentation *)
Fixpoint prun (role : prole) (c : pconn) (es : list pev) : option (pconn * list (list pout)) :=
  match es with
  | [] => Some (c, [])
  | e :: r => if p_enabled c e then
                match p_step role e c with
                | Some (c1, os, _) => match prun role c1 r with Some (c2, oss) => Some (c2, os :: oss) | None => None end
                | None => None
                end
              else None
  end.

Definition holding (c : pconn) (x : list Z) : pconn := y_rx c (mkSdu 0 (length x) (buf_write (k_pkt (p_rx c)) 0 x)).
Lemma holding_nil c : k_head (p_rx c) = 0%nat -> k_tail (p_rx c) = 0%nat -> holding c [] = c.
Proof. destruct c as [st ti li [ta he pk]]. cbn. intros -> ->. reflexivity. Qed.

Section Seg.
Variables (role : prole) (c : pconn).
Hypothesis Hst : p_st c = PsConn.
Hypothesis Hl : p_link c = Some true.
Hypothesis Hlen : length (k_pkt (p_rx c)) = pktLen.
Hypothesis Hh : k_head (p_rx c) = 0%nat.
Hypothesis Ht : k_tail (p_rx c) = 0%nat.

Lemma holding_receive x y : (length x <= 1024)%nat -> (length x + length y <= pktLen)%nat ->
  forall k, p_receive (RxBytes y) k (holding c x) = p_receive (RxBytes (x ++ y)) k c.
Proof.
  intros Hx Hy k. unfold p_receive, holding. cbn [y_rx p_timer p_link p_rx].
  pose proof (receive_merge (mkT UConn (p_timer c) (p_link c) (p_rx c) None) x y) as E. cbn [t_link t_rx z_rx t_st t_timer t_chan] in E.
  unfold z_rx in E. cbn [t_st t_timer t_link t_rx t_chan] in E. rewrite Ht in E. rewrite E by (auto; lia). reflexivity.
Qed.

Lemma seg_step m x y z w : sized m -> m = (x ++ y) ++ z -> z <> [] -> (length (x ++ y) <= 1024)%nat ->
  p_step role (PvData (RxBytes y) w []) (holding c x) = Some (holding c (x ++ y), [], false).
Proof.
  intros Hs Hm Hz Hx. pose proof pktLen_Z. rewrite app_length in Hx. cbn [p_step]. cbn [holding y_rx p_st]. rewrite Hst. rewrite holding_receive by lia.
  unfold p_receive. rewrite (receive_wait _ m (x ++ y) z); auto; rewrite app_length; lia.
Qed.
Lemma seg_enabled x y w : p_enabled (holding c x) (PvData (RxBytes y) w []) = true.
Proof. cbn. now rewrite Hl. Qed.

Lemma seg_run m y w segs : sized m -> y <> [] -> forall x, m = x ++ concat segs ++ y -> (length (x ++ concat segs) <= 1024)%nat ->
  prun role (holding c x) (map (fun s => PvData (RxBytes s) w []) segs) = Some (holding c (x ++ concat segs), map (fun _ => []) segs).
Proof.
  intros Hs Hy. induction segs as [|s segs IH]; intros x Hm Hx.
  - cbn. now rewrite app_nil_r.
  - cbn [map prun]. rewrite seg_enabled. cbn [concat] in Hm, Hx.
    rewrite (seg_step m x s (concat segs ++ y) w); auto.
    + rewrite IH; [|now rewrite Hm, <- !app_assoc|now rewrite <- app_assoc]. cbn [concat]. now rewrite <- app_assoc.
    + now rewrite Hm, <- !app_assoc.
    + destruct (concat segs); [exact Hy|discriminate].
    + rewrite app_assoc in Hx. rewrite app_length in Hx. lia.
Qed.

Lemma seg_last m x y w : sized m -> m = x ++ y -> (length x <= 1024)%nat -> Z.of_nat (length m) <= 4096 ->
  exists c', p_step role (PvData (RxBytes y) w []) (holding c x) = Some (c', [PNote (NData m)], false).
Proof.
  intros Hs Hm Hx Hlm. pose proof pktLen_Z. assert (length m = (length x + length y)%nat) by (rewrite Hm, app_length; lia).
  cbn [p_step]. cbn [holding y_rx p_st]. rewrite Hst. rewrite holding_receive by lia. rewrite <- Hm.
  unfold p_receive. rewrite receive_done; auto; [|lia]. cbn [t_rx z_rx y_rx p_rx k_head k_pkt].
  assert (E : firstn (length m) (buf_write (k_pkt (p_rx c)) 0 m) = m).
  { rewrite bw_put. cbn [firstn app]. rewrite firstn_app, Nat.sub_diag, firstn_O, app_nil_r. apply firstn_all. }
  rewrite E. eexists. reflexivity.
Qed.
End Seg.

(** ** Definedness *)
Lemma ack_defined h p : (28 <= length p)%nat -> exists v b, dec_ack_msg (mkSdu 0 h p) = DOk v b.
Proof.
  intros H. do 28 (destruct p as [|? p]; [cbn in H; lia|]). clear H.
  eexists _, _. cbv [dec_ack_msg bind dec_mhdr dec_ack dec_each fresh dec_byte dec_u32 rd32 read k_tail k_head k_pkt nth_error mh_type mhdr0 ret Nat.add]. reflexivity.
Qed.

Lemma calls_quiet role ks : forall c, p_st c <> PsInit -> p_link c <> None -> ~ In KClose ks ->
  exists os, p_calls role ks c = Some (c, os, false).
Proof.
  induction ks as [|k ks IH]; intros c Hs Hl N; [eexists; reflexivity|]. cbn [p_calls].
  destruct (IH c Hs Hl) as [o2 E2]; [intros B; apply N; now right|].
  assert (exists o1, p_call role k c = Some (c, o1, false)) as [o1 E1].
  { destruct c as [st ti li rx]. cbn [p_st p_link] in *. destruct li as [l|]; [|congruence].
    destruct k; [destruct st; try congruence; eexists; reflexivity|destruct st; try congruence; eexists; reflexivity|exfalso; apply N; now left|].
    pstates. destruct st; (destruct (if l then w else None); [eexists; reflexivity|eexists; reflexivity]). }
  unfold pseq. rewrite E1, E2. eauto.
Qed.

Lemma home_defined c : (p_st c <> PsInit -> p_timer c <> None) -> exists c' os, p_home c = Some (c', os, false).
Proof.
  destruct c as [st ti li rx]. cbn [p_st p_timer]. intros H. destruct st; [eexists _, _; reflexivity|..];
    (destruct ti as [ti|]; [eexists _, _; reflexivity|exfalso; apply H; congruence]).
Qed.
Lemma fail_defined role us n c : p_st c <> PsInit -> p_link c <> None -> p_timer c <> None -> ~ In KClose us ->
  exists c' os, (p_shut ;> p_note n (p_calls role us) ;> p_home) c = Some (c', os, false).
Proof.
  intros Hs Hl Ht N.
  destruct (calls_quiet role us (y_link c (Some false))) as [o1 E1]; auto; [cbn; congruence|].
  destruct (home_defined (y_link c (Some false))) as (c' & o2 & E2); [auto|].
  exists c', ([PShut] ++ ([PNote n] ++ o1) ++ o2). unfold pseq at 1. unfold p_shut. destruct (p_link c); [|congruence].
  cbv [pseq pset pemit p_note app]. rewrite E1, E2. reflexivity.
Qed.
Lemma ending_defined role us n c : p_st c <> PsInit -> p_link c <> None -> p_timer c <> None -> ~ In KClose us ->
  exists c' os, (p_note n (p_calls role us) ;> p_home) c = Some (c', os, false).
Proof.
  intros Hs Hl Ht N. destruct (calls_quiet role us c) as [o1 E1]; auto. destruct (home_defined c) as (c' & o2 & E2); [auto|].
  eexists c', _. cbv [pseq pset pemit p_note]. rewrite E1, E2. reflexivity.
Qed.
Lemma up_defined role us c : p_st c = PsShake -> p_link c <> None -> p_timer c <> None -> ~ In KClose us ->
  exists c' os, p_transit PsConn true (p_calls role us) c = Some (c', os, false).
Proof.
  intros Hs Hl Ht N. unfold p_transit. rewrite Hs. cbn [pst_eqb p_exit].
  destruct (p_timer c) as [ti|] eqn:Et; [|congruence].
  destruct (calls_quiet role us (y_st (y_timer c (Some None)) PsConn)) as [o1 E1]; auto; [cbn; congruence|].
  eexists _, _. cbv [p_enter pseq p_stop pset pemit p_note]. rewrite Et. rewrite E1.
  cbv [p_preact pset p_start y_rx y_st y_timer p_timer pseq pemit app]. reflexivity.
Qed.

(** The handler of event [e] never closes; send() is called with a link only. *)
Definition no_close (e : pev) : Prop :=
  match e with
  | PvCall _ => True
  | PvConnected _ us | PvData _ _ us | PvError us | PvTimer us => ~ In KClose us
  end.
Lemma receive_defined c r : length (k_pkt (p_rx c)) = pktLen -> p_link c <> None -> k_tail (p_rx c) = 0%nat ->
  exists t res, u_receive (mkT UConn (p_timer c) (p_link c) (p_rx c) None) r = Some (t, res).
Proof.
  intros Hlen Hl Ht. pose proof pktLen_Z as PZ. unfold u_receive. cbn [t_rx t_link]. destruct (1024 <? Z.of_nat (k_head (p_rx c))) eqn:E0; [eauto|].
  destruct (p_link c) as [fd|]; [|congruence]. destruct (if fd then r else RxErr) as [| |bs]; [eauto|eauto|].
  destruct (Z.ltb_spec (Z.of_nat (k_head (p_rx c) + length (firstn (length (k_pkt (p_rx c)) - k_head (p_rx c)) bs))) 8); [eauto|].
  rewrite Ht. assert (Hp : length (buf_write (k_pkt (p_rx c)) (k_head (p_rx c)) (firstn (length (k_pkt (p_rx c)) - k_head (p_rx c)) bs)) = pktLen).
  { rewrite bw_length; [lia|]. rewrite firstn_length. lia. }
  remember (buf_write (k_pkt (p_rx c)) (k_head (p_rx c)) (firstn (length (k_pkt (p_rx c)) - k_head (p_rx c)) bs)) as bb. clear Heqbb.
  assert (G : exists z, getMsgSizeFromHdr (skipn 0 bb) = Some z).
  { assert (8 <= length bb)%nat by lia. clear - H0. rewrite skipn_O. do 8 (destruct bb as [|? bb]; [cbn in H0; lia|]). unfold getMsgSizeFromHdr, le32_at. cbn. eauto. }
  destruct G as [z ->]. destruct (_ <? z); [eauto|]. destruct (negb _); eauto.
Qed.

Lemma step_defined role e c ph r w thr : J c ph r -> X c w thr -> pev_ok e -> p_enabled c e = true -> no_close e ->
  (forall p wr, e = PvCall (KSend p wr) -> ph <> Idle) -> (role = RClient \/ ph <> Trying \/ forall bs wr us, e <> PvData (RxBytes bs) wr us) -> thr = false ->
  exists c' os t, p_step role e c = Some (c', os, t).
Proof.
  intros HJ HX Ok En N Snd Rl Thr.
  assert (R : p_st c <> PsInit -> p_link c <> None /\ p_timer c <> None).
  { intros B. unfold J in HJ. destruct (p_st c); [congruence|..]; destruct HJ as (_ & -> & HJ); (split; [exact HJ|congruence]). }
  destruct e as [k|wr us|rd wr us|us|us]; cbn [p_step no_close] in *.
  - destruct k as [l tk ck|tk| |p wr].
    + destruct c as [st ti li rx]. destruct st; try (eexists _, _, _; reflexivity). destruct l, tk, ck; eexists _, _, _; reflexivity.
    + destruct c as [st ti li rx]. destruct st; try (eexists _, _, _; reflexivity). destruct role, tk; eexists _, _, _; reflexivity.
    + destruct c as [st ti li rx]. destruct st; try (eexists _, _, _; reflexivity).
      cbn in R. destruct R as (R1 & R2); [congruence|]. destruct li; [|congruence]. destruct ti; [|congruence]. eexists _, _, _; reflexivity.
    + assert (Hn : p_st c <> PsInit). { intros B. unfold J in HJ. rewrite B in HJ. destruct HJ as (-> & _). now apply (Snd p wr). }
      destruct (R Hn) as (R1 & R2). destruct c as [st ti li rx]. cbn in R1. destruct li as [l|]; [|congruence]. pstates.
      destruct st; (destruct (if l then wr else None); eexists _, _, _; reflexivity).
  - destruct (p_st c) eqn:Est; try (eexists _, _, _; reflexivity). destruct R as (R1 & R2); [congruence|].
    unfold p_send_enc. rewrite greeting_eq. unfold p_send. destruct (p_link c) as [fd|] eqn:El; [|congruence]. destruct (if fd then wr else None) as [n|].
    + destruct c as [st ti li rx]. cbn [p_st p_timer p_link] in *. subst. destruct ti; [|congruence]. eexists _, _, _; reflexivity.
    + destruct (fail_defined role us NError c) as (c' & os & E); try congruence. exists c', os, false. exact E.
  - destruct (p_st c) eqn:Est; try (eexists _, _, _; reflexivity); (destruct R as (R1 & R2); [congruence|]).
    + assert (ph = Trying) as -> by (unfold J in HJ; rewrite Est in HJ; tauto). destruct Rl as [->|[B|B]]; [|congruence|].
      2:{ assert (Hl : p_link c = Some true) by (cbn in En; destruct (p_link c) as [[]|]; congruence).
          destruct (fail_defined role us NError c) as (c' & os & E); [congruence|congruence|congruence|exact N|].
          unfold p_receive, u_receive. cbn [t_rx t_link]. rewrite Hl. replace (y_rx c (p_rx c)) with c by (now destruct c). destruct (1024 <? _); [exists c', os, false; exact E|].
          destruct rd as [| |bs]; [eexists _, _, _; reflexivity|exists c', os, false; exact E|exfalso; now apply (B bs wr us)]. }
      assert (Ht : k_tail (p_rx c) = 0%nat) by (destruct HX; auto).
      destruct (receive_defined c rd (x_len _ _ _ HX) R1 Ht) as (ct & res & Er). unfold p_receive. rewrite Er.
      assert (Hl : p_link c = Some true) by (cbn in En; destruct (p_link c) as [[]|]; congruence).
      destruct (receive_ok (mkT UConn (p_timer c) (p_link c) (p_rx c) None) w rd ct res) as (SA & T & _);
        [apply HX|apply HX|apply HX; auto|exact Hl|destruct rd; auto|exact Er|]. cbn [t_rx] in T. destruct SA as [_ _ _ _ Sl Sb].
      destruct res; try (eexists _, _, _; reflexivity).
      * unfold p_shake. cbv zeta. cbn [y_rx p_rx]. destruct (has_octets _ _).
        -- assert (Eb : t_rx ct = mkSdu 0 (k_head (t_rx ct)) (k_pkt (t_rx ct))) by (rewrite Ht in T; destruct (t_rx ct); cbn in *; now subst).
           pose proof pktLen_Z. destruct (ack_defined (k_head (t_rx ct)) (k_pkt (t_rx ct))) as (v & b & Ed); [lia|]. rewrite <- Eb in Ed. rewrite Ed.
           destruct (up_defined RClient us (y_rx (y_rx c (t_rx ct)) b)) as (c' & os & E); auto. rewrite E. eauto.
        -- destruct (fail_defined RClient us NError (y_rx c (t_rx ct))) as (c' & os & E); cbn; try congruence. exists c', os, false. exact E.
      * destruct (fail_defined RClient us NError (y_rx c (t_rx ct))) as (c' & os & E); cbn; try congruence. exists c', os, false. exact E.
    + assert (Ht : k_tail (p_rx c) = 0%nat) by (destruct HX; auto).
      destruct (receive_defined c rd (x_len _ _ _ HX) R1 Ht) as (ct & res & Er). unfold p_receive. rewrite Er.
      destruct res; try (eexists _, _, _; reflexivity).
      * destruct (calls_quiet role us (y_rx c (t_rx ct))) as [o1 E1]; cbn; try congruence.
        cbv [p_note pseq pemit]. rewrite E1. cbv [p_preact pset]. eauto.
      * destruct (fail_defined role us NError (y_rx c (t_rx ct))) as (c' & os & E); cbn; try congruence. exists c', os, false. exact E.
  - destruct (p_st c) eqn:Est; try (eexists _, _, _; reflexivity). destruct R as (R1 & R2); [congruence|].
    destruct (ending_defined role us NError (y_link c (Some false))) as (c' & os & E); cbn; try congruence. rewrite E. eauto.
  - destruct (p_st c) eqn:Est; try (eexists _, _, _; reflexivity); (destruct R as (R1 & R2); [congruence|]).
    + destruct (fail_defined role us NError (y_timer c (Some None))) as (c' & os & E); cbn; try congruence. exists c', os, false. exact E.
    + destruct (fail_defined role us NError (y_timer c (Some None))) as (c' & os & E); cbn; try congruence. exists c', os, false. exact E.
    + destruct (fail_defined role us NClosed (y_timer c (Some None))) as (c' & os & E); cbn; try congruence. exists c', os, false. exact E.
Qed.

(** ** Links and timers are taken together *)
Definition PB (m : pm) : Prop := forall c c' os t, m c = Some (c', os, t) -> has_timers os -> pcount is_plink os = pcount is_ptimer os.
Lemma has_timers_app a b : has_timers (a ++ b) -> has_timers a /\ has_timers b.
Proof. intros H. split; intros l k; destruct (H l k) as [H1 H2]; split; intros B; [apply H1|apply H2|apply H1|apply H2]; apply in_or_app; auto. Qed.
Lemma PB_seq a b : PB a -> PB b -> PB (a ;> b).
Proof.
  intros Ha Hb c c' os t H T. apply pseq_inv in H as [[H _]|(c1 & o1 & o2 & H1 & H2 & ->)]; [eauto|].
  apply has_timers_app in T as [T1 T2]. rewrite !pcount_app. rewrite (Ha _ _ _ _ H1 T1), (Hb _ _ _ _ H2 T2). reflexivity.
Qed.
Lemma PB_call role k : PB (p_call role k).
Proof.
  intros [st ti li rx] c' os t H T.
  destruct st, k; pstates; prun H; inversion H; subst; clear H; try reflexivity; exfalso; (first [eapply (proj1 (T _ _)); left; reflexivity|eapply (proj2 (T true true)); left; reflexivity]).
Qed.
Lemma PB_calls role ks : PB (p_calls role ks).
Proof. induction ks; cbn [p_calls]; [intros c c' os t H _; inversion H; subst; reflexivity|apply PB_seq; auto using PB_call]. Qed.
Lemma PB_emit o : is_plink o = false -> is_ptimer o = false -> PB (pemit o).
Proof. intros H1 H2 c c' os t H _. inversion H; subst. unfold pcount. cbn. now rewrite H1, H2. Qed.
Lemma PB_stop : PB p_stop.
Proof. intros c c' os t H _. unfold p_stop in H. destruct (p_timer c); [|discriminate H]. cbv in H. inversion H; subst. reflexivity. Qed.
Lemma PB_start us : PB (p_start us).
Proof. intros c c' os t H _. unfold p_start in H. destruct (p_timer c); [|discriminate H]. cbv in H. inversion H; subst. reflexivity. Qed.
Lemma PB_shut : PB p_shut.
Proof. intros c c' os t H _. unfold p_shut in H. destruct (p_link c); [|discriminate H]. cbv in H. inversion H; subst. reflexivity. Qed.
Lemma PB_set f : PB (pset f).
Proof. intros c c' os t H _. inversion H; subst. reflexivity. Qed.
Lemma PB_skip : PB pskip.
Proof. intros c c' os t H _. inversion H; subst. reflexivity. Qed.
Lemma PB_note n cb : PB cb -> PB (p_note n cb).
Proof. intros H. apply PB_seq; [now apply PB_emit|exact H]. Qed.
Lemma PB_transit st cb : st <> PsDial -> PB cb -> PB (p_transit st true cb).
Proof.
  intros Hs Hc c c' os t H T. unfold p_transit in H. destruct (pst_eqb _ _); [inversion H; subst; reflexivity|].
  revert H T. apply PB_seq; [destruct (p_st c); cbn; auto using PB_skip, PB_stop|]. apply PB_seq; [apply PB_set|].
  destruct st; cbn [p_enter]; [|congruence| |].
  - apply PB_seq; [apply PB_set|now apply PB_emit].
  - apply PB_seq; [apply PB_start|apply PB_set].
  - apply PB_seq; [now apply PB_note|]. apply PB_seq; [apply PB_set|apply PB_start].
Qed.
Lemma PB_home : PB p_home.
Proof. apply PB_transit; [discriminate|apply PB_skip]. Qed.
Lemma PB_fail cb n : PB cb -> PB (p_shut ;> p_note n cb ;> p_home).
Proof. intros H. apply PB_seq; [apply PB_shut|]. apply PB_seq; [now apply PB_note|apply PB_home]. Qed.
Lemma PB_send pkt w k : (forall b, PB (k b)) -> PB (p_send pkt w k).
Proof.
  intros Hk c c' os t H T. unfold p_send in H. destruct (p_link c) as [fd|]; [|discriminate H]. destruct (if fd then w else None).
  - revert H T. apply PB_seq; [now apply PB_emit|auto].
  - exact (Hk _ _ _ _ _ H T).
Qed.
Lemma PB_send_enc e w k : (forall b, PB (k b)) -> PB (p_send_enc e w k).
Proof. intros Hk c c' os t H T. unfold p_send_enc in H. destruct (tx_packet e []); [|discriminate H]. exact (PB_send _ _ _ Hk _ _ _ _ H T). Qed.
Lemma PB_step role e : PB (p_step role e).
Proof.
  intros c c' os t H T. destruct e as [k|w us|rd w us|us|us]; cbn [p_step] in H.
  - exact (PB_call _ _ _ _ _ _ H T).
  - destruct (p_st c); try exact (PB_skip _ _ _ _ H T). revert H T. apply PB_send_enc. intros []; [apply PB_transit; [discriminate|apply PB_skip]|apply PB_fail, PB_calls].
  - destruct (p_st c); try exact (PB_skip _ _ _ _ H T); unfold p_receive in H; destruct (u_receive _ rd) as [[ct res]|]; try discriminate H.
    + destruct res; try exact (PB_skip _ _ _ _ H T); [|exact (PB_fail _ _ (PB_calls _ _) _ _ _ _ H T)].
      unfold p_shake in H. cbv zeta in H. destruct role.
      * destruct (has_octets _ _); [|exact (PB_fail _ _ (PB_calls _ _) _ _ _ _ H T)]. destruct (dec_ack_msg _); [|discriminate H..].
        revert H T. apply PB_transit; [discriminate|apply PB_calls].
      * destruct (has_octets _ _); [|exact (PB_fail _ _ (PB_calls _ _) _ _ _ _ H T)]. destruct (dec_hello_msg _); [|inversion H; subst; reflexivity|discriminate H..].
        revert H T. apply PB_send_enc. intros []; [apply PB_transit; [discriminate|apply PB_calls]|apply PB_fail, PB_calls].
    + destruct res; try exact (PB_skip _ _ _ _ H T); [|exact (PB_fail _ _ (PB_calls _ _) _ _ _ _ H T)].
      revert H T. apply PB_seq; [apply PB_note, PB_calls|apply PB_set].
  - destruct (p_st c); try exact (PB_skip _ _ _ _ H T). revert H T. apply PB_seq; [apply PB_note, PB_calls|apply PB_home].
  - destruct (p_st c); try exact (PB_skip _ _ _ _ H T); exact (PB_fail _ _ (PB_calls _ _) _ _ _ _ H T).
Qed.
Theorem reach_links role b0 c tr : preach role b0 c tr -> has_timers (pouts tr) -> pcount is_plink (pouts tr) = pcount is_ptimer (pouts tr).
Proof.
  induction 1 as [|c tr e c' os t R IH Ok En St]; intros T; [reflexivity|].
  rewrite pouts_snoc in *. apply has_timers_app in T as [T1 T2]. rewrite !pcount_app, IH by exact T1. cbn [snd] in *. now rewrite (PB_step _ _ _ _ _ _ St T2).
Qed.

(** ** Single events *)
Lemma J_up c r : J c Up r -> p_st c = PsConn.
Proof. unfold J. destruct (p_st c); intuition congruence. Qed.
Lemma J_dial c r : J c Trying r -> A c -> r = Some connectTimeout -> p_st c = PsDial.
Proof. unfold J, A, connectTimeout, receiveTimeout, establishTimeout. destruct (p_st c); intuition; congruence. Qed.

Lemma up_arms role e c c' os t r r' : J c Up r -> J c' Up r' -> p_step role e c = Some (c', os, t) -> forall us, ~ In (PArm us) os.
Proof.
  intros HJ HJ' H. apply J_up in HJ, HJ'.
  assert (HC : forall ks (c c' : pconn) os t, p_calls role ks c = Some (c', os, t) -> p_st c = PsConn -> p_st c' = PsConn -> forall us, ~ In (PArm us) os).
  { clear. intros ks c c' os t H E E'. apply calls_D in H as (HD & _ & _). unfold D in HD. intuition; congruence. }
  assert (HF : forall n us (c1 : pconn) , (p_shut ;> p_note n (p_calls role us) ;> p_home) c1 = Some (c', os, t) -> p_st c1 = PsConn -> forall us, ~ In (PArm us) os).
  { clear - HJ'. intros n us c1 H E us'. apply pseq_inv in H as [[H ->]|(c2 & o1 & o2 & H1 & H2 & ->)].
    - apply shut_ok in H as (B & _). discriminate B.
    - assert (E2 : p_st c2 = PsConn /\ forall us, ~ In (PArm us) o1).
      { unfold p_shut in H1. destruct (p_link c1); [|discriminate H1]. cbv in H1. inversion H1; subst. split; [exact E|]. cbn. intuition congruence. }
      destruct E2 as [E2 N1]. clear H1.
      assert False as []. apply pseq_inv in H2 as [[H2 ->]|(c3 & o3 & o4 & H3 & H4 & ->)].
      + unfold p_note in H2. apply pseq_inv in H2 as [[H2 _]|(c4 & o3 & o4 & H3 & H4 & ->)]; [discriminate H2|]. apply calls_throw in H4. intuition congruence.
      + unfold p_home, p_transit in H4. destruct (p_st c3) eqn:E3; cbn [pst_eqb p_exit] in H4; [inversion H4; subst; congruence|..];
          (apply pseq_inv in H4 as [[H4 _]|(c4 & o5 & o6 & H5 & H6 & ->)];
           [unfold p_stop in H4; destruct (p_timer c3); [discriminate H4|discriminate H4]|]; cbv [pseq pset p_enter p_release pemit] in H6; inversion H6; subst; cbn in HJ'; discriminate HJ'). }
  destruct e as [k|w us|rd w us|us|us]; cbn [p_step] in H; rewrite ?HJ in H.
  - apply call_D in H as (HD & _ & _). unfold D in HD. intuition; congruence.
  - inversion H; subst. intros ? [].
  - unfold p_receive in H. destruct (u_receive _ rd) as [[ct res]|]; [|discriminate H]. destruct res; try (inversion H; subst; intros ? []; fail).
    + unfold p_note in H. apply pseq_inv in H as [[H ->]|(c1 & o1 & o2 & H1 & H2 & ->)].
      * apply pseq_inv in H as [[H _]|(c1 & o1 & o2 & H1 & H2 & ->)]; [discriminate H|]. apply calls_throw in H2. intuition congruence.
      * unfold p_preact, pset in H2. inversion H2; subst; clear H2. cbn in HJ'. apply pseq_inv in H1 as [[H1 _]|(c2 & o3 & o4 & H3 & H4 & ->)]; [discriminate H1|].
        unfold pemit in H3. inversion H3; subst; clear H3. intros us'. rewrite app_nil_r. intros [B|B]; [discriminate B|]. revert B. eapply HC; eauto.
    + exact (HF _ _ _ H HJ).
  - inversion H; subst. intros ? [].
  - exact (HF _ _ (y_timer c (Some None)) H HJ).
Qed.

(** Runs. *)
Lemma prun_reach role b0 es : forall c tr c' oss, preach role b0 c tr -> Forall pev_ok es -> prun role c es = Some (c', oss) ->
  preach role b0 c' (tr ++ combine es oss).
Proof.
  induction es as [|e es IH]; intros c tr c' oss R F H; cbn [prun] in H.
  - inversion H; subst. now rewrite app_nil_r.
  - inversion F; subst. destruct (p_enabled c e) eqn:En; [|discriminate H]. destruct (p_step role e c) as [[[c1 os] t]|] eqn:St; [|discriminate H].
    destruct (prun role c1 es) as [[c2 o2]|] eqn:E; [|discriminate H]. inversion H; subst; clear H. cbn [combine].
    replace (tr ++ (e, os) :: combine es o2) with ((tr ++ [(e, os)]) ++ combine es o2) by now rewrite <- app_assoc.
    eapply IH; eauto. eapply pr_step; eauto.
Qed.
Definition pev_okb (e : pev) : bool := match e with PvData (RxBytes bs) _ _ => octetsb bs | _ => true end.
Lemma pev_okb_ok es : forallb pev_okb es = true -> Forall pev_ok es.
Proof.
  intros H. apply Forall_forall. intros e He. rewrite forallb_forall in H. specialize (H e He). destruct e as [|? ?|[| |bs] ? ?|?|?]; try exact I. now apply octetsb_ok.
Qed.
Lemma prun_from role b0 es oss : umem_ok b0 -> forallb pev_okb es = true -> option_map snd (prun role (conn0 b0) es) = Some oss ->
  exists c, preach role b0 c (combine es oss).
Proof.
  intros M F H. destruct (prun role (conn0 b0) es) as [[c o]|] eqn:E; [|discriminate H]. cbn in H. inversion H; subst.
  exists c. apply (prun_reach role b0 es (conn0 b0) []); auto using pev_okb_ok, pr_new.
Qed.
(** The same with one more event, which may be undefined. *)
Definition pview (x : option (pconn * list pout * bool)) : option (list pout) := option_map (fun y => snd (fst y)) x.
Definition prun_then (role : prole) (b0 : list Z) (es : list pev) (e : pev) : option (list (list pout) * bool * option (list pout)) :=
  match prun role (conn0 b0) es with Some (c, oss) => Some (oss, p_enabled c e, pview (p_step role e c)) | None => None end.
Lemma prun_last role b0 es oss e o : umem_ok b0 -> forallb pev_okb es = true ->
  prun_then role b0 es e = Some (oss, true, o) ->
  exists c, preach role b0 c (combine es oss) /\ p_enabled c e = true /\ pview (p_step role e c) = o.
Proof.
  intros M F H. unfold prun_then in H. destruct (prun role (conn0 b0) es) as [[c o1]|] eqn:E; [|discriminate H]. inversion H; subst.
  exists c. split; [|split; [now symmetry|reflexivity]]. apply (prun_reach role b0 es (conn0 b0) []); auto using pev_okb_ok, pr_new.
Qed.
(** Checking [mannered]. *)
Definition is_kclose (o : pout) : bool := match o with PUser KClose => true | _ => false end.
Definition is_anew (o : pout) : bool := match o with PUser (KConnect _ _ _) | PUser (KAccept _) => true | _ => false end.
Fixpoint carefulb (os : list pout) : bool :=
  match os with [] => true | o :: r => (negb (is_kclose o) || negb (existsb is_anew r)) && carefulb r end.
Lemma carefulb_ok os : carefulb os = true -> careful os.
Proof.
  intros H b1 b2 -> o Ho B. induction b1 as [|x b1 IH]; cbn in H; apply andb_prop in H as [H1 H2].
  - apply negb_true_iff in H1. rewrite <- not_true_iff_false in H1. apply H1, existsb_exists. exists o. split; [exact Ho|].
    destruct o as [[]| | | | | | | | | | | ]; first [reflexivity|destruct B].
  - auto.
Qed.
Fixpoint mannb (os : list pout) : bool :=
  match os with
  | [] => true
  | PNote NConnected :: r => negb (existsb is_kclose r) && mannb r
  | PNote NClosed :: r | PNote NError :: r => carefulb r && mannb r
  | _ :: r => mannb r
  end.
Lemma mannb_ok os : mannb os = true -> mannered os.
Proof.
  intros H a n b ->. induction a as [|o a IH].
  - cbn in H. destruct n; [|exact I|..]; apply andb_prop in H as [H _].
    + intros B. apply negb_true_iff in H. rewrite <- not_true_iff_false in H. apply H, existsb_exists. eexists. split; [exact B|reflexivity].
    + exact (carefulb_ok _ H).
    + exact (carefulb_ok _ H).
  - apply IH. cbn [app mannb] in H. destruct o as [|[]| | | | | | | | | | ]; try exact H; apply andb_prop in H as [_ H]; exact H.
Qed.
Lemma well_mannb tr : forallb (fun x => mannb (snd x)) tr = true -> well_mannered tr.
Proof. intros H. apply Forall_forall. intros x Hx. rewrite forallb_forall in H. apply mannb_ok, H, Hx. Qed.
Definition dialb (o : pout) : bool := match o with PUser (KConnect _ _ false) => false | _ => true end.
Lemma all_dialb tr : forallb (fun x => forallb dialb (snd x)) tr = true -> all_dial tr.
Proof.
  intros H. apply Forall_forall. intros x Hx l t B. rewrite forallb_forall in H. specialize (H x Hx). rewrite forallb_forall in H. specialize (H _ B). discriminate H.
Qed.
