(** Proofs about the connection library. *)
From Verif Require Import Base ModbusCodecSpec ModbusClientModel UaCodecModel UaCodecSpec UaCodecProofs UaTcpModel UaTcpSpec UaTcpProofs UaTcpFacts ProtoConnModel ProtoConnSpec.
Local Open Scope Z_scope.

Lemma greeting_eq role : tx_packet (greeting role) [] = Some (greeting_packet role).
Proof. destruct role; vm_compute; reflexivity. Qed.
Lemma ackp_eq : tx_packet ack_octets_p [] = Some ack_packet.
Proof. vm_compute. reflexivity. Qed.

(** ** Running statements *)
Lemma pseq_inv a b c c' os t : pseq a b c = Some (c', os, t) ->
  (a c = Some (c', os, true) /\ t = true) \/
  (exists c1 o1 o2, a c = Some (c1, o1, false) /\ b c1 = Some (c', o2, t) /\ os = o1 ++ o2).
Proof.
  unfold pseq. destruct (a c) as [[[c1 o1] []]|] eqn:Ea; [|destruct (b c1) as [[[c2 o2] t2]|] eqn:Eb|]; intros H; try discriminate.
  - left. split; congruence.
  - right. exists c1, o1, o2. repeat split; congruence.
Qed.

Lemma phases_app ph a b : phases ph (a ++ b) = match phases ph a with Some p => phases p b | None => None end.
Proof. revert ph. induction a as [|o a IH]; intros ph; [reflexivity|]. cbn. destruct (phase_next ph o); auto. Qed.

(** ** The invariant *)
(** [r]: the running timeout. *)
Definition J (c : pconn) (ph : phase) (r : option Z) : Prop :=
  match p_st c with
  | PsInit => ph = Idle /\ r = None /\ p_timer c = None
  | PsDial | PsShake => ph = Trying /\ p_timer c = Some r /\ p_link c <> None
  | PsConn => ph = Up /\ p_timer c = Some r /\ p_link c <> None
  end.
(** While a closed or error notification is being given. *)
Definition JE (c : pconn) (ph : phase) (r : option Z) : Prop :=
  match p_st c with
  | PsInit => ph = Idle /\ r = None /\ p_timer c = None
  | _ => ph = Ending /\ p_timer c = Some r /\ p_link c <> None
  end.

Ltac pstates := cbv [p_call p_transit p_home p_enter p_exit p_release p_dial p_shut p_preact p_start p_stop p_send
  p_alloc_link p_alloc_timer p_set_link p_note pseq pskip pemit pset pthrow y_st y_timer y_link y_rx
  p_st p_timer p_link p_rx pst_eqb connectTimeout receiveTimeout establishTimeout app] in *.
Ltac prun H := repeat match type of H with
  | context [if ?b then _ else _] => destruct b; pstates
  | context [match ?x with _ => _ end] => is_var x; destruct x; pstates
  end; try discriminate H.

Lemma call_ok role k c c' os t ph r : J c ph r -> p_call role k c = Some (c', os, t) ->
  exists ph', phases ph os = Some ph' /\ J c' ph' (fold_left parm_next os r).
Proof.
  destruct c as [st ti li rx]. unfold J at 1. cbn [p_st p_timer p_link]. intros HJ H.
  destruct st, k; pstates; prun H; inversion H; subst; clear H;
    repeat match goal with H : _ /\ _ |- _ => destruct H end; subst; eexists; (split; [reflexivity|]); cbn; intuition congruence.
Qed.

Lemma calls_ok role ks : forall c c' os t ph r, J c ph r -> p_calls role ks c = Some (c', os, t) ->
  exists ph', phases ph os = Some ph' /\ J c' ph' (fold_left parm_next os r).
Proof.
  induction ks as [|k ks IH]; intros c c' os t ph r HJ H.
  - cbn in H. inversion H; subst. exists ph. now split.
  - cbn [p_calls] in H. apply pseq_inv in H as [[H ->]|(c1 & o1 & o2 & H1 & H2 & ->)]; [eauto using call_ok|].
    destruct (call_ok _ _ _ _ _ _ _ _ HJ H1) as (p1 & E1 & J1). destruct (IH _ _ _ _ _ _ J1 H2) as (p2 & E2 & J2).
    exists p2. rewrite phases_app, E1, fold_left_app. now split.
Qed.

(** Inside the connected notification, without closing: nothing changes. *)
Lemma call_up role k c c' os t ph : p_st c = PsConn -> p_call role k c = Some (c', os, t) -> ~ In (PUser KClose) os ->
  c' = c /\ t = false /\ phases ph os = Some ph /\ (forall r, fold_left parm_next os r = r) /\
  (forall o, In o os -> match o with PUser _ | PTx _ _ | PSent _ => True | _ => False end).
Proof.
  destruct c as [st ti li rx]. cbn [p_st]. intros -> H N. destruct k; pstates; prun H; inversion H; subst; clear H; cbn [In] in N;
    try (exfalso; tauto); repeat split; try (destruct ph; reflexivity);
    intros o Ho; repeat (destruct Ho as [<-|Ho]; [exact I|]); destruct Ho.
Qed.
Lemma calls_up role ks ph : forall c c' os t, p_st c = PsConn -> p_calls role ks c = Some (c', os, t) -> ~ In (PUser KClose) os ->
  c' = c /\ t = false /\ phases ph os = Some ph /\ (forall r, fold_left parm_next os r = r) /\
  (forall o, In o os -> match o with PUser _ | PTx _ _ | PSent _ => True | _ => False end).
Proof.
  induction ks as [|k ks IH]; intros c c' os t Hst H N.
  - cbn in H. inversion H; subst. split; [reflexivity|]. split; [reflexivity|]. split; [reflexivity|]. split; [reflexivity|]. intros o [].
  - cbn [p_calls] in H. apply pseq_inv in H as [[H ->]|(c1 & o1 & o2 & H1 & H2 & ->)].
    + destruct (call_up _ _ _ _ _ _ ph Hst H N) as (_ & A & _). discriminate A.
    + destruct (call_up _ _ _ _ _ _ ph Hst H1) as (-> & _ & E1 & R1 & P1); [intros A; apply N, in_or_app; auto|].
      destruct (IH _ _ _ _ Hst H2) as (-> & -> & E2 & R2 & P2); [intros A; apply N, in_or_app; auto|].
      repeat split; [now rewrite phases_app, E1| |].
      * intros r. now rewrite fold_left_app, R1, R2.
      * intros o Ho. apply in_app_or in Ho as [Ho|Ho]; [exact (P1 o Ho)|exact (P2 o Ho)].
Qed.

(** Inside a closed or error notification, without starting anew once idle. *)
Definition careful (os : list pout) : Prop := forall b1 b2, os = b1 ++ PUser KClose :: b2 -> forall o, In o b2 -> ~ starts_anew o.
Lemma careful_app a b : careful (a ++ b) -> careful a /\ careful b.
Proof.
  intros H. split; intros b1 b2 E o Ho.
  - apply (H b1 (b2 ++ b)); [rewrite E, <- app_assoc; reflexivity|]. apply in_or_app. auto.
  - apply (H (a ++ b1) b2); [rewrite E, <- app_assoc; reflexivity|exact Ho].
Qed.
Lemma call_end role k c c' os t ph r : JE c ph r -> p_call role k c = Some (c', os, t) -> (p_st c = PsInit -> forall o, In o os -> ~ starts_anew o) ->
  t = false /\ (exists ph', phases ph os = Some ph' /\ JE c' ph' (fold_left parm_next os r)) /\
  (p_st c' = PsInit -> p_st c = PsInit \/ exists b, os = PUser KClose :: b).
Proof.
  destruct c as [st ti li rx]. unfold JE at 1. cbn [p_st p_timer p_link]. intros HJ H N.
  destruct st, k; pstates; prun H; inversion H; subst; clear H;
    repeat match goal with H : _ /\ _ |- _ => destruct H end; subst;
    try (exfalso; eapply (N eq_refl); [left; reflexivity|exact I]);
    (split; [reflexivity|]); (split; [eexists; (split; [reflexivity|]); cbn; intuition congruence|]);
    cbn; intros E; first [discriminate E|left; reflexivity|right; eexists; reflexivity].
Qed.
Lemma calls_end role ks : forall c c' os t ph r, JE c ph r -> p_calls role ks c = Some (c', os, t) ->
  careful os -> (p_st c = PsInit -> forall o, In o os -> ~ starts_anew o) ->
  t = false /\ exists ph', phases ph os = Some ph' /\ JE c' ph' (fold_left parm_next os r).
Proof.
  induction ks as [|k ks IH]; intros c c' os t ph r HJ H C N.
  - cbn in H. inversion H; subst. split; [reflexivity|]. exists ph. now split.
  - cbn [p_calls] in H. apply pseq_inv in H as [[H ->]|(c1 & o1 & o2 & H1 & H2 & ->)].
    + now destruct (call_end _ _ _ _ _ _ _ _ HJ H N).
    + destruct (call_end _ _ _ _ _ _ _ _ HJ H1) as (_ & (p1 & E1 & J1) & K1); [intros S o A; apply (N S), in_or_app; auto|].
      destruct (IH _ _ _ _ _ _ J1 H2) as (-> & p2 & E2 & J2); [exact (proj2 (careful_app _ _ C))| |].
      { intros S o Ho. destruct (K1 S) as [S0|(b & ->)]; [apply (N S0), in_or_app; auto|]. apply (C [] (b ++ o2) eq_refl), in_or_app. auto. }
      split; [reflexivity|]. exists p2. rewrite phases_app, E1, fold_left_app. now split.
Qed.

Lemma home_ok c c' os t ph r : JE c ph r -> p_home c = Some (c', os, t) ->
  t = false /\ exists ph', phases ph os = Some ph' /\ J c' ph' (fold_left parm_next os r) /\ p_st c' = PsInit.
Proof.
  destruct c as [st ti li rx]. unfold JE. cbn [p_st p_timer p_link]. intros HJ H.
  destruct st; pstates; prun H; inversion H; subst; clear H;
    repeat match goal with H : _ /\ _ |- _ => destruct H end; subst;
    (split; [reflexivity|]); eexists; (split; [reflexivity|]); cbn; intuition congruence.
Qed.

(** A notification [n] that ends the connection. *)
Definition ending (n : pnote) : Prop := n = NError \/ n = NClosed.
Lemma ending_ok role us n c c' os t ph r pre : ending n -> J c ph r -> p_st c <> PsInit -> (n = NClosed -> p_st c = PsConn) ->
  (p_note n (p_calls role us) ;> p_home) c = Some (c', os, t) -> mannered (pre ++ os) ->
  exists ph', phases ph os = Some ph' /\ J c' ph' (fold_left parm_next os r) /\ p_st c' = PsInit.
Proof.
  intros En HJ Hn Hc H M. unfold p_note in H.
  assert (E0 : forall x, phase_next ph (PNote n) = Some x -> True) by auto.
  apply pseq_inv in H as [[H ->]|(c1 & o1 & o2 & H1 & H2 & ->)].
  - apply pseq_inv in H as [[H _]|(c1 & o1 & o2 & H1 & H2 & ->)]; [discriminate H|].
    cbv [pemit] in H1. inversion H1; subst; clear H1. exfalso.
    assert (HE : JE c1 Ending r).
    { unfold J, JE in *. destruct (p_st c1); [congruence|tauto..]. }
    destruct (calls_end _ _ _ _ _ _ _ _ HE H2) as (A & _); [|intros S; congruence|discriminate A].
    specialize (M pre n o2 eq_refl). destruct En as [-> | ->]; exact M.
  - apply pseq_inv in H1 as [[H _]|(c0 & o0 & o3 & H0 & H3 & ->)]; [discriminate H|].
    cbv [pemit] in H0. inversion H0; subst; clear H0.
    assert (HE : JE c0 Ending r).
    { unfold J, JE in *. destruct (p_st c0); [congruence|tauto..]. }
    destruct (calls_end _ _ _ _ _ _ _ _ HE H3) as (_ & p1 & E1 & J1).
    { specialize (M pre n (o3 ++ o2)). rewrite <- app_assoc in M. cbn [app] in M. specialize (M eq_refl).
      apply (careful_app o3 o2). destruct En as [-> | ->]; exact M. }
    { intros S. congruence. }
    destruct (home_ok _ _ _ _ _ _ J1 H2) as (_ & p2 & E2 & J2 & S2).
    exists p2. rewrite <- app_assoc. cbn [app phases]. split; [|split; [|exact S2]].
    + assert (phase_next ph (PNote n) = Some Ending) as ->; [|now rewrite phases_app, E1].
      unfold J in HJ. destruct En as [-> | ->].
      * destruct (p_st c0); [congruence|destruct HJ as (-> & _); reflexivity..].
      * rewrite (Hc eq_refl) in HJ. destruct HJ as (-> & _). reflexivity.
    + cbn [fold_left parm_next]. now rewrite fold_left_app.
Qed.

Lemma shut_ok c c' os t : p_shut c = Some (c', os, t) -> t = false /\ os = [PShut] /\ p_link c <> None /\ c' = y_link c (Some false).
Proof. unfold p_shut. destruct (p_link c) eqn:E; [|discriminate]. intros H. cbv [pseq pset pemit app] in H. inversion H; subst. repeat split; congruence. Qed.
Lemma J_link c l ph r : J c ph r -> l <> None -> J (y_link c l) ph r.
Proof. unfold J. destruct c as [st ti li rx]. cbn. destruct st; intuition. Qed.
Lemma J_rx c b ph r : J c ph r -> J (y_rx c b) ph r.
Proof. unfold J. destruct c as [st ti li rx]. cbn. auto. Qed.

Lemma fail_ok role us n c c' os t ph r pre : ending n -> J c ph r -> p_st c <> PsInit -> (n = NClosed -> p_st c = PsConn) ->
  (p_shut ;> p_note n (p_calls role us) ;> p_home) c = Some (c', os, t) -> mannered (pre ++ os) ->
  exists ph', phases ph os = Some ph' /\ J c' ph' (fold_left parm_next os r) /\ p_st c' = PsInit.
Proof.
  intros En HJ Hn Hc H M. apply pseq_inv in H as [[H ->]|(c1 & o1 & o2 & H1 & H2 & ->)].
  - apply shut_ok in H as (A & _). discriminate A.
  - apply shut_ok in H1 as (_ & -> & Hl & ->).
    destruct (ending_ok role us n (y_link c (Some false)) c' o2 t ph r (pre ++ [PShut])) as (p & E & Q); auto.
    + apply J_link; [exact HJ|discriminate].
    + now rewrite <- app_assoc.
    + exists p. cbn [app phases fold_left parm_next phase_next]. split; [|exact Q]. destruct ph; exact E.
Qed.

(** Entering Connected. *)
Lemma up_ok role us c c' os t r pre : J c Trying r ->
  p_transit PsConn true (p_calls role us) c = Some (c', os, t) -> mannered (pre ++ os) ->
  exists ph', phases Trying os = Some ph' /\ J c' ph' (fold_left parm_next os r) /\ p_st c' = PsConn /\
    p_timer c' = Some (Some establishTimeout) /\ k_tail (p_rx c') = 0%nat /\ k_head (p_rx c') = 0%nat /\ k_pkt (p_rx c') = k_pkt (p_rx c) /\
    p_link c' = p_link c /\ t = false /\
    (exists b, os = PDisarm :: PNote NConnected :: b /\ forall o, In o b -> match o with PUser _ | PTx _ _ | PSent _ | PArm _ => True | _ => False end).
Proof.
  intros HJ H M. unfold p_transit in H.
  destruct (pst_eqb (p_st c) PsConn) eqn:Es; [exfalso; unfold J in HJ; destruct (p_st c); try discriminate Es; destruct HJ; discriminate|].
  destruct c as [st ti li rx]. unfold J in HJ. cbn [p_st p_timer p_link] in *.
  destruct st; try discriminate Es; [destruct HJ; discriminate| |]; destruct HJ as (_ & -> & Hl);
    (apply pseq_inv in H as [[H ->]|(c1 & o1 & o2 & H1 & H2 & ->)]; [discriminate H|]);
    cbv [p_exit p_stop pset pemit pseq app y_timer p_timer p_st p_link p_rx] in H1; inversion H1; subst; clear H1;
    (apply pseq_inv in H2 as [[H2 ->]|(c2 & o3 & o4 & H1 & H2 & ->)]; [discriminate H2|]);
    cbv [pset y_st p_timer p_st p_link p_rx] in H1; inversion H1; subst; clear H1; cbn [p_enter] in H2; unfold p_note in H2;
    (apply pseq_inv in H2 as [[H2 ->]|(c2 & o3 & o5 & H1 & H2 & ->)]).
  1, 3: exfalso; apply pseq_inv in H2 as [[H2 _]|(c2 & o3 & o5 & H1 & H2 & ->)]; [discriminate H2|];
    cbv [pemit] in H1; inversion H1; subst; clear H1;
    edestruct (calls_up role us Up) as (_ & A & _); [|exact H2| |discriminate A]; [reflexivity|];
    apply (M (pre ++ [PDisarm]) NConnected o5); rewrite <- app_assoc; reflexivity.
  all: apply pseq_inv in H1 as [[H1 _]|(c3 & o6 & o7 & H0 & H1 & ->)]; [discriminate H1|];
    cbv [pemit] in H0; inversion H0; subst; clear H0;
    match type of H1 with p_calls _ _ ?c0 = _ => destruct (calls_up role us Up c0 _ _ _ eq_refl H1) as (-> & _ & E1 & R1 & P1) end.
  1, 3: intros A; apply (M (pre ++ [PDisarm]) NConnected (o7 ++ o5)); [|apply in_or_app; auto];
        cbn [app]; rewrite <- !app_assoc; reflexivity.
  all: cbv [p_preact p_start pset pemit pseq app y_timer y_rx p_timer p_st p_link p_rx establishTimeout] in H2; inversion H2; subst; clear H2;
    exists Up; split; [cbn [app phases phase_next]; rewrite phases_app, E1; reflexivity|];
    split; [unfold J; cbn [p_st p_timer p_link]; split; [reflexivity|];
    cbn [app fold_left parm_next]; rewrite fold_left_app; cbn; split; [reflexivity|exact Hl]|];
    do 7 (split; [reflexivity|]); eexists; split; [reflexivity|]; intros o Ho; apply in_app_or in Ho as [Ho|[<-|[]]]; [|exact I];
    specialize (P1 o Ho); clear - P1; now destruct o.
Qed.

Lemma mannered_self os : mannered os -> mannered ([] ++ os).
Proof. auto. Qed.

Lemma shake_ok role w us c c' os t r pre : J c Trying r -> p_st c = PsShake ->
  p_shake role w (p_calls role us) c = Some (c', os, t) -> mannered (pre ++ os) ->
  exists ph', phases Trying os = Some ph' /\ J c' ph' (fold_left parm_next os r).
Proof.
  intros HJ Hst H M. unfold p_shake in H. cbv zeta in H.
  assert (Hn : p_st c <> PsInit) by congruence.
  assert (F : forall cx px, p_fail (p_calls role us) cx = Some (c', px, t) -> forall o1, os = o1 ++ px -> p_st cx = PsShake -> J cx Trying r ->
    (forall o, In o o1 -> exists p n, o = PTx p n) ->
    exists ph', phases Trying os = Some ph' /\ J c' ph' (fold_left parm_next os r)).
  { intros cx px Hf o1 -> Hx Jx Ho. destruct (fail_ok role us NError cx c' px t Trying r (pre ++ o1)) as (p & E & Q & _); auto.
    - now left.
    - congruence.
    - intros A; discriminate A.
    - now rewrite <- app_assoc.
    - exists p. rewrite phases_app, fold_left_app. clear - E Q Ho.
      assert (phases Trying o1 = Some Trying /\ fold_left parm_next o1 r = r) as [-> ->]; [|now split].
      clear - Ho. induction o1 as [|o o1 IH]; [now split|]. destruct (Ho o (or_introl eq_refl)) as (p & n & ->). cbn. apply IH.
      intros o Hin. apply Ho. now right. }
  destruct role.
  - destruct (has_octets _ _).
    + destruct (dec_ack_msg (p_rx c)) as [a b| | |]; try discriminate H.
      destruct (up_ok RClient us (y_rx c b) c' os t r pre) as (p & E & Q & _); eauto using J_rx.
    + apply (F c os H []); auto. intros o [].
  - destruct (has_octets _ _).
    + destruct (dec_hello_msg (p_rx c)) as [a b| | |]; [| |discriminate H|discriminate H].
      * unfold p_send_enc in H. rewrite ackp_eq in H. unfold p_send in H.
        destruct (p_link (y_rx c b)) as [fd|]; [|discriminate H].
        destruct (if fd then w else None) as [n|].
        -- apply pseq_inv in H as [[H _]|(c1 & o1 & o2 & H1 & H2 & ->)]; [discriminate H|].
           unfold pemit in H1. inversion H1; subst; clear H1.
           destruct (up_ok RServer us (y_rx c b) c' o2 t r (pre ++ [PTx ack_packet (Nat.min n (length ack_packet))])) as (p & E & Q & _); eauto using J_rx.
           now rewrite <- app_assoc.
        -- apply (F (y_rx c b) os H []); auto using J_rx. intros o [].
      * unfold pthrow in H. inversion H; subst. exists Trying. split; [reflexivity|]. now apply J_rx.
    + apply (F c os H []); auto. intros o [].
Qed.

Lemma send_enc_ok role w us c c' os t r pre : J c Trying r -> p_st c = PsDial ->
  p_send_enc (greeting role) w (fun ok => if ok then p_transit PsShake true pskip else p_fail (p_calls role us)) c = Some (c', os, t) ->
  mannered (pre ++ os) -> exists ph', phases Trying os = Some ph' /\ J c' ph' (fold_left parm_next os r).
Proof.
  intros HJ Hst H M. unfold p_send_enc in H. rewrite greeting_eq in H. unfold p_send in H.
  destruct (p_link c) as [fd|] eqn:El; [|discriminate H].
  destruct (if fd then w else None) as [n|].
  - apply pseq_inv in H as [[H _]|(c1 & o1 & o2 & H1 & H2 & ->)]; [discriminate H|].
    unfold pemit in H1. inversion H1; subst; clear H1. destruct c1 as [st ti li rx]. unfold J in HJ. cbn [p_st p_timer p_link] in *. subst st li.
    destruct HJ as (_ & -> & _). pstates. inversion H2; subst; clear H2. exists Trying. split; [reflexivity|]. cbn. repeat split; discriminate.
  - destruct (fail_ok role us NError c c' os t Trying r pre) as (p & E & Q & _); auto.
    + now left.
    + congruence.
    + intros A; discriminate A.
    + eauto.
Qed.

Lemma step_ok role e c c' os t ph r : J c ph r -> p_enabled c e = true -> p_step role e c = Some (c', os, t) -> mannered os ->
  exists ph', phases ph os = Some ph' /\ J c' ph' (fold_left parm_next os (match e with PvTimer _ => None | _ => r end)).
Proof.
  intros HJ En H M. apply mannered_self in M. destruct e as [k|w us|rd w us|us|us]; cbn [p_step] in H.
  - eauto using call_ok.
  - destruct (p_st c) eqn:Est; try (unfold pskip in H; inversion H; subst; exists ph; now split).
    assert (ph = Trying) as -> by (unfold J in HJ; rewrite Est in HJ; tauto). eauto using send_enc_ok.
  - destruct (p_st c) eqn:Est; try (unfold pskip in H; inversion H; subst; exists ph; now split).
    + assert (ph = Trying) as -> by (unfold J in HJ; rewrite Est in HJ; tauto).
      unfold p_receive in H. destruct (u_receive _ rd) as [[ct res]|]; [|discriminate H].
      destruct res; try (unfold pskip in H; inversion H; subst; exists Trying; split; [reflexivity|now apply J_rx]).
      * eapply shake_ok; [| |exact H|exact M]; [now apply J_rx|exact Est].
      * destruct (fail_ok role us NError (y_rx c (t_rx ct)) c' os t Trying r []) as (p & E & Q & _); auto using J_rx; solve [now left|cbn; congruence|intros A; discriminate A|eauto].
    + assert (ph = Up) as -> by (unfold J in HJ; rewrite Est in HJ; tauto).
      unfold p_receive in H. destruct (u_receive _ rd) as [[ct res]|]; [|discriminate H].
      destruct res; try (unfold pskip in H; inversion H; subst; exists Up; split; [reflexivity|now apply J_rx]).
      * unfold p_note in H. apply pseq_inv in H as [[H ->]|(c1 & o1 & o2 & H1 & H2 & ->)].
        -- apply pseq_inv in H as [[H _]|(c1 & o1 & o2 & H1 & H2 & ->)]; [discriminate H|].
           unfold pemit in H1. inversion H1; subst; clear H1.
           destruct (calls_ok role us _ _ _ _ Up r (J_rx _ _ _ _ HJ) H2) as (p & E & Q). exists p. now split.
        -- apply pseq_inv in H1 as [[H1 _]|(c2 & o3 & o4 & H3 & H4 & ->)]; [discriminate H1|].
           unfold pemit in H3. inversion H3; subst; clear H3.
           destruct (calls_ok role us _ _ _ _ Up r (J_rx _ _ _ _ HJ) H4) as (p & E & Q).
           unfold p_preact, pset in H2. inversion H2; subst; clear H2. exists p. rewrite app_nil_r. split; [exact E|]. now apply J_rx.
      * destruct (fail_ok role us NError (y_rx c (t_rx ct)) c' os t Up r []) as (p & E & Q & _); auto using J_rx; solve [now left|cbn; congruence|intros A; discriminate A|eauto].
  - assert (HJ' : J (y_link c (Some false)) ph r) by (apply J_link; [exact HJ|discriminate]).
    destruct (p_st c) eqn:Est; try (unfold pskip in H; inversion H; subst; exists ph; now split).
    destruct (ending_ok role us NError (y_link c (Some false)) c' os t ph r []) as (p & E & Q & _); auto; solve [now left|cbn; congruence|intros A; discriminate A|eauto].
  - assert (HJ' : J (y_timer c (Some None)) ph None \/ p_st c = PsInit).
    { unfold J in *. destruct c as [st ti li rx]. cbn [p_st p_timer p_link y_timer] in *. destruct st; [now right|left; intuition..]. }
    destruct (p_st c) eqn:Est.
    + exfalso. cbn in En. unfold J in HJ. rewrite Est in HJ. destruct HJ as (_ & _ & A). rewrite A in En. discriminate En.
    + destruct HJ' as [HJ'|A]; [|discriminate A]. destruct (fail_ok role us NError (y_timer c (Some None)) c' os t ph None []) as (p & E & Q & _); auto; solve [now left|cbn; congruence|intros A; discriminate A|eauto].
    + destruct HJ' as [HJ'|A]; [|discriminate A]. destruct (fail_ok role us NError (y_timer c (Some None)) c' os t ph None []) as (p & E & Q & _); auto; solve [now left|cbn; congruence|intros A; discriminate A|eauto].
    + destruct HJ' as [HJ'|A]; [|discriminate A]. destruct (fail_ok role us NClosed (y_timer c (Some None)) c' os t ph None []) as (p & E & Q & _); auto; solve [now right|cbn; congruence|eauto].
Qed.

Lemma pouts_snoc tr x : pouts (tr ++ [x]) = pouts tr ++ snd x.
Proof. unfold pouts. rewrite map_app, concat_app. cbn. now rewrite app_nil_r. Qed.
Lemma running_snoc tr x : running (tr ++ [x]) = fold_left parm_next (snd x) (match fst x with PvTimer _ => None | _ => running tr end).
Proof. unfold running. now rewrite fold_left_app. Qed.
Lemma unread_snoc tr x : unread (tr ++ [x]) = prx_next (unread tr) x.
Proof. unfold unread. now rewrite fold_left_app. Qed.

(** ** Histories *)
Definition well_mannered (tr : ptrace) : Prop := Forall (fun x => mannered (snd x)) tr.

Theorem reach_J role b0 c tr : preach role b0 c tr -> well_mannered tr ->
  exists ph, phases Idle (pouts tr) = Some ph /\ J c ph (running tr).
Proof.
  induction 1 as [Hm|c tr e c' os t R IH Ok En St]; intros W.
  - exists Idle. split; [reflexivity|]. cbn. auto.
  - apply Forall_app in W as [W1 W2]. inversion W2; subst. cbn [snd] in *. destruct (IH W1) as (ph & E & HJ).
    destruct (step_ok _ _ _ _ _ _ _ _ HJ En St) as (p & E2 & J2); [assumption|].
    exists p. rewrite pouts_snoc, phases_app, E, running_snoc. split; [exact E2|exact J2].
Qed.

Lemma J_phase c ph r : J c ph r -> ph <> Ending.
Proof. unfold J. destruct (p_st c); intuition congruence. Qed.

(** Timers taken and given back. *)
Lemma pcount_app f a b : pcount f (a ++ b) = (pcount f a + pcount f b)%nat.
Proof. unfold pcount. now rewrite filter_app, app_length. Qed.
Definition busy (ph : phase) : nat := match ph with Idle => 0 | _ => 1 end.
Lemma phases_count os : forall ph ph', phases ph os = Some ph' ->
  (pcount is_ptimer os + busy ph = pcount is_pfreed os + busy ph')%nat.
Proof.
  induction os as [|o os IH]; intros ph ph' H; cbn [phases] in H.
  - inversion H; subst. reflexivity.
  - destruct (phase_next ph o) as [p|] eqn:E; [|discriminate H]. specialize (IH _ _ H).
    change (o :: os) with ([o] ++ os). rewrite !pcount_app.
    enough (pcount is_ptimer [o] + busy ph = pcount is_pfreed [o] + busy p)%nat by lia.
    destruct ph, o as [[]|[]| | | | | | | | | | ]; inversion E; subst; reflexivity.
Qed.
