(** C157: connect() and accept() of the connection library begin an attempt. *)
From Verif Require Import Base ModbusClientModel UaTcpModel UaTcpSpec ProtoConnModel ProtoConnSpec ProtoConnProofs ProtoConnFacts Props_ProtoConn.
Local Open Scope Z_scope.

(** Calls that ask for a new attempt. *)
Definition starts (k : pcall) : Prop := match k with KConnect _ _ _ | KAccept _ => True | _ => False end.
(** The same event, with these calls of the user from inside the notification it leads to. *)
Definition with_user (e : pev) (us : list pcall) : pev :=
  match e with
  | PvCall k => PvCall k | PvConnected w _ => PvConnected w us | PvData r w _ => PvData r w us | PvError _ => PvError us | PvTimer _ => PvTimer us
  end.
(** The same effects, with these calls after the notification. *)
Definition told (us : list pcall) (os : list pout) : list pout :=
  flat_map (fun o => match o with PNote _ => o :: map PUser us | _ => [o] end) os.

Lemma told_app us a b : told us (a ++ b) = told us a ++ told us b.
Proof. apply flat_map_app. Qed.
Lemma told_none us os : (forall n, ~ In (PNote n) os) -> told us os = os.
Proof.
  induction os as [|o os IH]; intros H; [reflexivity|]. unfold told in *. cbn [flat_map]. rewrite IH; [|intros n Hn; apply (H n); now right].
  destruct o; try reflexivity. destruct (H n). now left.
Qed.
Lemma calls_ignored role us : forall c, Forall starts us -> p_st c <> PsInit -> p_calls role us c = Some (c, map PUser us, false).
Proof.
  induction us as [|k us IH]; intros c F Hc; [reflexivity|]. inversion F as [|? ? Hk F']; subst. cbn [p_calls map].
  assert (E : p_call role k c = Some (c, [PUser k], false)).
  { unfold p_call, pseq, pemit. destruct k; try destruct Hk; destruct (p_st c); try congruence; reflexivity. }
  unfold pseq. rewrite E, IH; auto.
Qed.

(** Two results that differ in the calls only. *)
Definition alike (us : list pcall) (a b : pres) : Prop :=
  a = match b with None => None | Some (c, os, t) => Some (c, told us os, t) end.
Lemma alike_seq us a a' b b' c : alike us (a c) (a' c) -> (forall c1, alike us (b c1) (b' c1)) -> alike us (pseq a b c) (pseq a' b' c).
Proof.
  unfold alike, pseq. intros -> H. destruct (a' c) as [[[c1 o1] []]|]; [reflexivity| |reflexivity].
  rewrite (H c1). destruct (b' c1) as [[[c2 o2] t]|]; [|reflexivity]. now rewrite told_app.
Qed.
Lemma alike_same us (a : pm) c : (forall c' os t n, a c = Some (c', os, t) -> ~ In (PNote n) os) -> alike us (a c) (a c).
Proof. intros H. unfold alike. destruct (a c) as [[[c' os] t]|]; [|reflexivity]. rewrite told_none; [reflexivity|]. intros n. eapply H. reflexivity. Qed.
Lemma alike_note role us n c : Forall starts us -> p_st c <> PsInit -> alike us (p_note n (p_calls role us) c) (p_note n (p_calls role []) c).
Proof.
  intros F Hc. unfold alike, p_note, pseq, pemit. rewrite calls_ignored by assumption. cbn. now rewrite app_nil_r.
Qed.
Lemma home_silent us c : alike us (p_home c) (p_home c).
Proof.
  apply alike_same. intros c' os t n. destruct c as [st ti li rx]. destruct st; pstates; intros H; prun H; inversion H; subst; cbn; intuition discriminate.
Qed.
Lemma alike_end role us n c : Forall starts us -> p_st c <> PsInit ->
  alike us ((p_note n (p_calls role us) ;> p_home) c) ((p_note n (p_calls role []) ;> p_home) c).
Proof. intros F Hc. apply alike_seq; [now apply alike_note|]. apply home_silent. Qed.
Lemma alike_shut role us n c : Forall starts us -> p_st c <> PsInit ->
  alike us ((p_shut ;> p_note n (p_calls role us) ;> p_home) c) ((p_shut ;> p_note n (p_calls role []) ;> p_home) c).
Proof.
  intros F Hc. unfold alike. destruct (p_shut c) as [[[c1 o1] t1]|] eqn:E.
  - apply shut_ok in E as E'. destruct E' as (-> & -> & _ & ->). pose proof (alike_end role us n (y_link c (Some false)) F Hc) as A. unfold alike in A.
    unfold pseq at 1 3. rewrite E, A. destruct ((p_note n (p_calls role []) ;> p_home) (y_link c (Some false))) as [[[c2 o2] t2]|]; reflexivity.
  - unfold pseq at 1 3. now rewrite E.
Qed.
Lemma alike_up role us c : Forall starts us -> p_st c <> PsConn ->
  alike us (p_transit PsConn true (p_calls role us) c) (p_transit PsConn true (p_calls role []) c).
Proof.
  intros F Hc. unfold p_transit. destruct (pst_eqb (p_st c) PsConn); [reflexivity|].
  assert (X : alike us (p_exit (p_st c) c) (p_exit (p_st c) c)).
  { apply alike_same. intros c' os t n. destruct c as [st ti li rx]. destruct st; pstates; intros H; prun H; inversion H; subst; cbn; intuition discriminate. }
  apply alike_seq; [exact X|]. clear X. intros c1. set (c2 := y_st c1 PsConn).
  assert (E : alike us (p_enter PsConn true (p_calls role us) c2) (p_enter PsConn true (p_calls role []) c2)).
  { cbn [p_enter]. apply alike_seq; [apply alike_note; [assumption|discriminate]|]. intros c3. apply alike_same. intros c' os t n. destruct c3 as [st ti li rx].
    pstates; intros H; prun H; inversion H; subst; cbn; intuition discriminate. }
  unfold alike in *. remember (p_enter PsConn true (p_calls role us)) as p1. remember (p_enter PsConn true (p_calls role [])) as p2.
  unfold pseq, pset. fold c2. rewrite E. subst p1 p2. destruct (p_enter PsConn true (p_calls role []) c2) as [[[c3 o3] t3]|]; reflexivity.
Qed.
Lemma alike_send us pkt w k k' c : (forall b, alike us (k b c) (k' b c)) -> alike us (p_send pkt w k c) (p_send pkt w k' c).
Proof.
  intros H. unfold p_send. destruct (p_link c) as [fd|]; [|reflexivity]. destruct (if fd then w else None) as [n|]; [|apply H].
  specialize (H true). unfold alike, pseq, pemit in *. rewrite H. destruct (k' true c) as [[[c1 o1] t1]|]; reflexivity.
Qed.
Lemma alike_send_enc us e w k k' c : (forall b, alike us (k b c) (k' b c)) -> alike us (p_send_enc e w k c) (p_send_enc e w k' c).
Proof. intros H. unfold p_send_enc. destruct (tx_packet e []); [now apply alike_send|reflexivity]. Qed.
Lemma alike_skip us c : alike us (pskip c) (pskip c).
Proof. reflexivity. Qed.

(** From inside any notification, in any state of the connection: connect() and accept() have no effect whatever.  The event leads to the same
    state and the same effects as if the user had not called. *)
Theorem C157_inside_partial : forall role e us c, Forall starts us ->
  p_step role (with_user e us) c =
  match p_step role (with_user e []) c with None => None | Some (c', os, t) => Some (c', told us os, t) end.
Proof.
  intros role e us c F. change (alike us (p_step role (with_user e us) c) (p_step role (with_user e []) c)).
  destruct e as [k|w u|r w u|u|u]; cbn [with_user p_step].
  - apply alike_same. intros c' os t n H. apply call_D in H as (_ & _ & N). apply N.
  - destruct (p_st c) eqn:E; try apply alike_skip. apply alike_send_enc. intros [|]; [|apply alike_shut; congruence || auto].
    + apply alike_same. intros c' os t n. destruct c as [st ti li rx]. cbn in E. subst st. pstates; intros H; prun H; inversion H; subst; cbn; intuition discriminate.
  - destruct (p_st c) eqn:E; try apply alike_skip; unfold p_receive; destruct (u_receive _ r) as [[ct res]|]; try reflexivity; destruct res; try apply alike_skip.
    + unfold p_shake. cbn zeta. destruct role.
      * destruct (has_octets _ _); [|apply alike_shut; cbn; congruence || auto].
        destruct (dec_ack_msg _); try reflexivity. apply alike_up; [assumption|cbn; congruence].
      * destruct (has_octets _ _); [|apply alike_shut; cbn; congruence || auto].
        destruct (dec_hello_msg _); try reflexivity. apply alike_send_enc. intros [|]; [apply alike_up|apply alike_shut]; cbn; congruence || auto.
    + apply alike_shut; cbn; congruence || auto.
    + apply alike_seq; [apply alike_note; cbn; congruence || auto|]. intros c1. reflexivity.
    + apply alike_shut; cbn; congruence || auto.
  - destruct (p_st c) eqn:E; try apply alike_skip. apply alike_end; cbn; congruence || auto.
  - destruct (p_st c) eqn:E; try apply alike_skip; apply alike_shut; cbn; congruence || auto.
Qed.
Print Assumptions C157_inside_partial.

(** From outside notifications: connect() begins an attempt exactly if none is under way, and otherwise has no effect. *)
Theorem C157_outside_partial : forall role b0 c tr ph, preach role b0 c tr -> well_mannered tr -> phases Idle (pouts tr) = Some ph ->
  (ph = Idle -> exists c', p_step role (PvCall dial) c = Some (c', dialed, false) /\ phases Idle (pouts (tr ++ [(PvCall dial, dialed)])) = Some Trying /\
     running (tr ++ [(PvCall dial, dialed)]) = Some 3000000) /\
  (ph <> Idle -> forall k, starts k -> p_step role (PvCall k) c = Some (c, [PUser k], false)).
Proof.
  intros role b0 c tr ph R W E. destruct (reach_J _ _ _ _ R W) as (ph' & E' & HJ). rewrite E in E'. injection E' as <-. split.
  - intros ->. assert (S : p_st c = PsInit) by (unfold J in HJ; destruct (p_st c); [reflexivity|destruct HJ; discriminate..]).
    destruct c as [st ti li rx]. cbn in S. subst st. eexists. split; [reflexivity|]. split; [|now rewrite running_snoc].
    rewrite pouts_snoc, phases_app, E. reflexivity.
  - intros Ne k Hk. assert (S : p_st c <> PsInit) by (unfold J in HJ; destruct (p_st c); [tauto|discriminate..]).
    cbn [p_step]. unfold p_call, pseq, pemit. destruct k; try destruct Hk; destruct (p_st c); try congruence; reflexivity.
Qed.
Print Assumptions C157_outside_partial.

(** accept() of the server class from outside notifications: while idle, it begins an attempt that waits one second for the peer's hello.  The client
    class ignores it.  While an attempt is under way both do, see above. *)
Definition accepted : list pout := [PUser (KAccept true); PLink; PTimer; PArm 1000000].
Theorem C157_accept_partial : forall role b0 c tr, preach role b0 c tr -> well_mannered tr -> phases Idle (pouts tr) = Some Idle ->
  match role with
  | RServer => exists c', p_step role (PvCall (KAccept true)) c = Some (c', accepted, false) /\
      phases Idle (pouts (tr ++ [(PvCall (KAccept true), accepted)])) = Some Trying /\ running (tr ++ [(PvCall (KAccept true), accepted)]) = Some 1000000
  | RClient => forall tok, p_step role (PvCall (KAccept tok)) c = Some (c, [PUser (KAccept tok)], false)
  end.
Proof.
  intros role b0 c tr R W E. destruct (reach_J _ _ _ _ R W) as (ph' & E' & HJ). rewrite E in E'. injection E' as <-.
  assert (S : p_st c = PsInit) by (unfold J in HJ; destruct (p_st c); [reflexivity|destruct HJ; discriminate..]).
  destruct c as [st ti li rx]. cbn in S. subst st. destruct role; [reflexivity|]. eexists. split; [reflexivity|]. split; [|now rewrite running_snoc].
  rewrite pouts_snoc, phases_app, E. reflexivity.
Qed.
Print Assumptions C157_accept_partial.
Example C157_accept_case : exists c c', preach RServer pbuf c (combine (sv_run ++ [PvTimer []]) (sv_outs ++ [[PShut; PNote NClosed; PDisarm; PFreed]])) /\
  phases Idle (pouts (combine (sv_run ++ [PvTimer []]) (sv_outs ++ [[PShut; PNote NClosed; PDisarm; PFreed]]))) = Some Idle /\
  p_step RServer (PvCall (KAccept true)) c = Some (c', accepted, false).
Proof.
  destruct (prun_from RServer pbuf (sv_run ++ [PvTimer []]) (sv_outs ++ [[PShut; PNote NClosed; PDisarm; PFreed]]) pbuf_ok) as [c R];
    [vm_compute; reflexivity|vm_compute; reflexivity|].
  destruct (C157_accept_partial _ _ _ _ R) as (c' & H & _); [apply well_mannb; reflexivity|reflexivity|].
  exists c, c'. split; [exact R|]. split; [reflexivity|exact H].
Qed.

(** So a user who reconnects when told that the connection is closed gets nothing: no attempt, no error, no further notification. *)
Definition redial_run : list pev := cl_run ++ [PvTimer [dial]].
Definition redial_outs : list (list pout) := cl_outs ++ [[PShut; PNote NClosed; PUser dial; PDisarm; PFreed]].
Theorem C157_refuted :
  ~ (forall role b0 c tr a n b, preach role b0 c tr -> pouts tr = a ++ PNote n :: PUser dial :: b -> n = NClosed \/ n = NError -> In PDial b).
Proof.
  intros H. destruct (prun_from RClient pbuf redial_run redial_outs pbuf_ok) as [c R]; [vm_compute; reflexivity|vm_compute; reflexivity|].
  assert (B : In PDial [PDisarm; PFreed]).
  { apply (H _ _ _ _ (concat cl_outs ++ [PShut]) NClosed _ R); [reflexivity|now left]. }
  cbn in B. intuition discriminate.
Qed.
Print Assumptions C157_refuted.

(** The history of the refutation is well mannered, so C157_outside_partial and C55_order_partial apply to it: the connection is idle afterwards,
    and connect() from outside works. *)
Example C157_case : exists c, preach RClient pbuf c (combine redial_run redial_outs) /\ well_mannered (combine redial_run redial_outs) /\
  phases Idle (pouts (combine redial_run redial_outs)) = Some Idle.
Proof.
  destruct (prun_from RClient pbuf redial_run redial_outs pbuf_ok) as [c R]; [vm_compute; reflexivity|vm_compute; reflexivity|].
  exists c. split; [exact R|]. split; [apply well_mannb; reflexivity|reflexivity].
Qed.
