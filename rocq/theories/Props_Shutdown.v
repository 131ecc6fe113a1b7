(** Theorems about the end of the process, C135-C137. *)
From Verif Require Import Base ShutdownModel ShutdownSpec ShutdownProofs.
Local Open Scope Z_scope.

Fixpoint xrun (s : sys) (es : list xev) : option sys := match es with [] => Some s | e :: r => match xstep s e with XNext s' => xrun s' r | _ => None end end.
Lemma xrun_runs : forall es s s', xrun s es = Some s' -> xruns s es s'.
Proof. induction es as [|e es IH]; intros s s' H; cbn [xrun] in H; [injection H as <-; constructor|]. destruct (xstep s e) eqn:E; try discriminate H. econstructor; eauto. Qed.
Lemma xrun_reach n es s' : xrun (sys0 n) es = Some s' -> xreach n s'.
Proof. intros H. eapply xruns_reach; [constructor|]. eapply xrun_runs; exact H. Qed.
(** The four reactors of the application are started; every thread waits; stop() is called. *)
Definition up : list xev := repeat (XMain SOk) 5 ++ map (fun i => XThr i [] true) (seq 0 4).
Definition down : list xev := repeat (XMain SOk) 6.

(** * C135 *)
(** A connection becomes readable during or after the 100 ms of sleep, before the waiting thread's timeout of one second: its
    thread calls a component that is destroyed. *)
Theorem C135_refuted : exists s, xreach 4 s /\ s_main s = MPools 0 false /\ xstep s (XThr 1 [] true) = XBad.
Proof.
  destruct (xrun (sys0 4) (up ++ down ++ [XMain SOk; XMain SOk; XThr 1 [DObj] true])) as [s|] eqn:E; [|vm_compute in E; discriminate E].
  exists s. split; [exact (xrun_reach _ _ _ E)|]. assert (Ev : Some s = xrun (sys0 4) (up ++ down ++ [XMain SOk; XMain SOk; XThr 1 [DObj] true])) by auto. vm_compute in Ev. injection Ev as ->. split; vm_compute; reflexivity.
Qed.
(** If the main thread sleeps until all threads have left their loops, nothing that is destroyed is ever used; any number of
    reactors, any events. *)
Theorem C135_partial n s e : preach n s -> patient s e -> xstep s e <> XBad.
Proof. exact (preach_sound n s e). Qed.
(** Messages are safe sooner: once a reactor has been told to stop, only the messages of the burst being handled are still
    handled. *)
Theorem C135_messages s es s' i r : xruns s es s' -> nth_error (s_rs s) i = Some r -> r_stop r = true -> (msgs_started i s es <= in_msgs (r_thr r))%nat.
Proof. exact (msgs_bound s es s' i r). Qed.
(** Concretely: a patient end of the application, all the way. *)
Lemma preach_run n : forall es s s', preach n s -> (fix ok s es := match es with [] => True | e :: r => patient s e /\ match xstep s e with XNext s1 => ok s1 r | _ => True end end) s es -> xrun s es = Some s' -> preach n s'.
Proof.
  induction es as [|e es IH]; intros s s' R K H; cbn [xrun] in H; [injection H as <-; exact R|]. destruct K as [K1 K2]. destruct (xstep s e) as [| |s1] eqn:E; try discriminate H. apply (IH s1); auto. econstructor; eauto.
Qed.
Definition patient_end : list xev := up ++ down ++ flat_map (fun i => [XThr i [] true; XThr i [] true; XThr i [] true]) (seq 0 4) ++ repeat (XMain SOk) 11.
Example C135_case : exists s, preach 4 s /\ s_main s = MExit false.
Proof.
  destruct (xrun (sys0 4) patient_end) as [s|] eqn:E; [|vm_compute in E; discriminate E]. exists s. split.
  - apply (preach_run 4 patient_end (sys0 4)); [constructor| |exact E]. vm_compute. repeat (split; [first [exact I|reflexivity|repeat constructor]|]). exact I.
  - assert (Ev : Some s = xrun (sys0 4) patient_end) by auto. vm_compute in Ev. injection Ev as ->. reflexivity.
Qed.
Example C135_burst : exists s es s' r, xruns s es s' /\ nth_error (s_rs s) 0 = Some r /\ r_stop r = true /\ msgs_started 0 s es = 2%nat /\ in_msgs (r_thr r) = 2%nat.
Proof.
  set (s := mkS MNap true [mkR true true (TMsgs 2 [DMsg 5])]).
  destruct (xrun s (repeat (XThr 0 [] true) 7)) as [s'|] eqn:E; [|vm_compute in E; discriminate E].
  exists s, (repeat (XThr 0 [] true) 7), s', (mkR true true (TMsgs 2 [DMsg 5])). split; [exact (xrun_runs _ _ _ E)|]. repeat (split; [vm_compute; reflexivity|]). reflexivity.
Qed.

(** * C136 *)
(** Every history after stop(): what is left to do is bounded; [2 n + 3] steps of the main thread, at most 33 of a thread that
    waits, in total. *)
Theorem C136_bound n s es s' : xreach n s -> past_stop s -> xruns s es s' -> (length es <= left_over s)%nat /\ past_stop s'.
Proof. intros R P H. destruct (past_stop_runs s es s' H (proj1 (xreach_inv n s R)) P) as [A B]. split; [lia|exact A]. Qed.
(** ... and as long as main has not returned, some thread can go on: nobody waits for a thread that never ends. *)
Theorem C136_progress n s : xreach n s -> past_stop s -> s_main s <> MExit false -> exists e, xstep s e <> XDisabled.
Proof. intros R. apply goes_on. exact (proj1 (xreach_inv n s R)). Qed.
Example C136_case : exists s, xreach 4 s /\ past_stop s /\ left_over s = 143%nat.
Proof.
  destruct (xrun (sys0 4) (up ++ down)) as [s|] eqn:E; [|vm_compute in E; discriminate E]. exists s. split; [exact (xrun_reach _ _ _ E)|].
  assert (Ev : Some s = xrun (sys0 4) (up ++ down)) by auto. vm_compute in Ev. injection Ev as ->. split; [split; [reflexivity|exact I]|]. vm_compute. reflexivity.
Qed.

(** * C137 *)
(** The CPU a thread is to be bound to does not exist (the second reactor's, here): the main thread waits for ever for the
    first reactor's thread, which nobody tells to stop, whatever happens. *)
Theorem C137_refuted : exists s, xreach 4 s /\ s_main s = MJoin 0 true /\ forall es s', xruns s es s' -> s_main s' = MJoin 0 true.
Proof.
  destruct (xrun (sys0 4) [XMain SOk; XMain SNoAffinity; XMain SOk; XMain SOk]) as [s|] eqn:E; [|vm_compute in E; discriminate E].
  exists s. pose proof (xrun_reach _ _ _ E) as R. split; [exact R|].
  assert (Ev : Some s = xrun (sys0 4) [XMain SOk; XMain SNoAffinity; XMain SOk; XMain SOk]) by auto. vm_compute in Ev. injection Ev as ->. split; [reflexivity|].
  intros es s' H. match type of R with xreach _ ?x => assert (M : s_main x = MJoin 0 true) by reflexivity; assert (L : s_rs x <> []) by discriminate end.
  revert R M L H. match goal with |- xreach _ ?x -> _ => generalize x end. clear. intros s R M L H.
  induction H as [s|s e s1 es s2 H _ IH]; [exact M|]. apply IH; [econstructor; eauto| |].
  - destruct (xreach_inv _ _ R) as [Inv _]. destruct e as [x|i bs ok]; cbn [xstep] in H.
    + exfalso. unfold main_step, at_reactor in H. rewrite M in H. destruct (nth_error (s_rs s) 0) as [r|] eqn:Er; [|discriminate H]. destruct (r_thr r) eqn:Et; try discriminate H.
      pose proof (Forall_nth _ _ _ _ (xi_end s Inv) Er Et) as A. pose proof (xi_go s Inv) as G. rewrite M in G. pose proof (Forall_nth _ _ _ _ (G eq_refl) Er) as B. cbn in *. congruence.
    + unfold at_reactor in H. destruct (nth_error (s_rs s) i) as [r|]; [|discriminate H]. destruct (thr_step _ _ _ _) as [[t|]|]; try discriminate H. injection H as <-. exact M.
  - destruct (xreach_inv _ _ R) as [Inv _]. destruct (xinv_step s e s1 Inv H) as [_ K]. intros N. apply L. destruct (s_rs s); [reflexivity|]. rewrite N in K. discriminate K.
Qed.
(** In general: whatever fails in the main thread, with whatever reactors, main's handler is never reached and nothing is
    printed; *)
Theorem C137_never n s : xreach n s -> n <> 0%nat -> s_main s <> MExit true.
Proof.
  intros R N M. destruct (xreach_inv n s R) as [Inv L]. pose proof (xi_stuck s Inv) as K. rewrite M in K. apply K. intros E. rewrite E in L. now apply N.
Qed.
(** the main thread gets stuck destroying the first reactor, or joins a thread that was never created. *)
Theorem C137_stuck n s x : xreach n s -> s_main s = MJoin 0 true -> main_step s x = XDisabled \/ main_step s x = XBad /\ exists r, nth_error (s_rs s) 0 = Some r /\ r_thr r = TNew.
Proof.
  intros R M. destruct (xreach_inv n s R) as [Inv _]. unfold main_step, at_reactor. rewrite M. destruct (nth_error (s_rs s) 0) as [r|] eqn:Er; [|now left].
  destruct (r_thr r) eqn:Et; auto; [right; split; [reflexivity|]; exists r; auto|].
  exfalso. pose proof (Forall_nth _ _ _ _ (xi_end s Inv) Er Et) as A. pose proof (xi_go s Inv) as G. rewrite M in G. pose proof (Forall_nth _ _ _ _ (G eq_refl) Er) as B. cbn in *. congruence.
Qed.
Example C137_case : exists s, xreach 4 s /\ s_main s = MJoin 0 true /\ main_step s SOk = XBad.
Proof.
  destruct (xrun (sys0 4) [XMain SNoThread; XMain SOk; XMain SOk]) as [s|] eqn:E; [|vm_compute in E; discriminate E].
  exists s. split; [exact (xrun_reach _ _ _ E)|]. assert (Ev : Some s = xrun (sys0 4) [XMain SNoThread; XMain SOk; XMain SOk]) by auto. vm_compute in Ev. injection Ev as ->. split; vm_compute; reflexivity.
Qed.

Print Assumptions C135_refuted.
Print Assumptions C135_partial.
Print Assumptions C135_messages.
Print Assumptions C136_bound.
Print Assumptions C136_progress.
Print Assumptions C137_refuted.
Print Assumptions C137_never.
Print Assumptions C137_stuck.
