(** C16, C17, C57, C58: TCP links. *)
From Verif Require Import Base LinkModel LinkSpec LinkProofs.
Local Open Scope Z_scope.

(** C16.  For every interleaving of calls and events on any number of links
    with arbitrary system-call results (except the two accept cases refuted
    below): no descriptor is used after close or closed twice. *)
Theorem C16_descriptor_discipline_partial : forall ops,
  clean w_new ops -> disciplined [] (snd (w_run w_new ops)).
Proof. exact links_disciplined. Qed.
Print Assumptions C16_descriptor_discipline_partial.

(** ... and none is leaked: what is open is exactly what links hold. *)
Theorem C16_no_leak_partial : forall ops, clean w_new ops -> kernel_ok [] (snd (w_run w_new ops)) ->
  forall f, In f (open_after [] (snd (w_run w_new ops))) <->
            0 <= f /\ exists i, l_fd (fst (w_run w_new ops) i) = f.
Proof. exact links_no_leak. Qed.
Print Assumptions C16_no_leak_partial.

Theorem C16_release_closes : forall l, l_fd l <> -1 ->
  link_step l LRelease = (mkLink (-1) false, [KUse (l_fd l); KClose (l_fd l)], RetUnit) /\
  forall h, link_step (mkLink (-1) h) LClose = (mkLink (-1) h, [], RetUnit).
Proof. exact release_closes. Qed.
Print Assumptions C16_release_closes.

Definition demo16 : list (nat * lop) :=
  [(0%nat, LConnect 5 true true true); (1%nat, LAccept 6 true true); (0%nat, LSetHandler true);
   (0%nat, LEvent 8 true); (2%nat, LConnect 5 true true true); (1%nat, LReceive (RdN 3));
   (1%nat, LRelease); (2%nat, LSend 4); (2%nat, LRelease)].
Example C16_case : clean w_new demo16 /\ kernel_ok [] (snd (w_run w_new demo16)) /\
  snd (w_run w_new demo16) =
    [KOpen 5; KUse 5; KUse 5; KUse 5; KOpen 6; KUse 6; KUse 6; KUse 5; KClose 5;
     KOpen 5; KUse 5; KUse 5; KUse 5; KUse 6; KUse 6; KClose 6; KUse 5; KUse 5; KClose 5].
Proof.
  split; [|split].
  - vm_compute. intuition discriminate.
  - vm_compute. intuition discriminate.
  - vm_compute. reflexivity.
Qed.

(** C16 is false without the restriction: if epoll registration fails inside
    accept, the descriptor is closed but the link keeps it, and releasing the link
    closes it a second time although the kernel behaved. *)
Theorem C16_accept_failure_refuted : forall fd, 0 <= fd -> exists ops,
  kernel_ok [] (snd (w_run w_new ops)) /\ ~ disciplined [] (snd (w_run w_new ops)) /\
  ops = [(0%nat, LAccept fd true false); (0%nat, LRelease)].
Proof.
  intros fd H. exists [(0%nat, LAccept fd true false); (0%nat, LRelease)].
  assert (E : (fd =? -1) = false) by lia.
  assert (T : snd (w_run w_new [(0%nat, LAccept fd true false); (0%nat, LRelease)]) =
              [KOpen fd; KUse fd; KUse fd; KClose fd; KUse fd; KClose fd]).
  { unfold w_run, link_step, link_close, w_set, w_new, link_new. cbn [l_fd l_handler Z.eqb negb Nat.eqb].
    rewrite !E. cbn. rewrite ?E. reflexivity. }
  rewrite T. cbn. rewrite Z.eqb_refl. repeat split; auto.
  intros D. specialize (D H (fun x => x)). intuition.
Qed.
Print Assumptions C16_accept_failure_refuted.

(** Accepting onto a link in use leaks the new descriptor. *)
Theorem C16_accept_in_use_leaks_refuted : forall l fd, l_fd l <> -1 -> fd <> -1 ->
  link_step l (LAccept fd true true) = (l, [KOpen fd; KUse fd], RetThrow).
Proof.
  intros l fd H1 H2. cbn. destruct (Z.eqb_spec fd (-1)); [contradiction|].
  destruct (Z.eqb_spec (l_fd l) (-1)); [contradiction|]. reflexivity.
Qed.
Print Assumptions C16_accept_in_use_leaks_refuted.

(** C17 is false: end of stream (read returns 0) on any connected link is
    reported as a successful read of zero bytes; the link stays open. *)
Theorem C17_peer_disconnect_refuted : forall l, l_fd l <> -1 ->
  link_step l (LReceive (RdN 0)) = (l, [KUse (l_fd l)], RetRecv LrOk 0).
Proof. intros l H. cbn. destruct (Z.eqb_spec (l_fd l) (-1)); [contradiction|reflexivity]. Qed.
Print Assumptions C17_peer_disconnect_refuted.

(** No receive outcome whatsoever is reported as [closed]. *)
Theorem C17_never_reports_closed_refuted : forall l rd len,
  snd (link_step l (LReceive rd)) <> RetRecv LrClosed len.
Proof. intros l rd len. cbn. destruct (l_fd l =? -1), rd; cbn; discriminate. Qed.
Print Assumptions C17_never_reports_closed_refuted.

(** What does hold: an error or hang-up report closes the link and notifies an
    error, exactly once. *)
Theorem C17_error_event_partial : forall l events mod_ok,
  l_handler l = true -> l_fd l <> -1 -> events <> EPOLLIN -> events <> EPOLLOUT ->
  link_step l (LEvent events mod_ok) =
    (mkLink (-1) true, [KUse (l_fd l); KClose (l_fd l)], RetNotify LevError).
Proof.
  intros l e m Hh Hf H1 H2. cbn. rewrite Hh. cbn [negb].
  destruct (Z.eqb_spec e EPOLLIN); [contradiction|]. destruct (Z.eqb_spec e EPOLLOUT); [contradiction|].
  unfold link_close. destruct (Z.eqb_spec (l_fd l) (-1)); [contradiction|]. now rewrite Hh.
Qed.
Print Assumptions C17_error_event_partial.

Example C17_case : l_fd (mkLink 4 true) <> -1 /\ (8 <> EPOLLIN) /\ 8 <> EPOLLOUT.
Proof. repeat split; discriminate. Qed.

(** C57 is false: when epoll reports readable and writable together (a peer
    that speaks first), a healthy connecting link is closed and an error is
    notified instead of connected/data. *)
Theorem C57_readable_and_writable_refuted : forall fd mod_ok, fd <> -1 ->
  link_step (mkLink fd true) (LEvent (Z.lor EPOLLIN EPOLLOUT) mod_ok) =
  (mkLink (-1) true, [KUse fd; KClose fd], RetNotify LevError).
Proof.
  intros fd m H. unfold link_step, link_close; cbn [l_fd l_handler negb].
  change (Z.lor EPOLLIN EPOLLOUT =? EPOLLIN) with false.
  change (Z.lor EPOLLIN EPOLLOUT =? EPOLLOUT) with false.
  destruct (Z.eqb_spec fd (-1)); [contradiction|reflexivity].
Qed.
Print Assumptions C57_readable_and_writable_refuted.

(** Exactly one bit set is handled as intended. *)
Theorem C57_single_event_partial : forall fd mod_ok, fd <> -1 ->
  link_step (mkLink fd true) (LEvent EPOLLIN mod_ok) = (mkLink fd true, [], RetNotify LevData) /\
  link_step (mkLink fd true) (LEvent EPOLLOUT true) = (mkLink fd true, [KUse fd], RetNotify LevConnected).
Proof. intros fd m H. split; reflexivity. Qed.
Print Assumptions C57_single_event_partial.

(** C58 is false: a short write is reported as success whatever was written. *)
Theorem C58_short_write_refuted : forall l wr, l_fd l <> -1 -> 0 <= wr ->
  link_step l (LSend wr) = (l, [KUse (l_fd l)], RetSend 1).
Proof.
  intros l wr H Hw. cbn. destruct (Z.eqb_spec (l_fd l) (-1)); [contradiction|].
  destruct (Z.eqb_spec wr (-1)); [lia|reflexivity].
Qed.
Print Assumptions C58_short_write_refuted.

(** What holds: failure is reported exactly when the link is closed or write
    failed. *)
Theorem C58_send_failure_partial : forall l wr,
  snd (link_step l (LSend wr)) = RetSend (-1) <-> l_fd l = -1 \/ wr = -1.
Proof.
  intros l wr. cbn. destruct (Z.eqb_spec (l_fd l) (-1)); cbn; [tauto|].
  destruct (Z.eqb_spec wr (-1)); [tauto|]. split; [discriminate|tauto].
Qed.
Print Assumptions C58_send_failure_partial.
