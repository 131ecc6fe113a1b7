(** C07 - C10: message delivery by the reactor. *)
From Verif Require Import Base QueueModel MsgStorageModel MsgStorageSpec MsgStorageProofs
  ReactorModel ReactorSpec ReactorProofs.
Local Open Scope Z_scope.

(** C07, safety: after every schedule (including throwing handlers and stop),
    the dispatched messages are a prefix, in order, of the accepted ones; at most 64
    are pending; and no next step is undefined. *)
Theorem C07_in_order_at_most_once : forall (H : Type) mid slack, 0 <= slack <= 15 ->
  forall m0 (hs : hmap H) s0 acts evs s,
  reactor_new slack m0 hs = Some s0 -> rrun mid s0 acts evs s -> sends_fit acts ->
  (exists pending, dispatched evs ++ pending = accepted evs /\ (length pending <= 64)%nat) /\
  (forall a, (forall t m, a = ASend t m -> Z.of_nat (length m) <= 4088) -> rstep mid s a <> Undefined).
Proof. exact @reactor_safe. Qed.
Print Assumptions C07_in_order_at_most_once.

(** C07, no lost wake-up: while some accepted message is undelivered, a
    signal, wake, read or loop step is enabled. *)
Theorem C07_no_lost_wakeup : forall (H : Type) mid slack, 0 <= slack <= 15 ->
  forall m0 (hs : hmap H) s0 acts evs s,
  reactor_new slack m0 hs = Some s0 -> rrun mid s0 acts evs s -> sends_fit acts -> calm acts ->
  dispatched evs <> accepted evs ->
  exists a s' es, progress_action a /\ rstep mid s a = Next s' es.
Proof. exact @no_lost_wakeup. Qed.
Print Assumptions C07_no_lost_wakeup.

(** C07, delivery: from every reachable state everything accepted is
    delivered by finitely many steps without any further send. *)
Theorem C07_everything_delivered : forall (H : Type) mid slack, 0 <= slack <= 15 ->
  forall m0 (hs : hmap H) s0, reactor_new slack m0 hs = Some s0 ->
  forall n acts evs s, rrun mid s0 acts evs s -> sends_fit acts -> calm acts ->
  rmeasure s <= Z.of_nat n ->
  exists acts' evs' s', rrun mid s0 (acts ++ acts') (evs ++ evs') s' /\
    Forall progress_action acts' /\ (length acts' <= n)%nat /\
    accepted evs' = [] /\ dispatched (evs ++ evs') = accepted (evs ++ evs').
Proof. exact @drains. Qed.
Print Assumptions C07_everything_delivered.

(** An interleaving of two senders with the reactor: the second message is
    stored between the read and the loop and signalled after it. *)
Definition demo (acts : list action) : option (list (list Z) * list (list Z) * Z * nat) :=
  match reactor_new 15 (fun _ => 0) (fun id => if id =? 7 then Some tt else None) with
  | None => None
  | Some s0 => option_map (fun '(evs, s) => (accepted evs, dispatched evs, y_cnt s, length (y_pend s)))
                          (rexec (fun m => hd 0 m) s0 [] acts)
  end.
Example C07_case :
  demo [ASend 1 [7;1]; ASignal 1; AWake; ASend 2 [8;2]; ARead; AIter false; ASignal 2; ADone; AWake; ARead; AIter false]
  = Some ([[7;1];[8;2]], [[7;1];[8;2]], 0, 0%nat).
Proof. vm_compute. reflexivity. Qed.

(** C08 is false: two messages are accepted and signalled, the first handler
    throws; the second message stays in the storage although every signal was
    consumed, and no reactor or signalling step is enabled. *)
Definition chk (n_acc n_dis : nat) (r : list (ev unit) * sys unit) : bool :=
  let '(evs, s) := r in
  (length (accepted evs) =? n_acc)%nat && (length (dispatched evs) =? n_dis)%nat &&
  (match y_thr s with Idle => true | _ => false end) &&
  (match y_pend s with [] => true | _ => false end) && ((y_cnt s =? 0) || negb (y_edge s)).

Lemma strand_witness (acts : list action) (n_acc n_dis : nat) s0 :
  reactor_new 15 (fun _ => 0) (fun _ => Some tt) = Some s0 ->
  option_map (chk n_acc n_dis) (rexec (fun m => hd 0 m) s0 [] acts) = Some true ->
  exists evs s, rrun (fun m => hd 0 m) s0 acts evs s /\
    length (accepted evs) = n_acc /\ length (dispatched evs) = n_dis /\
    forall a, progress_action a -> rstep (fun m => hd 0 m) s a = Disabled.
Proof.
  intros _ Hc.
  destruct (rexec _ s0 [] acts) as [[evs s]|] eqn:E; [|discriminate Hc].
  cbn [option_map chk] in Hc. injection Hc as Hc.
  apply andb_prop in Hc as [Hc H5]. apply andb_prop in Hc as [Hc H4]. apply andb_prop in Hc as [Hc H3].
  apply andb_prop in Hc as [H1 H2]. apply Nat.eqb_eq in H1, H2.
  exists evs, s. split; [|split; [auto|split; [auto|]]].
  - apply (rexec_rrun (fun m => hd 0 m) s0 acts [] [] s0); [constructor|exact E].
  - intros a Ha. destruct (y_thr s) eqn:Et; try discriminate H3. destruct (y_pend s) eqn:Ep; try discriminate H4.
    apply orb_prop in H5 as [H5|H5].
    + apply quiescent_disabled; auto. now apply Z.eqb_eq.
    + apply aborted_disabled; auto. now apply negb_true_iff.
Qed.

Theorem C08_throwing_handler_strands_refuted : exists s0 acts evs s,
  reactor_new 15 (fun _ => 0) (fun _ => Some tt) = Some s0 /\
  rrun (fun m => hd 0 m) s0 acts evs s /\
  acts = [ASend 1 [1]; ASignal 1; ASend 2 [2]; ASignal 2; AWake; ARead; AIter true] /\
  length (accepted evs) = 2%nat /\ length (dispatched evs) = 1%nat /\
  forall a, progress_action a -> rstep (fun m => hd 0 m) s a = Disabled.
Proof.
  destruct (reactor_new 15 (fun _ => 0) (fun _ => Some tt)) as [s0|] eqn:E0.
  - exists s0, [ASend 1 [1]; ASignal 1; ASend 2 [2]; ASignal 2; AWake; ARead; AIter true].
    destruct (strand_witness [ASend 1 [1]; ASignal 1; ASend 2 [2]; ASignal 2; AWake; ARead; AIter true] 2 1 s0 E0)
      as (evs & s & H1 & H2 & H3 & H4).
    + assert (X : option_map (fun s0 => option_map (chk 2 1) (rexec (fun m => hd 0 m) s0 []
                [ASend 1 [1]; ASignal 1; ASend 2 [2]; ASignal 2; AWake; ARead; AIter true]))
                (reactor_new 15 (fun _ => 0) (fun _ => Some tt)) = Some (Some true)) by (vm_compute; reflexivity).
      rewrite E0 in X. cbn [option_map] in X. now injection X.
    + exists evs, s. exact (conj eq_refl (conj H1 (conj eq_refl (conj H2 (conj H3 H4))))).
  - exfalso. assert (X : option_map (fun _ => true) (reactor_new 15 (fun _ => 0) (fun _ => Some tt)) = Some true)
      by (vm_compute; reflexivity).
    rewrite E0 in X. discriminate X.
Qed.
Print Assumptions C08_throwing_handler_strands_refuted.

(** C08, second way: an exception thrown for another descriptor reported in
    the same epoll batch swallows the (edge-triggered) report. *)
Theorem C08_batch_exception_strands_refuted : exists s0 acts evs s,
  reactor_new 15 (fun _ => 0) (fun _ => Some tt) = Some s0 /\
  rrun (fun m => hd 0 m) s0 acts evs s /\
  acts = [ASend 1 [1]; ASignal 1; AWakeAbort] /\
  length (accepted evs) = 1%nat /\ length (dispatched evs) = 0%nat /\
  forall a, progress_action a -> rstep (fun m => hd 0 m) s a = Disabled.
Proof.
  destruct (reactor_new 15 (fun _ => 0) (fun _ => Some tt)) as [s0|] eqn:E0.
  - exists s0, [ASend 1 [1]; ASignal 1; AWakeAbort].
    destruct (strand_witness [ASend 1 [1]; ASignal 1; AWakeAbort] 1 0 s0 E0)
      as (evs & s & H1 & H2 & H3 & H4).
    + assert (X : option_map (fun s0 => option_map (chk 1 0) (rexec (fun m => hd 0 m) s0 []
                [ASend 1 [1]; ASignal 1; AWakeAbort]))
                (reactor_new 15 (fun _ => 0) (fun _ => Some tt)) = Some (Some true)) by (vm_compute; reflexivity).
      rewrite E0 in X. cbn [option_map] in X. now injection X.
    + exists evs, s. exact (conj eq_refl (conj H1 (conj eq_refl (conj H2 (conj H3 H4))))).
  - exfalso. assert (X : option_map (fun _ => true) (reactor_new 15 (fun _ => 0) (fun _ => Some tt)) = Some true)
      by (vm_compute; reflexivity).
    rewrite E0 in X. discriminate X.
Qed.
Print Assumptions C08_batch_exception_strands_refuted.

(** C08, exact loss: whenever the reactor is quiet, the number of accepted
    but undelivered messages is the number of loop iterations abandoned by
    throwing handlers so far. *)
Theorem C08_stranded_count_partial : forall (H : Type) mid slack, 0 <= slack <= 15 ->
  forall m0 (hs : hmap H) s0 acts evs s,
  reactor_new slack m0 hs = Some s0 -> rrun mid s0 acts evs s -> sends_fit acts ->
  ~ In AStop acts -> y_thr s = Idle -> y_cnt s = 0 -> y_pend s = [] ->
  exists pending, dispatched evs ++ pending = accepted evs /\
    Z.of_nat (length pending) = abandoned evs.
Proof. exact @stranded_count. Qed.
Print Assumptions C08_stranded_count_partial.

(** C09.  A send is refused exactly when 64 accepted messages are undelivered;
    then the whole state is unchanged (in particular nothing is signalled). *)
Theorem C09_overload_drops_only_refused : forall (H : Type) mid slack, 0 <= slack <= 15 ->
  forall m0 (hs : hmap H) s0 acts evs s t m s' es,
  reactor_new slack m0 hs = Some s0 -> rrun mid s0 acts evs s -> sends_fit acts ->
  Z.of_nat (length m) <= 4088 -> rstep mid s (ASend t m) = Next s' es ->
  exists pending, dispatched evs ++ pending = accepted evs /\
   ((length pending = 64)%nat /\ s' = s /\ es = [EvRefuse m] \/
    (length pending < 64)%nat /\ es = [EvAccept m] /\ y_pend s' = t :: y_pend s /\ y_cnt s' = y_cnt s).
Proof. exact @refused_unchanged. Qed.
Print Assumptions C09_overload_drops_only_refused.

Example C09_case :
  demo (flat_map (fun t => [ASend t [7]]) (seq 0 66)) = Some (repeat [7] 64, [], 0, 64%nat).
Proof. vm_compute. reflexivity. Qed.

(** C10.  Every dispatch, in every schedule, runs the handler registered last
    for the message's id (and none if there is none). *)
Theorem C10_dispatch_runs_last_registered : forall (H : Type) mid slack m0 (regs : list (Z * option H)) s0 acts evs s m h,
  reactor_new slack m0 (register_all h_empty regs) = Some s0 -> rrun mid s0 acts evs s ->
  In (EvDispatch m h) evs -> h = last_reg regs (mid m).
Proof. exact @dispatch_last. Qed.
Print Assumptions C10_dispatch_runs_last_registered.

Example C10_case : last_reg [(1, Some 10); (2, Some 20); (1, Some 30)] 1 = Some 30
  /\ last_reg [(1, Some 10); (2, Some 20)] 3 = None.
Proof. split; reflexivity. Qed.
