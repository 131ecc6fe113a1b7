(** C01, C02: the fixed-capacity queue. *)
From Verif Require Import Base QueueModel QueueSpec QueueRun QueueProofs QueueRing.

(** C01.  Any sequence of calls that respects the contract (as judged by the
    abstract FIFO alone) is defined on the ring buffer and returns exactly the
    outputs of the FIFO. *)
Theorem C01_queue_is_fifo : forall (A : Type) (cap : nat) (os : list (qop A)) l outs,
  0 < cap -> size_t_ok cap ->
  fifo_run cap [] os = Some (l, outs) ->
  exists q, q_run (@q_new A cap) os = Some (q, outs).
Proof. exact @queue_fifo_outputs. Qed.
Print Assumptions C01_queue_is_fifo.

Example C01_case : exists l outs,
  fifo_run 2 [] [OpPush 7; OpPush 8; OpFront; OpPop; OpPush 9; OpFront; OpPop; OpPop; OpEmpty] = Some (l, outs)
  /\ outs = [OutUnit; OutUnit; OutVal 7; OutUnit; OutUnit; OutVal 8; OutUnit; OutUnit; OutBool true].
Proof. eexists; eexists; split; vm_compute; reflexivity. Qed.

(** C02 is false: for every capacity, filling the queue and pushing once more
    makes [front] return the newest value instead of the oldest, and no error is
    reported. *)
Theorem C02_overflow_keeps_values_refuted : forall (A : Type) (cap : nat) (xs : list A) (v : A),
  0 < cap -> size_t_ok cap -> length xs = cap ->
  exists q outs, q_run (@q_new A cap) (map OpPush xs ++ [OpPush v; OpFront])
                 = Some (q, outs ++ [OutUnit; OutVal v]).
Proof. exact @overflow_loses_oldest. Qed.
Print Assumptions C02_overflow_keeps_values_refuted.

Example C02_case : exists q outs,
  q_run (@q_new nat 2) (map OpPush [1; 2] ++ [OpPush 3; OpFront]) = Some (q, outs) /\
  outs = [OutUnit; OutUnit; OutUnit; OutVal 3].
Proof. eexists; eexists; split; vm_compute; reflexivity. Qed.

(** What holds instead, for every sequence of calls without a limit on the pushes (only pop and front on a queue all of whose values were popped are excluded): the outputs are those of
    [ring_run], where [front] yields the latest of the values whose number differs from that of the value due by a multiple of the capacity. *)
Theorem C02_overflow_exact_partial : forall (A : Type) (cap : nat) (os : list (qop A)) xs m outs,
  0 < cap -> (Z.of_nat (length os) < 18446744073709551616)%Z ->
  ring_run cap [] 0 os = Some (xs, m, outs) ->
  exists q, q_run (@q_new A cap) os = Some (q, outs).
Proof. intros A cap os xs m outs Hc Hs H. apply (ring_runs os (q_new cap) [] 0 xs m outs (Rr_new cap Hc)); auto. Qed.
Print Assumptions C02_overflow_exact_partial.

(** So the value due is returned exactly if not more than [cap] values, itself included, were pushed since: otherwise a later one takes its place. *)
Theorem C02_kept_partial : forall cap n m, 0 < cap -> m < n -> (latest cap n m = m <-> n <= m + cap).
Proof. exact latest_own. Qed.
Print Assumptions C02_kept_partial.

Example C02_exact_case :
  ring_run 2 [] 0 [OpPush 1; OpPush 2; OpPush 3; OpFront; OpPop; OpFront; OpPop; OpFront; OpPop; OpEmpty] =
  Some ([1; 2; 3], 3, [OutUnit; OutUnit; OutUnit; OutVal 3; OutUnit; OutVal 2; OutUnit; OutVal 3; OutUnit; OutBool true]).
Proof. reflexivity. Qed.
