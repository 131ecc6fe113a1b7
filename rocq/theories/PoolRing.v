(** A handle released twice, whatever the state of the pool. *)
From Verif Require Import Base QueueModel QueueSpec QueueRun QueueProofs QueueRing PoolModel PoolSpec PoolProofs.
Local Open Scope Z_scope.

Lemma ring_alloc p xs m : Rr (p_ids p) xs m -> (m < length xs)%nat -> Z.of_nat (length xs - m) + 1 < 18446744073709551616 ->
  exists u p', nth_error xs (latest (q_cap (p_ids p)) (length xs) m) = Some u /\ pool_alloc p = Some (p', Some u) /\ Rr (p_ids p') xs (S m) /\ q_cap (p_ids p') = q_cap (p_ids p).
Proof.
  intros HR Hm Hs. destruct (latest_spec (q_cap (p_ids p)) (length xs) m (rr_cap _ _ _ HR) Hm) as [[L1 L2] L3].
  destruct (nth_error xs (latest (q_cap (p_ids p)) (length xs) m)) as [u|] eqn:E; [|apply nth_error_None in E; lia].
  destruct (ring_refines _ xs m OpFront xs m (OutVal u) HR Hs) as (q1 & S1 & _ & _).
  { cbn [ring_step]. rewrite E. destruct (Nat.ltb_spec m (length xs)); [reflexivity|lia]. }
  destruct (ring_refines _ xs m OpPop xs (S m) OutUnit HR Hs) as (q2 & S2 & HR2 & Hc2).
  { cbn [ring_step]. destruct (Nat.ltb_spec m (length xs)); [reflexivity|lia]. }
  cbn in S1, S2. destruct (q_front (p_ids p)) as [u'|] eqn:Ef; [|discriminate]. injection S1 as _ ->. destruct (q_pop (p_ids p)) as [q'|] eqn:Ep; [|discriminate]. injection S2 as ->.
  exists u. eexists. split; [reflexivity|]. unfold pool_alloc, q_empty. rewrite (rr_len _ _ _ HR), Ef, Ep. destruct (Z.eqb_spec (Z.of_nat (length xs - m)) 0); [lia|].
  split; [reflexivity|]. auto.
Qed.
Lemma ring_allocs n : forall p xs m, Rr (p_ids p) xs m -> (m + n <= length xs)%nat -> Z.of_nat (length xs - m) + 1 < 18446744073709551616 ->
  exists us p', allocs p us p' /\ Rr (p_ids p') xs (m + n) /\ q_cap (p_ids p') = q_cap (p_ids p).
Proof.
  induction n as [|n IH]; intros p xs m HR Hl Hs.
  - exists [], p. rewrite Nat.add_0_r. split; [constructor|auto].
  - destruct (ring_alloc p xs m HR ltac:(lia) Hs) as (u & p1 & _ & Ea & HR1 & Hc1). destruct (IH p1 xs (S m) HR1 ltac:(lia) ltac:(lia)) as (us & p2 & Hu & HR2 & Hc2).
    exists (u :: us), p2. split; [econstructor; eauto|]. replace (m + S n)%nat with (S m + n)%nat by lia. split; [auto|congruence].
Qed.
Lemma allocs_app p us p1 vs p2 : allocs p us p1 -> allocs p1 vs p2 -> allocs p (us ++ vs) p2.
Proof. induction 1 as [|p u q us r E _ IH]; intros H; [exact H|]. cbn. econstructor; [exact E|auto]. Qed.

Lemma double_release_always base cap owned p u : (0 < cap)%nat -> Z.of_nat cap < 4294967296 -> pool_hist base cap owned p -> In u owned ->
  exists p1 p2 us vs p3, pool_release p u = Some p1 /\ pool_release p1 u = Some p2 /\ allocs p2 (us ++ u :: vs ++ [u]) p3.
Proof.
  intros Hc Hs H Hu. assert (Hst : size_t_ok cap) by (unfold size_t_ok; lia).
  destruct (pool_hist_inv _ _ _ _ Hc Hst H) as [free HI]. pose proof (pinv_len _ _ _ _ _ HI) as Hlen.
  apply in_split in Hu as (o1 & o2 & ->). destruct (pinv_release _ _ _ _ _ _ _ HI) as (p1 & E1 & HI1). destruct HI1 as [_ _ Hcap1 Hq1 _].
  rewrite app_length in Hlen. cbn [length] in Hlen.
  destruct (Nat.eq_dec (length o1 + length o2) 0) as [Z0|Z0].
  - assert (Hf : length (free ++ [u]) = q_cap (p_ids p1)) by (rewrite app_length; cbn; lia).
    pose proof (Rr_full _ _ u Hq1 Hf) as HR. set (b := q_begin (p_ids p1)) in *. set (xs := repeat u b ++ free ++ [u]) in *.
    assert (Lx : length xs = (b + cap)%nat) by (unfold xs; rewrite app_length, repeat_length; lia).
    destruct (ring_refines (p_ids p1) xs b (OpPush u) (xs ++ [u]) b OutUnit HR ltac:(lia) eq_refl) as (q2 & S2 & HR2 & Hc2). cbn in S2.
    destruct (q_push (p_ids p1) u) as [q2'|] eqn:Ep; [|discriminate]. injection S2 as ->.
    assert (Lx2 : length (xs ++ [u]) = (b + cap + 1)%nat) by (rewrite app_length, Lx; reflexivity).
    assert (Last : nth_error (xs ++ [u]) (b + cap) = Some u) by (rewrite nth_error_app2, Lx, Nat.sub_diag by lia; reflexivity).
    set (p2 := mkPool (p_base p1) (p_size p1) q2).
    assert (Hq : q_cap (p_ids p2) = cap) by (cbn; congruence).
    destruct (ring_alloc p2 (xs ++ [u]) b HR2 ltac:(lia) ltac:(lia)) as (u1 & p3 & N1 & A1 & HR3 & Hc3).
    assert (u1 = u) as ->.
    { rewrite Hq, Lx2 in N1. unfold latest in N1. replace (b + cap + 1 - 1 - b)%nat with cap in N1 by lia. rewrite Nat.div_same, Nat.mul_1_r in N1 by lia. congruence. }
    destruct (ring_allocs (cap - 1) p3 (xs ++ [u]) (S b) HR3 ltac:(lia) ltac:(lia)) as (vs & p4 & A2 & HR4 & Hc4). replace (S b + (cap - 1))%nat with (b + cap)%nat in HR4 by lia.
    destruct (ring_alloc p4 (xs ++ [u]) (b + cap) HR4 ltac:(lia) ltac:(lia)) as (u2 & p5 & N2 & A3 & _ & _).
    assert (u2 = u) as ->.
    { unfold latest in N2. rewrite Lx2 in N2. replace (b + cap + 1 - 1 - (b + cap))%nat with 0%nat in N2 by lia.
      rewrite Nat.div_0_l, Nat.mul_0_r, Nat.add_0_r in N2 by (pose proof (rr_cap _ _ _ HR4); lia). congruence. }
    exists p1, p2, [], vs, p5. split; [exact E1|]. split; [unfold pool_release; now rewrite Ep|]. cbn. econstructor; [exact A1|]. eapply allocs_app; [exact A2|]. econstructor; [exact A3|constructor].
  - destruct (Rq_push _ _ u Hq1) as (q2 & E2 & HR2 & _); [rewrite app_length; cbn; lia|]. rewrite <- app_assoc in HR2. cbn in HR2.
    assert (HR2' : Rq (p_ids (mkPool (p_base p1) (p_size p1) q2)) ((free ++ [u; u]) ++ [])) by (rewrite app_nil_r; exact HR2).
    destruct (allocs_rq _ _ _ HR2') as (p3 & Ha & _). exists p1, (mkPool (p_base p1) (p_size p1) q2), free, [], p3.
    split; [exact E1|]. split; [unfold pool_release; now rewrite E2|exact Ha].
Qed.
