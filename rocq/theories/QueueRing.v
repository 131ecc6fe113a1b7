(** The queue without the caller's promise not to push on a full queue: the specification of what it then returns, and the proof. *)
From Verif Require Import Base QueueModel QueueSpec QueueRun QueueProofs.

(** One call, after the values [xs] were pushed and [m] values popped.  There is no bound on the pushes: [front] yields the latest of the values whose
    position in the order of pushing differs from [m] by a multiple of the capacity.  [None]: pop or front although every value was popped. *)
Definition latest (cap n m : nat) : nat := m + cap * ((n - 1 - m) / cap).
Definition ring_step {A} (cap : nat) (xs : list A) (m : nat) (o : qop A) : option (list A * nat * qout A) :=
  match o with
  | OpPush v => Some (xs ++ [v], m, OutUnit)
  | OpPop => if (m <? length xs)%nat then Some (xs, S m, OutUnit) else None
  | OpFront => if (m <? length xs)%nat then match nth_error xs (latest cap (length xs) m) with Some v => Some (xs, m, OutVal v) | None => None end else None
  | OpEmpty => Some (xs, m, OutBool (m =? length xs)%nat)
  end.
Fixpoint ring_run {A} (cap : nat) (xs : list A) (m : nat) (os : list (qop A)) : option (list A * nat * list (qout A)) :=
  match os with
  | [] => Some (xs, m, [])
  | o :: os => match ring_step cap xs m o with
               | Some (xs1, m1, out) => match ring_run cap xs1 m1 os with Some (xs2, m2, outs) => Some (xs2, m2, out :: outs) | None => None end
               | None => None
               end
  end.

Section R.
Context {A : Type}.
Open Scope nat_scope.

Record Rr (q : queue A) (xs : list A) (m : nat) : Prop := mkRr {
  rr_cap : 0 < q_cap q;
  rr_dlen : length (q_data q) = q_cap q;
  rr_m : m <= length xs;
  rr_len : q_len q = Z.of_nat (length xs - m);
  rr_begin : q_begin q = m mod q_cap q;
  rr_end : q_end q = length xs mod q_cap q;
  rr_cells : forall j x, nth_error xs j = Some x -> length xs <= j + q_cap q -> nth_error (q_data q) (j mod q_cap q) = Some (Some x)
}.

Lemma mod_apart a b c : 0 < c -> a < b -> b < a + c -> a mod c <> b mod c.
Proof.
  intros Hc H1 H2 E. pose proof (Nat.div_mod a c ltac:(lia)) as Ea. pose proof (Nat.div_mod b c ltac:(lia)) as Eb.
  rewrite E in Ea. destruct (Nat.lt_trichotomy (a / c) (b / c)) as [L|[L|L]]; nia.
Qed.
Lemma Rr_new cap : 0 < cap -> Rr (@q_new A cap) [] 0.
Proof.
  intros H. constructor; cbn [q_new q_cap q_data q_len q_begin q_end length]; auto.
  - apply repeat_length.
  - now rewrite Nat.mod_0_l by lia.
  - now rewrite Nat.mod_0_l by lia.
  - intros [|j] x Hx; discriminate.
Qed.
Lemma latest_spec cap n m : 0 < cap -> m < n -> latest cap n m < n <= latest cap n m + cap /\ latest cap n m mod cap = m mod cap.
Proof.
  intros Hc Hm. unfold latest. pose proof (Nat.div_mod (n - 1 - m) cap ltac:(lia)). pose proof (Nat.mod_upper_bound (n - 1 - m) cap ltac:(lia)).
  split; [lia|]. rewrite (Nat.mul_comm cap), Nat.mod_add by lia. reflexivity.
Qed.
Lemma ring_refines q xs m o xs' m' out : Rr q xs m -> (Z.of_nat (length xs - m) + 1 < 18446744073709551616)%Z -> ring_step (q_cap q) xs m o = Some (xs', m', out) ->
  exists q', q_step q o = Some (q', out) /\ Rr q' xs' m' /\ q_cap q' = q_cap q.
Proof.
  intros [Hc Hd Hm Hl Hb He Hcell] Hs H. destruct o as [v| | |]; cbn [ring_step q_step] in *.
  - injection H as <- <- <-. unfold q_push. destruct (q_cap q) as [|c] eqn:Ec; [lia|]. cbn [option_map]. eexists. split; [reflexivity|]. split; [|reflexivity].
    constructor; cbn [q_cap q_data q_len q_begin q_end]; rewrite ?app_length; cbn [length]; auto; try lia.
    + rewrite upd_length. exact Hd.
    + rewrite Hl. unfold u64. rewrite Z.mod_small; lia.
    + rewrite He. apply Nat.add_mod_idemp_l. lia.
    + intros j x Hx Hj. assert (Hi : j < length (xs ++ [v])) by (apply nth_error_Some; congruence). rewrite app_length in Hi. cbn in Hi.
      destruct (Nat.eq_dec j (length xs)) as [->|Hne].
      * rewrite nth_error_app2, Nat.sub_diag in Hx by lia. injection Hx as <-. rewrite He. apply nth_error_upd_eq. rewrite Hd. apply Nat.mod_upper_bound. lia.
      * rewrite nth_error_app1 in Hx by lia. rewrite nth_error_upd_neq; [apply Hcell; [exact Hx|lia]|]. rewrite He.
        intros E. apply (mod_apart j (length xs) (S c)); lia.
  - destruct (Nat.ltb_spec m (length xs)); [|discriminate]. injection H as <- <- <-. unfold q_pop. destruct (q_cap q) as [|c] eqn:Ec; [lia|]. cbn [option_map].
    eexists. split; [reflexivity|]. split; [|reflexivity]. constructor; cbn [q_cap q_data q_len q_begin q_end]; auto; try lia.
    + rewrite Hl. unfold u64. rewrite Z.mod_small; lia.
    + rewrite Hb, Nat.add_mod_idemp_l by lia. f_equal. lia.
  - destruct (Nat.ltb_spec m (length xs)); [|discriminate]. destruct (nth_error xs (latest (q_cap q) (length xs) m)) as [v|] eqn:E; [|discriminate]. injection H as <- <- <-.
    destruct (latest_spec (q_cap q) (length xs) m Hc ltac:(lia)) as [L1 L2]. unfold q_front. rewrite Hb, <- L2, (Hcell _ _ E) by lia. cbn [option_map].
    exists q. split; [reflexivity|]. split; [constructor; auto|reflexivity].
  - injection H as <- <- <-. exists q. split; [|split; [constructor; auto|reflexivity]]. unfold q_empty. rewrite Hl. do 3 f_equal.
    destruct (Nat.eqb_spec m (length xs)), (Z.eqb_spec (Z.of_nat (length xs - m)) 0); lia || reflexivity.
Qed.
Lemma ring_grows cap (xs : list A) m o xs' m' out : ring_step cap xs m o = Some (xs', m', out) -> length xs' <= S (length xs).
Proof.
  intros H. destruct o as [v| | |]; cbn [ring_step] in H.
  - injection H as <- _ _. rewrite app_length. cbn. lia.
  - destruct (_ <? _); [|discriminate]. injection H as <- _ _. lia.
  - destruct (_ <? _); [|discriminate]. destruct (nth_error _ _); [|discriminate]. injection H as <- _ _. lia.
  - injection H as <- _ _. lia.
Qed.
Lemma ring_runs os : forall q xs m xs' m' outs, Rr q xs m -> (Z.of_nat (length xs + length os) < 18446744073709551616)%Z ->
  ring_run (q_cap q) xs m os = Some (xs', m', outs) -> exists q', q_run q os = Some (q', outs).
Proof.
  induction os as [|o os IH]; intros q xs m xs' m' outs HR Hs H; cbn [ring_run q_run length] in *.
  - injection H as <- <- <-. eauto.
  - destruct (ring_step (q_cap q) xs m o) as [[[xs1 m1] out]|] eqn:E1; [|discriminate].
    destruct (ring_run (q_cap q) xs1 m1 os) as [[[xs2 m2] outs2]|] eqn:E2; [|discriminate]. injection H as <- <- <-.
    destruct (ring_refines q xs m o xs1 m1 out HR ltac:(lia) E1) as (q1 & S1 & HR1 & Hc1). rewrite S1. rewrite <- Hc1 in E2.
    pose proof (ring_grows _ _ _ _ _ _ _ E1). destruct (IH q1 xs1 m1 xs2 m2 outs2 HR1 ltac:(lia) E2) as (q2 & ->). eauto.
Qed.
Lemma latest_own cap n m : 0 < cap -> m < n -> (latest cap n m = m <-> n <= m + cap).
Proof.
  intros Hc Hm. destruct (latest_spec cap n m Hc Hm) as [L _]. split; [lia|]. intros H. unfold latest. rewrite Nat.div_small by lia. lia.
Qed.
Lemma Rr_full q l (d : A) : Rq q l -> length l = q_cap q -> Rr q (repeat d (q_begin q) ++ l) (q_begin q).
Proof.
  intros [Hc Hs Hd Hl Hlen Hb He Hcell] Hf. constructor; rewrite ?app_length, ?repeat_length; auto; try lia.
  - now rewrite Nat.mod_small.
  - intros j x Hx Hj. rewrite nth_error_app2 in Hx by (rewrite repeat_length; lia). rewrite repeat_length in Hx.
    specialize (Hcell _ _ Hx). now replace (q_begin q + (j - q_begin q)) with j in Hcell by lia.
Qed.
End R.
