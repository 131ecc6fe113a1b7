From Verif Require Import Base QueueModel QueueSpec QueueRun.

Section Q.
Context {A : Type}.
Implicit Types (q : queue A) (l : list A).
Open Scope nat_scope.

Lemma wrap_mod b i c : b < c -> i <= c ->
  (b + i) mod c = if b + i <? c then b + i else b + i - c.
Proof.
  intros Hb Hi. destruct (Nat.ltb_spec (b + i) c) as [H|H].
  - now apply Nat.mod_small.
  - replace (b + i) with ((b + i - c) + 1 * c) at 1 by lia.
    rewrite Nat.mod_add by lia. apply Nat.mod_small. lia.
Qed.

Definition size_t_ok (cap : nat) : Prop := (Z.of_nat cap < 18446744073709551616)%Z.

(** Representation: [q] is a well-formed ring holding exactly [l]. *)
Record Rq (q : queue A) (l : list A) : Prop := mkRq {
  rq_cap : 0 < q_cap q;
  rq_sz : size_t_ok (q_cap q);
  rq_dlen : length (q_data q) = q_cap q;
  rq_llen : length l <= q_cap q;
  rq_len : q_len q = Z.of_nat (length l);
  rq_begin : q_begin q < q_cap q;
  rq_end : q_end q = (q_begin q + length l) mod q_cap q;
  rq_cells : forall i x, nth_error l i = Some x ->
     nth_error (q_data q) ((q_begin q + i) mod q_cap q) = Some (Some x)
}.

Lemma Rq_new cap : 0 < cap -> size_t_ok cap -> Rq (@q_new A cap) [].
Proof.
  intros H Hs. constructor; cbn; auto; try lia.
  - apply repeat_length.
  - rewrite Nat.mod_0_l; lia.
  - intros [|i] x Hx; cbn in Hx; discriminate.
Qed.

Lemma Rq_push q l v : Rq q l -> length l < q_cap q ->
  exists q', q_push q v = Some q' /\ Rq q' (l ++ [v]) /\ q_cap q' = q_cap q.
Proof.
  intros [Hc Hs Hd Hl Hlen Hb He Hcell] Hlt. unfold q_push.
  destruct (q_cap q) as [|c] eqn:Ec; [lia|].
  eexists; split; [reflexivity|split]; [|reflexivity].
  assert (Hmod : forall i, i <= S c -> (q_begin q + i) mod S c =
     if q_begin q + i <? S c then q_begin q + i else q_begin q + i - S c)
    by (intros; apply wrap_mod; lia).
  constructor; cbn [q_cap q_data q_len q_begin q_end]; try lia; auto.
  - rewrite upd_length; lia.
  - rewrite app_length; cbn; lia.
  - rewrite app_length, Hlen. cbn [length]. unfold u64. unfold size_t_ok in Hs. rewrite Z.mod_small; lia.
  - rewrite He, app_length. cbn [length].
    rewrite (Nat.add_mod_idemp_l (q_begin q + length l) 1 (S c)) by lia.
    f_equal; lia.
  - intros i x Hx.
    assert (Hi : i < length (l ++ [v])) by (apply nth_error_Some; congruence).
    rewrite app_length in Hi; cbn in Hi.
    destruct (Nat.eq_dec i (length l)) as [->|Hn].
    + rewrite nth_error_app2, Nat.sub_diag in Hx by lia. cbn in Hx. injection Hx as <-.
      rewrite He. apply nth_error_upd_eq. rewrite Hd.
      apply Nat.mod_upper_bound; lia.
    + rewrite nth_error_app1 in Hx by lia.
      rewrite nth_error_upd_neq; [now apply Hcell|].
      rewrite He, !Hmod by lia.
      destruct (Nat.ltb_spec (q_begin q + length l) (S c)),
               (Nat.ltb_spec (q_begin q + i) (S c)); lia.
Qed.

Lemma Rq_pop q x l : Rq q (x :: l) ->
  exists q', q_pop q = Some q' /\ Rq q' l /\ q_cap q' = q_cap q.
Proof.
  intros [Hc Hs Hd Hl Hlen Hb He Hcell]. unfold q_pop.
  destruct (q_cap q) as [|c] eqn:Ec; [lia|].
  cbn [length] in *.
  eexists; split; [reflexivity|split]; [|reflexivity].
  constructor; cbn [q_cap q_data q_len q_begin q_end]; try lia; auto.
  - rewrite Hlen. unfold u64. unfold size_t_ok in Hs. rewrite Z.mod_small; lia.
  - rewrite He, Nat.add_mod_idemp_l by lia. f_equal; lia.
  - intros i y Hy. rewrite Nat.add_mod_idemp_l by lia.
    replace (q_begin q + 1 + i) with (q_begin q + S i) by lia.
    apply Hcell. exact Hy.
Qed.

Lemma Rq_front q x l : Rq q (x :: l) -> q_front q = Some x.
Proof.
  intros [Hc Hs Hd Hl Hlen Hb He Hcell]. unfold q_front.
  specialize (Hcell 0 x eq_refl). rewrite Nat.add_0_r, Nat.mod_small in Hcell by lia.
  now rewrite Hcell.
Qed.

Lemma Rq_empty q l : Rq q l -> q_empty q = match l with [] => true | _ => false end.
Proof.
  intros [Hc Hs Hd Hl Hlen Hb He Hcell]. unfold q_empty. rewrite Hlen.
  destruct l; reflexivity.
Qed.

Lemma q_step_refines q l o l' out :
  Rq q l -> fifo_step (q_cap q) l o = Some (l', out) ->
  exists q', q_step q o = Some (q', out) /\ Rq q' l' /\ q_cap q' = q_cap q.
Proof.
  intros HR Hf. destruct o as [v| | |]; cbn [fifo_step q_step] in *.
  - revert Hf. destruct (Nat.ltb_spec (length l) (q_cap q)) as [Hlt|]; intros Hf; [|discriminate].
    injection Hf as <- <-.
    destruct (Rq_push q l v HR Hlt) as (q' & E & HR' & Hc). rewrite E; cbn. eauto.
  - destruct l as [|x l]; [discriminate|]. injection Hf as <- <-.
    destruct (Rq_pop q x l HR) as (q' & E & HR' & Hc). rewrite E; cbn. eauto.
  - destruct l as [|x l]; [discriminate|]. injection Hf as <- <-.
    rewrite (Rq_front q x l HR); cbn. eauto.
  - injection Hf as <- <-. rewrite (Rq_empty q l HR). eauto.
Qed.

Lemma q_run_refines os : forall q l l' outs,
  Rq q l -> fifo_run (q_cap q) l os = Some (l', outs) ->
  exists q', q_run q os = Some (q', outs) /\ Rq q' l' /\ q_cap q' = q_cap q.
Proof.
  induction os as [|o os IH]; intros q l l' outs HR Hf; cbn in *.
  - injection Hf as <- <-. eauto.
  - destruct (fifo_step (q_cap q) l o) as [[l1 out]|] eqn:E1; [|discriminate].
    destruct (fifo_run (q_cap q) l1 os) as [[l2 outs2]|] eqn:E2; [|discriminate].
    injection Hf as <- <-.
    destruct (q_step_refines q l o l1 out HR E1) as (q1 & S1 & HR1 & Hc1).
    rewrite S1. rewrite <- Hc1 in E2.
    destruct (IH q1 l1 l2 outs2 HR1 E2) as (q2 & S2 & HR2 & Hc2).
    rewrite S2. eexists; split; [reflexivity|split]; congruence || auto.
Qed.

(** The statement used in the property file: outputs equal those of the
    FIFO specification, for every call sequence allowed by it. *)
Lemma queue_fifo_outputs cap os l outs :
  0 < cap -> size_t_ok cap ->
  fifo_run cap [] os = Some (l, outs) ->
  exists q, q_run (@q_new A cap) os = Some (q, outs).
Proof.
  intros Hc Hs Hf.
  destruct (q_run_refines os (q_new cap) [] l outs (Rq_new cap Hc Hs) Hf) as (q & E & _).
  eauto.
Qed.

(** Overflow: push on a full queue. *)
Lemma overflow_front q l v : Rq q l -> length l = q_cap q ->
  exists q', q_push q v = Some q' /\ q_front q' = Some v.
Proof.
  intros [Hc Hs Hd Hl Hlen Hb He Hcell] Hfull. unfold q_push.
  destruct (q_cap q) as [|c] eqn:Ec; [lia|].
  eexists; split; [reflexivity|]. unfold q_front; cbn [q_data q_begin].
  rewrite He, Hfull.
  replace (q_begin q + S c) with (q_begin q + 1 * S c) by lia.
  rewrite Nat.mod_add, Nat.mod_small by lia.
  now rewrite nth_error_upd_eq by lia.
Qed.

Lemma q_run_app os1 os2 q q1 o1 q2 o2 :
  q_run q os1 = Some (q1, o1) -> q_run q1 os2 = Some (q2, o2) ->
  q_run q (os1 ++ os2) = Some (q2, o1 ++ o2).
Proof.
  revert q q1 o1; induction os1 as [|o os1 IH]; intros q q1 o1 H1 H2; cbn in *.
  - injection H1 as <- <-. exact H2.
  - destruct (q_step q o) as [[qa oa]|]; [|discriminate].
    destruct (q_run qa os1) as [[qb ob]|] eqn:E; [|discriminate].
    injection H1 as <- <-.
    rewrite (IH qa qb ob E H2). reflexivity.
Qed.

Lemma fifo_push_all cap xs : forall l : list A, length l + length xs <= cap ->
  exists outs, fifo_run cap l (map OpPush xs) = Some (l ++ xs, outs).
Proof.
  induction xs as [|x xs IH]; intros l H; cbn [map fifo_run fifo_step length] in *.
  - rewrite app_nil_r. eauto.
  - destruct (Nat.ltb_spec (length l) cap) as [Hlt|]; [|lia].
    destruct (IH (l ++ [x])) as (outs & E); [rewrite app_length; cbn; lia|].
    rewrite E. rewrite <- app_assoc. cbn. eauto.
Qed.

(** After filling the queue with [xs] and pushing one more value [v], the next
    value out is [v], not the oldest accepted one. *)
Lemma overflow_loses_oldest cap xs v :
  0 < cap -> size_t_ok cap -> length xs = cap ->
  exists q outs, q_run (@q_new A cap) (map OpPush xs ++ [OpPush v; OpFront])
                 = Some (q, outs ++ [OutUnit; OutVal v]).
Proof.
  intros Hc Hs Hx.
  destruct (fifo_push_all cap xs []) as (outs & E); [cbn; lia|].
  destruct (q_run_refines _ _ _ _ _ (Rq_new cap Hc Hs) E) as (q & Eq & HR & Hcap).
  cbn in Hcap.
  destruct (overflow_front q xs v HR) as (q' & Ep & Ef); [congruence|].
  exists q', outs. eapply q_run_app; [exact Eq|].
  cbn. rewrite Ep. cbn. rewrite Ef. reflexivity.
Qed.
End Q.
