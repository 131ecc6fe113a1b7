(** Objects kept in an array next to a pool of their ids (ids start at 1): the ids handed out and
    the objects in use correspond. *)
From Verif Require Import Base QueueModel QueueSpec QueueProofs PoolModel PoolSpec PoolProofs.
Local Open Scope Z_scope.

Section Ent.
Variable E : Type.
Variable act : E -> bool.
Variable n : nat.
Hypothesis n_pos : (0 < n)%nat.
Hypothesis n_size : size_t_ok n.
Hypothesis n_u32 : Z.of_nat n < 4294967295.

Definition nact (l : list E) : nat := length (filter act l).
Definition bn (b : bool) : nat := if b then 1%nat else 0%nat.

Lemma nact_upd l : forall i s s', nth_error l i = Some s ->
  (nact (upd l i s') + bn (act s) = nact l + bn (act s'))%nat.
Proof.
  unfold nact. induction l as [|x l IH]; intros [|i] s s' H; cbn in H; try discriminate.
  - injection H as ->. cbn. destruct (act s), (act s'); cbn; lia.
  - specialize (IH i s s' H). cbn. destruct (act x); cbn; lia.
Qed.

(** [lost]: ids handed out of which no object is in use. *)
Definition POwn (p : pool) (es : list E) (lost : nat) : Prop :=
  exists owned, pool_hist 1 n owned p /\
    (forall i e, nth_error es i = Some e -> act e = true -> In (Z.of_nat i + 1) owned) /\
    length owned = (nact es + lost)%nat /\ length es = n.

Lemma own_new p es : pool_new 1 n = Some p -> length es = n -> (forall e, In e es -> act e = false) -> POwn p es 0.
Proof.
  intros Hp Hl Ha. exists []. split; [now apply ph_new|]. split.
  - intros i e Hi He. apply nth_error_In in Hi. apply Ha in Hi. congruence.
  - split; [|auto]. rewrite Nat.add_0_r. unfold nact. cbn.
    replace (filter act es) with (@nil E); [reflexivity|]. clear Hl Hp. induction es as [|e es IH]; [reflexivity|].
    cbn. rewrite (Ha e) by now left. apply IH. intros. apply Ha. now right.
Qed.

Lemma own_len p es k : POwn p es k -> length es = n.
Proof. now intros (o & _ & _ & _ & H). Qed.

Lemma own_bound p es k : POwn p es k -> (nact es + k <= n)%nat.
Proof.
  intros (o & H & _ & L & _). rewrite <- L. destruct (pool_hist_inv _ _ _ _ n_pos n_size H) as [free HI].
  apply pinv_len in HI. lia.
Qed.

Lemma own_get p es k uid : POwn p es k -> 0 <= uid < 4294967296 ->
  pool_get p uid = if (1 <=? uid) && (uid <=? Z.of_nat n) then Some (Z.to_nat (uid - 1)) else None.
Proof.
  intros (o & H & _ & _ & _) Hu. destruct (pool_hist_inv _ _ _ _ n_pos n_size H) as [free [Hb Hs _ _ _]].
  unfold pool_get, u32. rewrite Hb, Hs.
  destruct (Z.leb_spec 1 uid); cbn [andb].
  - rewrite Z.mod_small by lia. destruct (Z.ltb_spec (uid - 1) (Z.of_nat n)), (Z.leb_spec uid (Z.of_nat n)); auto; lia.
  - assert (uid = 0) as -> by lia. replace ((0 - 1) mod 4294967296) with 4294967295 by reflexivity.
    destruct (Z.ltb_spec 4294967295 (Z.of_nat n)); [lia|auto].
Qed.

Lemma own_keep p es k i e e' : POwn p es k -> nth_error es i = Some e -> act e' = act e -> POwn p (upd es i e') k.
Proof.
  intros (o & H & O & L & Len) Hi He. exists o. split; [auto|].
  assert (Hlt : (i < length es)%nat) by (apply nth_error_Some; congruence).
  pose proof (nact_upd es i e e' Hi) as Hn. rewrite He in Hn. rewrite upd_length. split; [|split; [lia|auto]].
  intros j x Hj Hx. destruct (Nat.eq_dec j i) as [->|Hne].
  - rewrite nth_error_upd_eq in Hj by auto. injection Hj as <-. apply (O i e); congruence.
  - rewrite nth_error_upd_neq in Hj by auto. eauto.
Qed.

Lemma own_free p es k i e e' : POwn p es k -> nth_error es i = Some e -> act e = true -> act e' = false ->
  exists p', pool_release p (Z.of_nat i + 1) = Some p' /\ POwn p' (upd es i e') k.
Proof.
  intros (o & H & O & L & Len) Hi Ha Ha'. pose proof (O i e Hi Ha) as Hin.
  destruct (pool_alloc_sound _ _ _ _ n_pos n_size H) as (Hnd & _).
  destruct (pool_release_defined 1 n o p _ n_pos n_size H Hin) as [p' Hp'].
  exists p'. split; [auto|]. apply in_split in Hin as (o1 & o2 & ->). exists (o1 ++ o2). split; [eapply ph_release; eauto|].
  assert (Hlt : (i < length es)%nat) by (apply nth_error_Some; congruence).
  pose proof (nact_upd es i e e' Hi) as Hn. rewrite Ha, Ha' in Hn. cbn [bn] in Hn. rewrite upd_length.
  rewrite app_length in *. cbn [length] in L. split; [|split; [lia|auto]].
  intros j x Hj Hx. destruct (Nat.eq_dec j i) as [->|Hne].
  - rewrite nth_error_upd_eq in Hj by auto. injection Hj as <-. congruence.
  - rewrite nth_error_upd_neq in Hj by auto. specialize (O j x Hj Hx).
    apply in_app_or in O as [?|[?|?]]; try lia; apply in_or_app; auto.
Qed.

Lemma own_alloc p es k : POwn p es k ->
  ((nact es + k)%nat = n /\ exists p', pool_alloc p = Some (p', None) /\ POwn p' es k) \/
  ((nact es + k < n)%nat /\ exists p' i e, pool_alloc p = Some (p', Some (Z.of_nat i + 1)) /\ nth_error es i = Some e /\
     act e = false /\
     (forall e', act e' = true -> POwn p' (upd es i e') k) /\
     (forall e', act e' = false -> POwn p' (upd es i e') (S k)) /\
     (forall u, pool_get p' u = pool_get p u)).
Proof.
  intros (o & H & O & L & Len).
  destruct (pool_alloc_sound _ _ _ _ n_pos n_size H) as (Hnd & _ & Ha).
  destruct (pool_alloc p) as [[p' [u|]]|] eqn:Ep; cbn [alloc_ok] in Ha; [| |contradiction].
  - right. destruct Ha as (Hu & Hni & Hlen). split; [lia|].
    assert (Hu' : u = Z.of_nat (Z.to_nat (u - 1)) + 1) by lia. set (i := Z.to_nat (u - 1)) in *.
    assert (Hi : (i < length es)%nat) by lia.
    destruct (nth_error es i) as [e|] eqn:En; [|apply nth_error_None in En; lia].
    exists p', i, e. split; [congruence|]. split; [auto|].
    assert (Hae : act e = false).
    { destruct (act e) eqn:X; [|auto]. exfalso. apply Hni. rewrite Hu'. eauto. }
    assert (Hp' : pool_hist 1 n (u :: o) p') by (eapply ph_alloc; eauto).
    assert (Hin : forall e' j x, nth_error (upd es i e') j = Some x -> act x = true -> In (Z.of_nat j + 1) (u :: o)).
    { intros e' j x Hj Hx. destruct (Nat.eq_dec j i) as [->|Hne]; [left; lia|].
      rewrite nth_error_upd_neq in Hj by auto. right; eauto. }
    split; [auto|]. split; [|split].
    + intros e' He'. exists (u :: o). pose proof (nact_upd es i e e' En) as Hn. rewrite Hae, He' in Hn. cbn [bn] in Hn.
      rewrite upd_length. cbn [length]. split; [auto|]. split; [eapply Hin|split; [lia|auto]].
    + intros e' He'. exists (u :: o). pose proof (nact_upd es i e e' En) as Hn. rewrite Hae, He' in Hn. cbn [bn] in Hn.
      rewrite upd_length. cbn [length]. split; [auto|]. split; [eapply Hin|split; [lia|auto]].
    + intros v. unfold pool_get.
      destruct (pool_hist_inv _ _ _ _ n_pos n_size H) as [f1 [B1 S1 _ _ _]].
      destruct (pool_hist_inv _ _ _ _ n_pos n_size Hp') as [f2 [B2 S2 _ _ _]]. now rewrite B1, S1, B2, S2.
  - left. split; [lia|]. exists p'. split; [auto|]. exists o. split; [eapply ph_alloc_fail; eauto|auto].
Qed.
End Ent.
