From Verif Require Import Base QueueModel QueueSpec QueueRun QueueProofs PoolModel PoolSpec.
Local Open Scope Z_scope.

Fixpoint zrange (b : Z) (n : nat) : list Z :=
  match n with O => [] | S k => b :: zrange (b + 1) k end.

Lemma zrange_length b n : length (zrange b n) = n.
Proof. revert b; induction n; intros; cbn; auto. Qed.

Lemma in_zrange b n x : In x (zrange b n) <-> b <= x < b + Z.of_nat n.
Proof. revert b; induction n; intros; cbn [zrange In]; [lia|]. rewrite IHn. lia. Qed.

Lemma zrange_nodup b n : NoDup (zrange b n).
Proof.
  revert b; induction n; intros; cbn; constructor; auto.
  rewrite in_zrange. lia.
Qed.

Lemma pool_fill_spec n : forall q l uid, Rq q l -> (length l + n <= q_cap q)%nat ->
  exists q', pool_fill q uid n = Some q' /\ Rq q' (l ++ zrange uid n) /\ q_cap q' = q_cap q.
Proof.
  induction n; intros q l uid HR Hn; cbn [pool_fill zrange].
  - rewrite app_nil_r. eauto.
  - destruct (Rq_push q l uid HR) as (q1 & E & HR1 & Hc); [lia|].
    rewrite E. destruct (IHn q1 (l ++ [uid]) (uid + 1) HR1) as (q2 & E2 & HR2 & Hc2).
    { rewrite app_length; cbn; lia. }
    exists q2. rewrite <- app_assoc in HR2. cbn in HR2. split; [exact E2|split]; congruence.
Qed.

Record PInv (base : Z) (cap : nat) (owned : list Z) (p : pool) (free : list Z) : Prop := mkPInv {
  pi_base : p_base p = base;
  pi_size : p_size p = cap;
  pi_cap : q_cap (p_ids p) = cap;
  pi_q : Rq (p_ids p) free;
  pi_perm : Permutation (free ++ owned) (zrange base cap)
}.

Lemma pinv_new base cap p : (0 < cap)%nat -> size_t_ok cap -> pool_new base cap = Some p ->
  exists free, PInv base cap [] p free.
Proof.
  intros Hc Hs H. unfold pool_new in H.
  destruct (pool_fill_spec cap (q_new cap) [] base (Rq_new cap Hc Hs)) as (q & E & HR & Hcap); [cbn; lia|].
  rewrite E in H. cbn in H. injection H as <-.
  exists (zrange base cap). constructor; cbn; auto. rewrite app_nil_r. reflexivity.
Qed.

Lemma pool_new_defined base cap : (0 < cap)%nat -> size_t_ok cap -> exists p, pool_new base cap = Some p.
Proof.
  intros Hc Hs. unfold pool_new.
  destruct (pool_fill_spec cap (q_new cap) [] base (Rq_new cap Hc Hs)) as (q & E & HR & Hcap); [cbn; lia|].
  rewrite E. cbn. eauto.
Qed.

Lemma pinv_alloc base cap owned p free : PInv base cap owned p free ->
  match free with
  | [] => pool_alloc p = Some (p, None)
  | u :: free' => exists p', pool_alloc p = Some (p', Some u) /\ PInv base cap (u :: owned) p' free'
  end.
Proof.
  intros [Hb Hs Hc Hq Hp]. unfold pool_alloc. rewrite (Rq_empty _ _ Hq).
  destruct free as [|u free']; [reflexivity|].
  rewrite (Rq_front _ _ _ Hq).
  destruct (Rq_pop _ _ _ Hq) as (q' & E & HR & Hcap). rewrite E.
  eexists; split; [reflexivity|]. constructor; cbn; auto; try congruence.
  etransitivity; [|exact Hp]. cbn. symmetry. apply Permutation_middle.
Qed.

Lemma pinv_len base cap owned p free : PInv base cap owned p free ->
  (length free + length owned = cap)%nat.
Proof.
  intros [Hb Hs Hc Hq Hp]. apply Permutation_length in Hp.
  rewrite app_length, zrange_length in Hp. exact Hp.
Qed.

Lemma pinv_release base cap o1 u o2 p free : PInv base cap (o1 ++ u :: o2) p free ->
  exists p', pool_release p u = Some p' /\ PInv base cap (o1 ++ o2) p' (free ++ [u]).
Proof.
  intros HI. pose proof (pinv_len _ _ _ _ _ HI) as Hlen. destruct HI as [Hb Hs Hc Hq Hp].
  rewrite app_length in Hlen; cbn in Hlen.
  destruct (Rq_push _ _ u Hq) as (q' & E & HR & Hcap); [lia|].
  unfold pool_release. rewrite E. cbn. eexists; split; [reflexivity|].
  constructor; cbn; auto; try congruence.
  etransitivity; [|exact Hp]. rewrite <- app_assoc. cbn.
  apply Permutation_app_head. apply Permutation_middle.
Qed.

Lemma pool_hist_inv base cap owned p : (0 < cap)%nat -> size_t_ok cap ->
  pool_hist base cap owned p -> exists free, PInv base cap owned p free.
Proof.
  intros Hc Hs H. induction H as [p H|owned p p' u _ [free HI] Ha|owned p p' _ [free HI] Ha|o1 u o2 p p' _ [free HI] Hr].
  - now apply pinv_new.
  - pose proof (pinv_alloc _ _ _ _ _ HI) as P. destruct free as [|v free']; [congruence|].
    destruct P as (p'' & E & HI'). rewrite E in Ha. injection Ha as <- <-. eauto.
  - pose proof (pinv_alloc _ _ _ _ _ HI) as P. destruct free as [|v free'].
    + rewrite P in Ha. injection Ha as <-. eauto.
    + destruct P as (p'' & E & HI'). congruence.
  - destruct (pinv_release _ _ _ _ _ _ _ HI) as (p'' & E & HI'). rewrite E in Hr. injection Hr as <-. eauto.
Qed.

Lemma pinv_nodup base cap owned p free : PInv base cap owned p free -> NoDup (free ++ owned).
Proof.
  intros [Hb Hs Hc Hq Hp]. eapply Permutation_NoDup; [symmetry; exact Hp|apply zrange_nodup].
Qed.

Lemma pinv_range base cap owned p free u : PInv base cap owned p free -> In u (free ++ owned) ->
  base <= u < base + Z.of_nat cap.
Proof.
  intros [Hb Hs Hc Hq Hp] Hin. apply in_zrange. eapply Permutation_in; [exact Hp|exact Hin].
Qed.

Lemma nodup_app_r {A} (l1 l2 : list A) : NoDup (l1 ++ l2) -> NoDup l2.
Proof. induction l1; cbn; [auto|]. inversion 1; auto. Qed.

Lemma pool_alloc_sound base cap owned p : (0 < cap)%nat -> size_t_ok cap ->
  pool_hist base cap owned p ->
  NoDup owned /\ (forall u, In u owned -> base <= u < base + Z.of_nat cap) /\
  alloc_ok base cap owned (pool_alloc p).
Proof.
  intros Hc Hs H. destruct (pool_hist_inv _ _ _ _ Hc Hs H) as [free HI].
  pose proof (pinv_nodup _ _ _ _ _ HI) as Hnd. pose proof (pinv_len _ _ _ _ _ HI) as Hlen.
  split; [|split].
  - eapply nodup_app_r; exact Hnd.
  - intros u Hu. eapply pinv_range; [exact HI|]. apply in_or_app; auto.
  - pose proof (pinv_alloc _ _ _ _ _ HI) as P. destruct free as [|u free'].
    + rewrite P. cbn in *. lia.
    + destruct P as (p' & E & _). rewrite E. cbn. split; [|split].
      * eapply pinv_range; [exact HI|]. cbn; auto.
      * cbn in Hnd. inversion Hnd as [|? ? Hn _]; subst. intros Hin. apply Hn. apply in_or_app; auto.
      * cbn in Hlen. lia.
Qed.

Lemma pool_release_defined base cap owned p u : (0 < cap)%nat -> size_t_ok cap ->
  pool_hist base cap owned p -> In u owned -> exists p', pool_release p u = Some p'.
Proof.
  intros Hc Hs H Hin. destruct (pool_hist_inv _ _ _ _ Hc Hs H) as [free HI].
  apply in_split in Hin as (o1 & o2 & ->).
  destruct (pinv_release _ _ _ _ _ _ _ HI) as (p' & E & _). eauto.
Qed.

Lemma pool_get_owned base cap owned p : (0 < cap)%nat -> (Z.of_nat cap < 4294967296) ->
  pool_hist base cap owned p ->
  (forall u, In u owned -> exists i, pool_get p u = Some i /\ (i < cap)%nat) /\
  (forall u v, In u owned -> In v owned -> pool_get p u = pool_get p v -> u = v).
Proof.
  intros Hc Hs H. assert (Hst : size_t_ok cap) by (unfold size_t_ok; lia).
  destruct (pool_hist_inv _ _ _ _ Hc Hst H) as [free HI].
  assert (G : forall u, In u owned -> pool_get p u = Some (Z.to_nat (u - base)) /\ 0 <= u - base < Z.of_nat cap).
  { intros u Hu. assert (R : base <= u < base + Z.of_nat cap)
      by (eapply pinv_range; [exact HI|apply in_or_app; auto]).
    destruct HI as [Hb Hsz _ _ _]. unfold pool_get, u32. rewrite Hb, Hsz.
    rewrite Z.mod_small by lia. destruct (Z.ltb_spec (u - base) (Z.of_nat cap)); [|lia]. split; [reflexivity|lia]. }
  split.
  - intros u Hu. destruct (G u Hu) as [E R]. eexists; split; [exact E|lia].
  - intros u v Hu Hv E. destruct (G u Hu) as [Eu Ru], (G v Hv) as [Ev Rv].
    rewrite Eu, Ev in E. injection E as E. lia.
Qed.

(** Double release. *)
Lemma allocs_rq free : forall p rest, Rq (p_ids p) (free ++ rest) ->
  exists p', allocs p free p' /\ Rq (p_ids p') rest.
Proof.
  induction free as [|u free IH]; intros p rest HR.
  - exists p. split; [constructor|exact HR].
  - cbn in HR.
    assert (E : exists p1, pool_alloc p = Some (p1, Some u) /\ Rq (p_ids p1) (free ++ rest)).
    { unfold pool_alloc. rewrite (Rq_empty _ _ HR), (Rq_front _ _ _ HR).
      destruct (Rq_pop _ _ _ HR) as (q' & E & HR' & _). rewrite E. eexists; split; [reflexivity|exact HR']. }
    destruct E as (p1 & E1 & HR1). destruct (IH p1 rest HR1) as (p' & Ha & HR').
    exists p'. split; [econstructor; eauto|exact HR'].
Qed.

Lemma double_release base cap owned p u v : (0 < cap)%nat -> size_t_ok cap ->
  pool_hist base cap owned p -> In u owned -> In v owned -> u <> v ->
  exists p1 p2 us p3, pool_release p u = Some p1 /\ pool_release p1 u = Some p2 /\
     allocs p2 (us ++ [u; u]) p3.
Proof.
  intros Hc Hs H Hu Hv Hne. destruct (pool_hist_inv _ _ _ _ Hc Hs H) as [free HI].
  apply in_split in Hu as (o1 & o2 & ->).
  assert (Hlen2 : (2 <= length (o1 ++ u :: o2))%nat).
  { apply in_app_or in Hv. rewrite app_length; cbn.
    destruct Hv as [Hv|[Hv|Hv]]; [|congruence|].
    - destruct o1; [contradiction|cbn; lia].
    - destruct o2; [contradiction|cbn; lia]. }
  pose proof (pinv_len _ _ _ _ _ HI) as Hlen.
  destruct (pinv_release _ _ _ _ _ _ _ HI) as (p1 & E1 & HI1).
  destruct HI1 as [_ _ Hcap1 Hq1 _].
  destruct (Rq_push _ _ u Hq1) as (q2 & E2 & HR2 & _).
  { rewrite app_length; cbn. lia. }
  rewrite <- app_assoc in HR2. cbn in HR2.
  exists p1, (mkPool (p_base p1) (p_size p1) q2), free.
  assert (HR2' : Rq (p_ids (mkPool (p_base p1) (p_size p1) q2)) ((free ++ [u; u]) ++ [])) by (rewrite app_nil_r; exact HR2).
  destruct (allocs_rq _ _ _ HR2') as (p3 & Ha & _).
  exists p3. split; [exact E1|split]; [|exact Ha].
  unfold pool_release. now rewrite E2.
Qed.
