(** C03, C04: resource pools. *)
From Verif Require Import Base QueueModel QueueProofs PoolModel PoolSpec PoolProofs QueueRing PoolRing.
Local Open Scope Z_scope.

(** C03.  In every state reachable by callers that release only handles they
    own: owned handles are distinct and in range; alloc is defined, returns an
    in-range handle nobody owns, and fails exactly when all [cap] are owned. *)
Theorem C03_pool_alloc_exclusive : forall base cap owned p,
  (0 < cap)%nat -> size_t_ok cap ->
  pool_hist base cap owned p ->
  NoDup owned /\ (forall u, In u owned -> base <= u < base + Z.of_nat cap) /\
  alloc_ok base cap owned (pool_alloc p).
Proof. exact pool_alloc_sound. Qed.
Print Assumptions C03_pool_alloc_exclusive.

(** Releasing an owned handle is always defined. *)
Theorem C03_pool_release_defined : forall base cap owned p u,
  (0 < cap)%nat -> size_t_ok cap ->
  pool_hist base cap owned p -> In u owned -> exists p', pool_release p u = Some p'.
Proof. exact pool_release_defined. Qed.
Print Assumptions C03_pool_release_defined.

(** Owned handles resolve to distinct entities inside the pool. *)
Theorem C03_pool_get_distinct : forall base cap owned p,
  (0 < cap)%nat -> Z.of_nat cap < 4294967296 ->
  pool_hist base cap owned p ->
  (forall u, In u owned -> exists i, pool_get p u = Some i /\ (i < cap)%nat) /\
  (forall u v, In u owned -> In v owned -> pool_get p u = pool_get p v -> u = v).
Proof. exact pool_get_owned. Qed.
Print Assumptions C03_pool_get_distinct.

(** Construction is always defined. *)
Theorem C03_pool_new_defined : forall base cap,
  (0 < cap)%nat -> size_t_ok cap -> exists p, pool_new base cap = Some p.
Proof. exact pool_new_defined. Qed.
Print Assumptions C03_pool_new_defined.

(** A reachable pool of capacity 2 (ids from 1): handle 1 was allocated,
    released and allocated again after 2; both are owned, alloc fails. *)
Example C03_case : exists p, pool_hist 1 2 [1; 2] p /\ pool_alloc p = Some (p, None).
Proof.
  eassert (H : pool_hist 1 2 [] _) by (apply ph_new; vm_compute; reflexivity).
  eapply ph_alloc in H; [|vm_compute; reflexivity].
  eapply (ph_release 1 2 [] 1 []) in H; [|vm_compute; reflexivity].
  eapply ph_alloc in H; [|vm_compute; reflexivity].
  eapply ph_alloc in H; [|vm_compute; reflexivity].
  eexists. split; [exact H|vm_compute; reflexivity].
Qed.

(** C04 is false: in every reachable state with at least two owned handles,
    releasing one of them twice is accepted, and a run of successful allocs then
    returns the same handle twice in a row. *)
Theorem C04_double_release_harmless_refuted : forall base cap owned p u v,
  (0 < cap)%nat -> size_t_ok cap ->
  pool_hist base cap owned p -> In u owned -> In v owned -> u <> v ->
  exists p1 p2 us p3, pool_release p u = Some p1 /\ pool_release p1 u = Some p2 /\
     allocs p2 (us ++ [u; u]) p3.
Proof. exact double_release. Qed.
Print Assumptions C04_double_release_harmless_refuted.

Example C04_case : exists p, pool_hist 0 3 [1; 0] p.
Proof.
  eassert (H : pool_hist 0 3 [] _) by (apply ph_new; vm_compute; reflexivity).
  eapply ph_alloc in H; [|vm_compute; reflexivity].
  eapply ph_alloc in H; [|vm_compute; reflexivity].
  eexists. exact H.
Qed.

(** No state is safe: whichever handle in use is released twice, the pool hands it out twice without a release in between.  (If it is the
    only one in use, the list of free handles overflows as well and the oldest entry is lost, C02.) *)
Theorem C04_never_harmless : forall base cap owned p u,
  (0 < cap)%nat -> Z.of_nat cap < 4294967296 ->
  pool_hist base cap owned p -> In u owned ->
  exists p1 p2 us vs p3, pool_release p u = Some p1 /\ pool_release p1 u = Some p2 /\
     allocs p2 (us ++ u :: vs ++ [u]) p3.
Proof. exact double_release_always. Qed.
Print Assumptions C04_never_harmless.

Example C04_single_case : exists p, pool_hist 0 3 [0] p.
Proof.
  eassert (H : pool_hist 0 3 [] _) by (apply ph_new; vm_compute; reflexivity).
  eapply ph_alloc in H; [|vm_compute; reflexivity].
  eexists. exact H.
Qed.
