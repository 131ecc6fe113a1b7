(** Ownership bookkeeping for a pool, from the callers' point of view:
    [pool_hist base cap owned p]: [p] is reachable by some sequence of calls in
    which callers release only handles they own, once each, and [owned] are the
    handles handed out and not yet released. *)
From Verif Require Import Base QueueModel PoolModel.
Local Open Scope Z_scope.

Inductive pool_hist (base : Z) (cap : nat) : list Z -> pool -> Prop :=
| ph_new p : pool_new base cap = Some p -> pool_hist base cap [] p
| ph_alloc owned p p' u :
    pool_hist base cap owned p -> pool_alloc p = Some (p', Some u) ->
    pool_hist base cap (u :: owned) p'
| ph_alloc_fail owned p p' :
    pool_hist base cap owned p -> pool_alloc p = Some (p', None) ->
    pool_hist base cap owned p'
| ph_release o1 u o2 p p' :
    pool_hist base cap (o1 ++ u :: o2) p -> pool_release p u = Some p' ->
    pool_hist base cap (o1 ++ o2) p'.

(** What one [alloc] call must do when [owned] are in use. *)
Definition alloc_ok (base : Z) (cap : nat) (owned : list Z) (r : option (pool * option Z)) : Prop :=
  match r with
  | None => False
  | Some (_, Some u) => base <= u < base + Z.of_nat cap /\ ~ In u owned /\ (length owned < cap)%nat
  | Some (_, None) => length owned = cap
  end.

(** [n] consecutive alloc calls, all successful, returning [us]. *)
Inductive allocs : pool -> list Z -> pool -> Prop :=
| al_nil p : allocs p [] p
| al_cons p u p1 us p2 : pool_alloc p = Some (p1, Some u) -> allocs p1 us p2 -> allocs p (u :: us) p2.
