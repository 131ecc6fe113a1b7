(** Model of common/utils/Queue.hpp (class template [Queue<TYPE>]). *)
From Verif Require Import Base.

Section Queue.
Context {A : Type}.

(** Members: Queue.hpp:46-50.  [data] is the storage obtained by
    [data.reserve(capacity)] (Queue.hpp:22): [capacity] cells, [None] =
    never written.  The vector's [size()] stays 0, so [operator[]] is formally
    out of range of the vector; the model follows the reserved storage, which
    is what every supported standard library does (recorded in DESIGN.md).
    Simplification: indices are [nat]; they stay below [capacity], so the
    size_t range is never reached.  [q_len] is a size_t and wraps. *)
Record queue := mkQ {
  q_cap : nat;
  q_data : list (option A);
  q_len : Z;
  q_begin : nat;
  q_end : nat
}.

(** Constructor, Queue.hpp:16-23. *)
Definition q_new (cap : nat) : queue := mkQ cap (repeat None cap) 0 0 0.

(** [push], Queue.hpp:26-31.  [None] = undefined behaviour ([% capacity] with
    capacity 0 and a write outside the storage). *)
Definition q_push (q : queue) (v : A) : option queue :=
  match q_cap q with
  | O => None
  | _ => Some (mkQ (q_cap q) (upd (q_data q) (q_end q) (Some v))
                   (u64 (q_len q + 1)) (q_begin q)
                   ((q_end q + 1) mod q_cap q))
  end.

(** [pop], Queue.hpp:32-36. *)
Definition q_pop (q : queue) : option queue :=
  match q_cap q with
  | O => None
  | _ => Some (mkQ (q_cap q) (q_data q) (u64 (q_len q - 1))
                   ((q_begin q + 1) mod q_cap q) (q_end q))
  end.

(** [front], Queue.hpp:37-40.  [None] = the cell was never written (an
    indeterminate value would be returned) or does not exist. *)
Definition q_front (q : queue) : option A :=
  match nth_error (q_data q) (q_begin q) with
  | Some (Some v) => Some v
  | _ => None
  end.

(** [empty], Queue.hpp:41-44. *)
Definition q_empty (q : queue) : bool := Z.eqb (q_len q) 0.

End Queue.
Arguments queue : clear implicits.
