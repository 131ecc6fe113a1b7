(** Specification of a bounded FIFO, independent of the ring buffer. *)
From Verif Require Import Base.

Inductive qop (A : Type) := OpPush (v : A) | OpPop | OpFront | OpEmpty.
Arguments OpPush {A} _. Arguments OpPop {A}. Arguments OpFront {A}. Arguments OpEmpty {A}.

Inductive qout (A : Type) := OutUnit | OutVal (v : A) | OutBool (b : bool).
Arguments OutUnit {A}. Arguments OutVal {A} _. Arguments OutBool {A} _.

(** One call on a FIFO holding [l] (oldest first) with room for [cap]
    values.  [None]: the caller broke the contract (push on full, pop or front
    on empty). *)
Definition fifo_step {A} (cap : nat) (l : list A) (o : qop A) : option (list A * qout A) :=
  match o with
  | OpPush v => if (length l <? cap)%nat then Some (l ++ [v], OutUnit) else None
  | OpPop => match l with [] => None | _ :: r => Some (r, OutUnit) end
  | OpFront => match l with [] => None | x :: _ => Some (l, OutVal x) end
  | OpEmpty => Some (l, OutBool (match l with [] => true | _ => false end))
  end.

Fixpoint fifo_run {A} (cap : nat) (l : list A) (os : list (qop A))
  : option (list A * list (qout A)) :=
  match os with
  | [] => Some (l, [])
  | o :: os' =>
      match fifo_step cap l o with
      | None => None
      | Some (l1, out) =>
          match fifo_run cap l1 os' with
          | None => None
          | Some (l2, outs) => Some (l2, out :: outs)
          end
      end
  end.
