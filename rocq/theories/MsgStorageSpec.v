(** Specification of the message storage: a FIFO of byte strings that refuses
    when [num] messages are held. *)
From Verif Require Import Base MsgStorageModel.
Local Open Scope Z_scope.

Definition sfifo_step (num : nat) (l : list (list Z)) (o : sop) : list (list Z) * sout :=
  match o with
  | SPush d => if (length l <? num)%nat then (l ++ [d], SAccepted true) else (l, SAccepted false)
  | SPop => match l with [] => ([], STaken None) | d :: r => (r, STaken (Some d)) end
  end.

Fixpoint sfifo_run (num : nat) (l : list (list Z)) (os : list sop) : list (list Z) * list sout :=
  match os with
  | [] => (l, [])
  | o :: r => let '(l1, out) := sfifo_step num l o in
              let '(l2, outs) := sfifo_run num l1 r in (l2, out :: outs)
  end.

(** Every message of the run is at most [n] bytes long. *)
Definition sizes_le (n : Z) (os : list sop) : Prop :=
  forall d, In (SPush d) os -> Z.of_nat (length d) <= n.
