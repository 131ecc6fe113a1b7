(** Driver: a sequence of calls on the modelled [Queue] object. *)
From Verif Require Import Base QueueModel QueueSpec.

Definition q_step {A} (q : queue A) (o : qop A) : option (queue A * qout A) :=
  match o with
  | OpPush v => option_map (fun q' => (q', OutUnit)) (q_push q v)
  | OpPop => option_map (fun q' => (q', OutUnit)) (q_pop q)
  | OpFront => option_map (fun v => (q, OutVal v)) (q_front q)
  | OpEmpty => Some (q, OutBool (q_empty q))
  end.

Fixpoint q_run {A} (q : queue A) (os : list (qop A)) : option (queue A * list (qout A)) :=
  match os with
  | [] => Some (q, [])
  | o :: os' =>
      match q_step q o with
      | None => None
      | Some (q1, out) =>
          match q_run q1 os' with
          | None => None
          | Some (q2, outs) => Some (q2, out :: outs)
          end
      end
  end.
