(** What an observer of the reactor sees: accepted and dispatched messages. *)
From Verif Require Import Base QueueModel MsgStorageModel ReactorModel.
Local Open Scope Z_scope.

Section S.
Context {H : Type}.

Fixpoint accepted (t : list (ev H)) : list (list Z) :=
  match t with
  | [] => []
  | EvAccept m :: r => m :: accepted r
  | _ :: r => accepted r
  end.

Fixpoint dispatched (t : list (ev H)) : list (list Z) :=
  match t with
  | [] => []
  | EvDispatch m _ :: r => m :: dispatched r
  | _ :: r => dispatched r
  end.

(** Iterations abandoned by throwing handlers. *)
Fixpoint abandoned (t : list (ev H)) : Z :=
  match t with
  | [] => 0
  | EvThrow n :: r => n + abandoned r
  | _ :: r => abandoned r
  end.

(** Messages fit a storage slot (see C06 for those that do not). *)
Definition sends_fit (acts : list action) : Prop :=
  forall t m, In (ASend t m) acts -> Z.of_nat (length m) <= 4088.

(** No handler throws and nobody stops the reactor. *)
Definition calm (acts : list action) : Prop :=
  ~ In (AIter true) acts /\ ~ In AWakeAbort acts /\ ~ In AStop acts.

(** Progress actions: everything except new sends, throws and stop. *)
Definition progress_action (a : action) : Prop :=
  match a with ASignal _ | AWake | ARead | AIter false | ADone => True | _ => False end.

(** The last registration for an id, over a flat list of registrations. *)
Fixpoint last_reg (regs : list (Z * option H)) (id : Z) : option H :=
  match regs with
  | [] => None
  | (i, h) :: r => match find (fun x => fst x =? id) r with
                   | Some _ => last_reg r id
                   | None => if i =? id then h else None
                   end
  end.
End S.
