(** Specification of state machines, independent of the class: what a record of entries and exits says. *)
From Verif Require Import Base FsmModel.
Local Open Scope Z_scope.

(** The state entered last. *)
Fixpoint last_entered (s : Z) (l : list fev) : Z :=
  match l with [] => s | EEnter t :: r => last_entered t r | _ :: r => last_entered s r end.
(** Only entries and exits. *)
Fixpoint moves (l : list fev) : list fev :=
  match l with [] => [] | EEnter t :: r => EEnter t :: moves r | EExit t :: r => EExit t :: moves r | _ :: r => moves r end.
(** A walk: every state is left before another is entered, and only the state the walk is in is left. *)
Inductive walk : Z -> list fev -> Z -> Prop :=
| walk_nil s : walk s [] s
| walk_step s t l u : s <> t -> walk t l u -> walk s (EExit s :: EEnter t :: l) u.
(** An action that neither changes the state nor throws. *)
Inductive quiet : act -> Prop :=
| quiet_done : quiet ADone
| quiet_do x k : (forall l, quiet (k l)) -> quiet (ADo x k).
(** An action that does not change the state; it may throw. *)
Inductive steady : act -> Prop :=
| steady_done : steady ADone
| steady_throw : steady AThrow
| steady_do x k : (forall l, steady (k l)) -> steady (ADo x k).
(** What an action that does not change the state does after a given past: the events it adds, and whether it throws. *)
Inductive does : list fev -> act -> list fev -> bool -> Prop :=
| does_done l : does l ADone [] false
| does_throw l : does l AThrow [] true
| does_do l x k r b : does (l ++ [EDo x]) (k (l ++ [EDo x])) r b -> does l (ADo x k) (EDo x :: r) b.
