(** Specification vocabulary for the event loop: what the application and the kernel did, read off the trace alone. *)
From Verif Require Import Base EventLoopModel.
Local Open Scope nat_scope.

(** What epoll_wait may return: at most ten events, each for a different object, whose descriptor is registered and ready. *)
Definition ready (s : loop) (o : oref) : Prop :=
  match o with
  | RT i => t_fd (e_t s i) = Some TExpired
  | RL i => l_fd (e_l s i) <> None
  | RA i => a_fd (e_a s i) = true
  | RMsg => True
  end.
Definition reportable (s : loop) (b : list (entry * script)) : Prop :=
  length b <= MAX_EVENTS /\ NoDup (map (fun x => en_obj (fst x)) b) /\ Forall (fun x => ready s (en_obj (fst x))) b.
(** Lives in which every batch is one the kernel may return. *)
Inductive lives : loop -> list act -> Prop :=
| lv_new : lives loop_new []
| lv_ops s t os : lives s t -> lives (fst (execs s os)) (t ++ snd (execs s os))
| lv_wait s t b : lives s t -> reportable s b -> lives (fst (batch s b)) (t ++ snd (batch s b)).

(** * Timers *)
(** The state a timer's owner expects: not there; idle; running; overdue. *)
Inductive tview := VGone | VIdle | VRunning | VDue.
Definition view1 (h : nat) (v : tview) (a : act) : tview :=
  match a with
  | ATimerNew x => if x =? h then VIdle else v
  | ATimerStart x => if x =? h then VRunning else v
  | ATimerStop x | ATimerCall x => if x =? h then VIdle else v
  | ATimerDel x => if x =? h then VGone else v
  | ATick x => if x =? h then (match v with VRunning => VDue | _ => v end) else v
  | _ => v
  end.
Definition view (h : nat) (t : list act) : tview := fold_left (view1 h) t VGone.

(** * Counting *)
Definition count (f : act -> bool) (t : list act) : nat := length (filter f t).
Definition is_link_del (a : act) : bool := match a with ALinkDel _ => true | _ => false end.
Definition is_acc_new (a : act) : bool := match a with AAccNew _ => true | _ => false end.
Definition is_acc_del (a : act) : bool := match a with AAccDel _ => true | _ => false end.
Definition is_timer_new (a : act) : bool := match a with ATimerNew _ => true | _ => false end.
Definition is_timer_del (a : act) : bool := match a with ATimerDel _ => true | _ => false end.
Definition is_no_timer (a : act) : bool := match a with ANoTimer => true | _ => false end.

(** * Links *)
Definition is_link_new (a : act) : bool := match a with ALinkNew _ => true | _ => false end.

(** * Batches *)
Definition entries (t : list act) : list entry := flat_map (fun a => match a with AEntry e => [e] | _ => [] end) t.
Definition lost (t : list act) : list entry := flat_map (fun a => match a with AThrow l => l | _ => [] end) t.
Definition quietly (t : list act) : Prop := forall l, ~ In (AThrow l) t.
