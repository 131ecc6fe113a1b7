(** Specification vocabulary for the end of the process. *)
From Verif Require Import Base ShutdownModel.
Local Open Scope Z_scope.

(** Everything that can happen with [n] reactors. *)
Inductive xreach (n : nat) : sys -> Prop :=
| xr_new : xreach n (sys0 n)
| xr_step s e s' : xreach n s -> xstep s e = XNext s' -> xreach n s'.
Inductive xruns : sys -> list xev -> sys -> Prop :=
| xu_nil s : xruns s [] s
| xu_step s e s1 es s2 : xstep s e = XNext s1 -> xruns s1 es s2 -> xruns s (e :: es) s2.

Definition failed (m : mph) : bool := match m with MComps f | MPools _ f | MJoin _ f | MExit f => f | _ => false end.
Definition all_ended (s : sys) : Prop := Forall (fun r => r_thr r = TEnd) (s_rs s).
(** Histories without failure in the main thread in which it sleeps, after stop(), until all threads have ended. *)
Definition patient (s : sys) (e : xev) : Prop :=
  match e, s_main s with
  | XMain _, MNap => all_ended s
  | XMain x, (MStart _ | MServe) => x = SOk
  | _, _ => True
  end.
Inductive preach (n : nat) : sys -> Prop :=
| pr_new : preach n (sys0 n)
| pr_step s e s' : preach n s -> patient s e -> xstep s e = XNext s' -> preach n s'.

(** The main thread has gone through stop(). *)
Definition past_stop (s : sys) : Prop := failed (s_main s) = false /\ match s_main s with MStart _ | MServe | MStop _ => False | _ => True end.
(** Steps left: for the main thread, and for a thread that was told to stop. *)
Definition main_left (n : nat) (m : mph) : nat :=
  match m with MNap => 2 * n + 3 | MComps _ => 2 * n + 2 | MPools i _ => 2 * (n - i) + 1 | MJoin i _ => 2 * (n - i) | _ => 0 end.
Fixpoint thr_left (t : tst) : nat :=
  match t with
  | TNew | TEnd => 0 | TCheck => 1 | TWait => 33
  | TBatch es => 2 + 3 * length es
  | TMsgs n es => 3 + 3 * n + 3 * length es
  | TCall k => 2 + thr_left k
  end.
Definition left_over (s : sys) : nat := (main_left (length (s_rs s)) (s_main s) + list_sum (map (fun r => thr_left (r_thr r)) (s_rs s)))%nat.

(** Handlers of messages started in a run by the thread of reactor [i]. *)
Fixpoint in_msgs (t : tst) : nat := match t with TMsgs n _ => n | TCall k => in_msgs k | _ => 0 end.
Definition starts_msg (s : sys) (i : nat) (e : xev) : bool :=
  match e, nth_error (s_rs s) i with XThr j _ _, Some r => if Nat.eqb i j then match r_thr r with TMsgs (S _) _ => true | _ => false end else false | _, _ => false end.
Fixpoint msgs_started (i : nat) (s : sys) (es : list xev) : nat :=
  match es with [] => 0 | e :: r => (if starts_msg s i e then 1 else 0) + match xstep s e with XNext s1 => msgs_started i s1 r | _ => 0 end end.
