(** Model of the end of the process: main.cpp, ReactorManager::start/stop and the destructors of ReactorManager, Reactor and
    Thread against the reactors' threads.  Every container has one thread, Deployer.cpp:22-42. *)
From Verif Require Import Base ControllerModel.
Local Open Scope Z_scope.

(** What epoll_wait reports: the event counter of the message queue with its value, or a link, timer or acceptor. Model only. *)
Inductive devt := DMsg (n : nat) | DObj.
(** A reactor's thread: not created; about to read [stopped] (Reactor.cpp:167); in epoll_wait (Epoll.cpp:57); in the loop over
    the events reported (Epoll.cpp:64-72); in the loop over [n] messages (Reactor.cpp:140-162); inside a component's code,
    called from either; run() left. *)
Inductive tst :=
| TNew | TCheck | TWait
| TBatch (es : list devt)
| TMsgs (n : nat) (es : list devt)
| TCall (k : tst)
| TEnd.
(** [r_alive]: handlers and pools of the reactor are not destroyed. Reactor.hpp:61-69. *)
Record rs := mkR { r_stop : bool; r_alive : bool; r_thr : tst }.
(** The main thread: in ReactorManager::start before reactor [i]; between start() and stop(); in stop() before reactor [i];
    sleeping 100 ms; before the components' destruction; before that of reactor [i]; in pthread_join of its thread; past the
    destruction.  [failed]: an exception is on its way to main's handler, which prints it when reached. ReactorManager.cpp:50-66, main.cpp:20-40. *)
Inductive mph :=
| MStart (i : nat) | MServe | MStop (i : nat) | MNap
| MComps (failed : bool) | MPools (i : nat) (failed : bool) | MJoin (i : nat) (failed : bool) | MExit (failed : bool).
(** The process: main thread, whether the components exist, the reactors. Model only. *)
Record sys := mkS { s_main : mph; s_comps : bool; s_rs : list rs }.
(** After Deployer::apply, with [n] reactors. Model only. *)
Definition sys0 (n : nat) : sys := mkS (MStart 0) true (repeat (mkR false true TNew) n).

(** Thread::start, Thread.cpp:49-99: success; exception before the thread exists; exception with the thread running. *)
Inductive tstart := SOk | SNoThread | SNoAffinity.
(** [XMain x]: the main thread goes on; [x] is used in start() and (as success or not) for the sends in between.
    [XThr i es ok]: the thread of reactor [i] goes on; [es] is what epoll_wait reports, [ok]: no exception leaves a handler. Model only. *)
Inductive xev := XMain (x : tstart) | XThr (i : nat) (es : list devt) (ok : bool).
(** [XBad]: an object already destroyed is used, or pthread_join gets an indeterminate thread id. Model only. *)
Inductive xres := XDisabled | XBad | XNext (s : sys).

(** Updating one reactor (model only). *)
Definition set_rs (s : sys) (i : nat) (r : rs) : sys := mkS (s_main s) (s_comps s) (upd (s_rs s) i r).
(** The main thread moves on (model only). *)
Definition to_main (s : sys) (m : mph) : sys := mkS m (s_comps s) (s_rs s).
(** A loop over the reactors at reactor [i] or past the end, ReactorManager.cpp. Lines 50-66. *)
Definition at_reactor (s : sys) (i : nat) (f : rs -> xres) (past : xres) : xres := match nth_error (s_rs s) i with Some r => f r | None => past end.

(** Main thread: main.cpp:10-41, ReactorManager.cpp:50-66.  Members are destroyed in reverse order of declaration:
    components before reactors (ReactorManager.hpp:34-35), in a reactor handlers and pools before threads (Reactor.hpp:58-66),
    whose destructor joins (Thread.cpp:34-47).  std::vector destroys its first element first. *)
Definition main_step (s : sys) (x : tstart) : xres :=
  match s_main s with
  | MStart i =>
      at_reactor s i (fun r =>
        match x with
        | SOk => XNext (to_main (set_rs s i (mkR (r_stop r) (r_alive r) TCheck)) (MStart (S i)))
        | SNoThread => XNext (to_main s (MComps true))
        | SNoAffinity => XNext (to_main (set_rs s i (mkR (r_stop r) (r_alive r) TCheck)) (MComps true))
        end) (XNext (to_main s MServe))
  | MServe => XNext (to_main s (match x with SOk => MStop 0 | _ => MComps true end))
  | MStop i => at_reactor s i (fun r => XNext (to_main (set_rs s i (mkR true (r_alive r) (r_thr r))) (MStop (S i)))) (XNext (to_main s MNap))
  | MNap => XNext (to_main s (MComps false))
  | MComps f => XNext (mkS (MPools 0 f) false (s_rs s))
  | MPools i f => at_reactor s i (fun r => XNext (to_main (set_rs s i (mkR (r_stop r) false (r_thr r))) (MJoin i f))) (XNext (to_main s (MExit f)))
  | MJoin i f => at_reactor s i (fun r => match r_thr r with TNew => XBad | TEnd => XNext (to_main s (MPools (S i) f)) | _ => XDisabled end) XDisabled
  | MExit _ => XDisabled
  end.

(** epoll_wait reports at most ten events, Epoll.hpp:31. *)
Definition maxEvents : nat := 10.
(** A reactor's thread: Reactor::run, Reactor.cpp:165-178; Epoll::wait, Epoll.cpp:53-73; Reactor::onFdEvent,
    Reactor.cpp:133-163.  An exception from a handler ends the wait, Reactor.cpp:173-176.  [None]: something destroyed is used. *)
Definition thr_step (comps : bool) (r : rs) (es : list devt) (ok : bool) : option (option tst) :=
  let usable := comps && r_alive r in
  match r_thr r with
  | TNew | TEnd => Some None
  | TCheck => Some (Some (if r_stop r then TEnd else TWait))
  | TWait => if Nat.leb (length es) maxEvents then Some (Some (TBatch es)) else Some None
  | TBatch [] => Some (Some TCheck)
  | TBatch (DMsg n :: rest) => Some (Some (if r_stop r then TBatch rest else TMsgs n rest))
  | TBatch (DObj :: rest) => if usable then Some (Some (TCall (TBatch rest))) else None
  | TMsgs 0 rest => Some (Some (TBatch rest))
  | TMsgs (S n) rest => if usable then Some (Some (TCall (TMsgs n rest))) else None
  | TCall k => if usable then Some (Some (if ok then k else TCheck)) else None
  end.
(** One step of the main thread or of a reactor's thread. main.cpp, Reactor.cpp (see [main_step] and the steps of a thread above). *)
Definition xstep (s : sys) (e : xev) : xres :=
  match e with
  | XMain x => main_step s x
  | XThr i es ok =>
      at_reactor s i (fun r =>
        match thr_step (s_comps s) r es ok with
        | None => XBad
        | Some None => XDisabled
        | Some (Some t) => XNext (set_rs s i (mkR (r_stop r) (r_alive r) t))
        end) XDisabled
  end.
