(** Model of the state machine class all connections, channels and sessions are built on: common/utils/FsmBase.hpp, and its copies in
    modbus/client/ModbusClientFsm.hpp, modbus/server/session/ModbusSessionFsm.hpp, controller/modbus/ModbusTestFsm.hpp. *)
From Verif Require Import Base.
Local Open Scope Z_scope.

(** What is observable of a machine: entry and exit actions begun, transitions refused, anything else the owner does.  Model only:
    a record for stating properties. *)
Inductive fev := EEnter (s : Z) | EExit (s : Z) | ERefused (s : Z) | EDo (x : Z).
(** What the owner and the actions of its states do, one call after the other; what comes next may depend on all that has
    happened.  [AGo s]: [transit<s>()]; [AThrow]: an exception leaves.  FsmBase.hpp 22-35 is called from arbitrary code. *)
Inductive act := ADone | AThrow | ADo (x : Z) (k : list fev -> act) | AGo (s : Z) (k : list fev -> act).
(** FsmBase.hpp 37-38: the current state (one object per state, Singleton.hpp 6-11), and the record. *)
Record fsm := mkF { f_cur : Z; f_log : list fev }.
(** Record an event.  Model only. *)
Definition f_add (m : fsm) (e : fev) : fsm := mkF (f_cur m) (f_log m ++ [e]).
(** The actions of the states: onEnter and onExit, given what has happened.  Model only. *)
Record actions := mkA { a_enter : Z -> list fev -> act; a_exit : Z -> list fev -> act }.
(** transit, FsmBase.hpp 22-35.  [run] executes an action; [None]: it does not end within the given depth; the flag: an exception
    leaves. *)
Definition f_transit (run : act -> fsm -> option (fsm * bool)) (A : actions) (s : Z) (m : fsm) : option (fsm * bool) :=
  if s =? f_cur m then Some (f_add m (ERefused s), false)
  else
    let m1 := f_add m (EExit (f_cur m)) in
    match run (a_exit A (f_cur m) (f_log m1)) m1 with
    | Some (m2, false) =>
        let m3 := f_add (mkF s (f_log m2)) (EEnter s) in
        run (a_enter A s (f_log m3)) m3
    | r => r
    end.
(** Execution of an action with calls nested up to a depth.  Model only: C++ sequencing. *)
Fixpoint f_run (depth : nat) (A : actions) (a : act) (m : fsm) : option (fsm * bool) :=
  match depth with
  | O => None
  | S n =>
      match a with
      | ADone => Some (m, false)
      | AThrow => Some (m, true)
      | ADo x k => let m1 := f_add m (EDo x) in f_run n A (k (f_log m1)) m1
      | AGo s k =>
          match f_transit (f_run n A) A s m with
          | Some (m1, false) => f_run n A (k (f_log m1)) m1
          | r => r
          end
      end
  end.
(** A machine as constructed, FsmBase.hpp 13-16: the first state's entry action is not run. *)
Definition f_new (s : Z) : fsm := mkF s [].
