(** Model of common/reactor/Reactor.cpp (send, onFdEvent, run, handler
    registration) and Event.cpp, as a transition system over all
    interleavings of sending threads with the reactor thread.

    Kernel objects are reduced to what they guarantee: an eventfd is a
    counter ([write] adds, [read] returns and clears); the descriptor is
    registered edge-triggered (Event.cpp:28), so each write makes it ready once
    and [epoll_wait] reports it if it is ready and the counter is non-zero.
    Every deployment runs one thread per reactor (Deployer.cpp:29,34-37). *)
From Verif Require Import Base QueueModel MsgStorageModel.
Local Open Scope Z_scope.

Section Reactor.
(** Identity of a handler; the message id stored in a message (MsgInterface's
    getMsgId on the copied bytes). *)
Context {H : Type}.
Variable mid : list Z -> Z.

(** [handlers]: Reactor.hpp, a map from message id to a std::function
    ([None] = empty function or absent: Reactor.cpp:153-154 does not
    distinguish them). *)
Definition hmap := Z -> option H.
(** No handler is registered. Reactor.hpp:69. *)
Definition h_empty : hmap := fun _ => None.

(** registerHandler, Reactor.cpp:44-47. *)
Definition register (m : hmap) (id : Z) (h : option H) : hmap :=
  fun x => if x =? id then h else m x.

(** registerHandlers, Reactor.cpp:49-55. *)
Definition register_all (m : hmap) (v : list (Z * option H)) : hmap :=
  fold_left (fun m '(id, h) => register m id h) v m.

(** Reactor thread: in epoll_wait; reported by epoll_wait but not yet read
    (Epoll.cpp:57-71, Event.cpp:56-59); inside the loop of
    Reactor.cpp:140-162 with [n] iterations left. *)
Inductive thr := Idle | Woken | Looping (n : Z).

Record sys := mkSys {
  y_store : storage;        (* msgMemStorage, Reactor.cpp:23 *)
  y_hand : hmap;
  y_cnt : Z;                (* eventfd counter *)
  y_edge : bool;            (* ready since the last report *)
  y_thr : thr;
  y_pend : list nat;        (* threads between push and event->send() *)
  y_stop : bool             (* stopped *)
}.

(** Observable events. Model only. *)
Inductive ev :=
| EvAccept (m : list Z)
| EvRefuse (m : list Z)
| EvDispatch (m : list Z) (h : option H)   (* handler run, [None] = logged *)
| EvThrow (left : Z).                      (* iterations abandoned *)

(** One step of a sender thread or of the reactor thread. *)
Inductive action :=
| ASend (t : nat) (m : list Z)   (* thread t: Reactor::send up to the push *)
| ASignal (t : nat)              (* thread t: event->send() *)
| AWake                          (* epoll_wait reports the eventfd *)
| AWakeAbort                     (* ... but an earlier descriptor of the same
                                    batch throws (Epoll.cpp:64-72) *)
| ARead                          (* Event::onFileDescriptorEvent read *)
| AIter (throws : bool)          (* one loop iteration *)
| ADone                          (* loop finished *)
| AStop.                         (* Reactor::stop *)

(** Outcome of a step: not possible now, undefined behaviour, or a next state with what can be observed. Model only. *)
Inductive res := Disabled | Undefined | Next (s : sys) (es : list ev).

(** Removing a thread from a list (model only). *)
Fixpoint remove_tid (t : nat) (l : list nat) : list nat :=
  match l with [] => [] | x :: r => if Nat.eqb x t then r else x :: remove_tid t r end.
(** Is a thread in a list (model only)? *)
Definition mem_tid (t : nat) (l : list nat) : bool := existsb (Nat.eqb t) l.

(** maxMsgSize, types/MaxMsgSize.hpp; localBuf of Reactor.cpp:142. *)
Definition max_msg : Z := 4096.

(** The reactor thread moves on (model only). *)
Definition set_thr (s : sys) (t : thr) : sys :=
  mkSys (y_store s) (y_hand s) (y_cnt s) (y_edge s) t (y_pend s) (y_stop s).

Definition rstep (s : sys) (a : action) : res :=
  match a with
  (* Reactor.cpp:109-118; a thread between push and signal cannot send *)
  | ASend t m =>
      if mem_tid t (y_pend s) then Disabled
      else match st_push (y_store s) m with
           | None => Undefined
           | Some (_, false) => Next s [EvRefuse m]
           | Some (st', true) =>
               Next (mkSys st' (y_hand s) (y_cnt s) (y_edge s) (y_thr s) (t :: y_pend s) (y_stop s))
                    [EvAccept m]
           end
  (* Event.cpp:47-54; a write that would overflow the counter blocks *)
  | ASignal t =>
      if mem_tid t (y_pend s) && (y_cnt s <? 18446744073709551614) then
        Next (mkSys (y_store s) (y_hand s) (y_cnt s + 1) true (y_thr s) (remove_tid t (y_pend s)) (y_stop s)) []
      else Disabled
  (* Reactor.cpp:165-172, Epoll.cpp:53-71 *)
  | AWake =>
      match y_thr s with
      | Idle => if negb (y_stop s) && y_edge s && (0 <? y_cnt s)
                then Next (mkSys (y_store s) (y_hand s) (y_cnt s) false Woken (y_pend s) (y_stop s)) []
                else Disabled
      | _ => Disabled
      end
  (* Epoll.cpp:64-72 left by an exception, caught at Reactor.cpp:173-176 *)
  | AWakeAbort =>
      match y_thr s with
      | Idle => if negb (y_stop s) && y_edge s && (0 <? y_cnt s)
                then Next (mkSys (y_store s) (y_hand s) (y_cnt s) false Idle (y_pend s) (y_stop s)) []
                else Disabled
      | _ => Disabled
      end
  (* Event.cpp:56-64 and Reactor.cpp:133-138 *)
  | ARead =>
      match y_thr s with
      | Woken => if 0 <? y_cnt s
                 then Next (mkSys (y_store s) (y_hand s) 0 (y_edge s)
                                  (if y_stop s then Idle else Looping (y_cnt s)) (y_pend s) (y_stop s)) []
                 else Disabled
      | _ => Disabled
      end
  (* Reactor.cpp:140-162; an exception leaves through Event and Epoll *)
  | AIter throws =>
      match y_thr s with
      | Looping n =>
          if 0 <? n then
            match st_pop (y_store s) max_msg with
            | None => Undefined
            | Some (_, None) => Next (set_thr s Idle) []
            | Some (st', Some m) =>
                let h := y_hand s (mid m) in
                let s' t := mkSys st' (y_hand s) (y_cnt s) (y_edge s) t (y_pend s) (y_stop s) in
                match h, throws with
                | Some _, true => Next (s' Idle) [EvDispatch m h; EvThrow (n - 1)]
                | None, true => Disabled
                | _, false => Next (s' (Looping (n - 1))) [EvDispatch m h]
                end
            end
          else Disabled
      | _ => Disabled
      end
  | ADone => match y_thr s with
             | Looping n => if n =? 0 then Next (set_thr s Idle) [] else Disabled
             | _ => Disabled
             end
  (* Reactor.cpp:128-131 *)
  | AStop => Next (mkSys (y_store s) (y_hand s) (y_cnt s) (y_edge s) (y_thr s) (y_pend s) true) []
  end.

(** Constructor, Reactor.cpp:21-38 (storage of 64 slots of maxMsgSize). *)
Definition reactor_new (slack : Z) (m0 : memory) (hs : hmap) : option sys :=
  option_map (fun st => mkSys st hs 0 false Idle [] false) (st_new max_msg 64 slack m0).

(** A schedule: actions performed in order, each enabled. Model only. *)
Inductive rrun : sys -> list action -> list ev -> sys -> Prop :=
| rr_nil s : rrun s [] [] s
| rr_snoc s acts evs s1 a s2 es :
    rrun s acts evs s1 -> rstep s1 a = Next s2 es ->
    rrun s (acts ++ [a]) (evs ++ es) s2.

(** The same, executable. Model only. *)
Fixpoint rexec (s : sys) (evs : list ev) (acts : list action) : option (list ev * sys) :=
  match acts with
  | [] => Some (evs, s)
  | a :: r => match rstep s a with
              | Next s' es => rexec s' (evs ++ es) r
              | _ => None
              end
  end.
End Reactor.
Arguments hmap : clear implicits.
Arguments sys : clear implicits.
Arguments ev : clear implicits.
Arguments res : clear implicits.
