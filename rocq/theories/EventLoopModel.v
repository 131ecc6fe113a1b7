(** Model of the event loop's dispatch of a batch of events: Epoll::wait (common/reactor/Epoll.cpp:53-73), the
    onFileDescriptorEvent of Timer, Link, Acceptor and Event, the reactor's pools of these objects
    (Reactor.cpp:57-107, EntityPool.hpp:15-58) and Reactor::run's exception handler (Reactor.cpp:165-178).

    What the handlers do is arbitrary: each is a list of calls on objects the application holds, possibly ended by an
    exception.  The kernel is reduced to: a timerfd is disarmed, armed, or has an unread expiration, and settime forgets an unread
    expiration; a descriptor that was closed leaves the epoll set, but events already copied out by epoll_wait
    stay in the batch; read and epoll_ctl on descriptor -1 fail with EBADF.  Descriptors themselves are modelled in LinkModel; here an
    object only has an open file or none.  Simplification: a failing system call is a
    failing operation, and the exception it raises is one the handler may or may not let escape. *)
From Verif Require Import Base.
Local Open Scope nat_scope.

(** Pool capacity, EntityPool.hpp:19; MAX_EVENTS, Epoll.hpp:31. *)
Definition pool_capacity : nat := 32.
(** Epoll.hpp:31. *)
Definition MAX_EVENTS : nat := 10.

(** A timerfd. Timer.cpp:29-45, 71-102; the states of the descriptor are the kernel's. *)
Inductive tstate := TOff | TArmed | TExpired.
(** Timer.hpp: descriptor and handler.  Handlers and owners are identified by the number of the creation call: [t_own] is the
    owner of the TimerPtr, whose handler is installed.  [t_fd = None]: fd is -1. Timer.hpp:40-41. *)
Record timer := mkT { t_fd : option tstate; t_own : option nat }.
(** Link.hpp: descriptor ([Some c]: the socket of connection [c]), handler installed or not, owner of the LinkPtr. Link.hpp:39-40. *)
Record link := mkL { l_fd : option nat; l_set : bool; l_own : option nat }.
(** Acceptor.hpp. Acceptor.hpp:38-39. *)
Record acc := mkA { a_fd : bool; a_own : option nat }.

(** Members of Reactor (Reactor.hpp:63-68): the pools' objects and their queues of free ids (EntityPool.hpp:12-57, a FIFO);
    the last member numbers creations and connections. *)
Record loop := mkLoop { e_t : nat -> timer; e_l : nat -> link; e_a : nat -> acc;
                        e_tf : list nat; e_lf : list nat; e_af : list nat; e_next : nat }.

(** Reactor.cpp:21-38, EntityPool.hpp:18-28. *)
Definition loop_new : loop :=
  mkLoop (fun _ => mkT None None) (fun _ => mkL None false None) (fun _ => mkA false None)
         (seq 0 pool_capacity) (seq 0 pool_capacity) (seq 0 pool_capacity) 0.

(** Updating one object of a table (model only). *)
Definition fset {A} (f : nat -> A) (i : nat) (x : A) : nat -> A := fun j => if j =? i then x else f j.
(** Updating one timer (model only). *)
Definition set_t (s : loop) i x := mkLoop (fset (e_t s) i x) (e_l s) (e_a s) (e_tf s) (e_lf s) (e_af s) (e_next s).
(** Updating one link (model only). *)
Definition set_l (s : loop) i x := mkLoop (e_t s) (fset (e_l s) i x) (e_a s) (e_tf s) (e_lf s) (e_af s) (e_next s).
(** Updating one acceptor (model only). *)
Definition set_a (s : loop) i x := mkLoop (e_t s) (e_l s) (fset (e_a s) i x) (e_tf s) (e_lf s) (e_af s) (e_next s).
(** Updating the free timers (model only). *)
Definition free_t (s : loop) l := mkLoop (e_t s) (e_l s) (e_a s) l (e_lf s) (e_af s) (e_next s).
(** Updating the free links (model only). *)
Definition free_l (s : loop) l := mkLoop (e_t s) (e_l s) (e_a s) (e_tf s) l (e_af s) (e_next s).
(** Updating the free acceptors (model only). *)
Definition free_a (s : loop) l := mkLoop (e_t s) (e_l s) (e_a s) (e_tf s) (e_lf s) l (e_next s).
(** The next number for a pointer (model only: pointers get numbers so that reuse of an object can be seen). *)
Definition bump (s : loop) := mkLoop (e_t s) (e_l s) (e_a s) (e_tf s) (e_lf s) (e_af s) (S (e_next s)).

(** The object a TimerPtr, LinkPtr, AcceptorPtr with number [h] points to. Reactor.cpp:57-107. *)
Definition owned (h : nat) (o : option nat) : bool := match o with Some x => x =? h | None => false end.
(** The timer behind pointer [h]. Reactor.cpp:57-73. *)
Definition find_t (s : loop) (h : nat) : option nat := find (fun i => owned h (t_own (e_t s i))) (seq 0 pool_capacity).
(** The link behind pointer [h]. Reactor.cpp:75-90. *)
Definition find_l (s : loop) (h : nat) : option nat := find (fun i => owned h (l_own (e_l s i))) (seq 0 pool_capacity).
(** The acceptor behind pointer [h]. Reactor.cpp:92-107. *)
Definition find_a (s : loop) (h : nat) : option nat := find (fun i => owned h (a_own (e_a s i))) (seq 0 pool_capacity).

(** Calls.  The booleans are results of system calls.  [OTick]: time passes and an armed timer expires (not a call). Model only. *)
Inductive op :=
| OTimerNew (create_ok add_ok : bool) | OTimerStart (h : nat) | OTimerStop (h : nat) | OTimerDel (h : nat) | OTick (h : nat)
| OLinkNew (handler : bool) | OLinkHandler (h : nat) (b : bool) | OLinkConnect (h : nat) (ok : bool) | OLinkClose (h : nat) | OLinkDel (h : nat)
| OAccNew | OAccListen (h : nat) (ok : bool) | OAccDel (h : nat) | OAccept (a h : nat) (ok : bool).

(** What the kernel reports, and to what the pointer in the event refers. Epoll.cpp:33, 70. *)
Inductive oref := RT (i : nat) | RL (i : nat) | RA (i : nat) | RMsg.
(** One epoll_event: the object and the event mask, Epoll.cpp:53-73. *)
Record entry := mkEn { en_obj : oref; en_mask : Z }.
(** The callbacks of LinkHandler.hpp. LinkHandler.hpp:8-13. *)
Inductive levent := LData | LConnected | LError.

(** Everything that happens. Model only. *)
Inductive act :=
| ATimerNew (h : nat) | ATimerStart (h : nat) | ATimerStop (h : nat) | ATimerDel (h : nat) | ATick (h : nat)
| ALinkNew (h : nat) | ALinkOpen (h c : nat) | ALinkClose (h : nat) | ALinkDel (h : nat)
| AAccNew (h : nat) | AAccDel (h : nat)
| AFail                                            (* a call threw *)
| ANoTimer                                         (* a timer could not be created: the system refused *)
| AEntry (e : entry)                               (* the loop comes to this event *)
| ATimerCall (h : nat)                             (* a timer's handler is called *)
| ALinkCall (h : nat) (e : levent) (c : option nat) (* a link's handler; [c]: the connection the link has now *)
| AAccCall (h : nat) | AMsgCall
| AThrow (lost : list entry)                       (* an exception leaves Epoll::wait *)
| ATerminate.                                      (* std::terminate *)

Definition exec (s : loop) (o : op) : loop * list act :=
  match o with
  (* createTimer, Reactor.cpp:57-73, Timer::create, Timer.cpp:29-45; the id is not given back when create throws *)
  | OTimerNew cok aok =>
      match e_tf s with
      | [] => (s, [AFail])
      | i :: r => if cok && aok
                  then (bump (set_t (free_t s r) i (mkT (Some TOff) (Some (e_next s)))), [ATimerNew (e_next s)])
                  else (free_t s r, [ANoTimer])
      end
  (* start, Timer.cpp:71-89 *)
  | OTimerStart h => match find_t s h with
                     | Some i => (set_t s i (mkT (option_map (fun _ => TArmed) (t_fd (e_t s i))) (t_own (e_t s i))), [ATimerStart h])
                     | None => (s, [])
                     end
  (* stop, Timer.cpp:91-102 *)
  | OTimerStop h => match find_t s h with
                    | Some i => (set_t s i (mkT (option_map (fun _ => TOff) (t_fd (e_t s i))) (t_own (e_t s i))), [ATimerStop h])
                    | None => (s, [])
                    end
  (* the deleter, Reactor.cpp:67-71; release, Timer.cpp:104-109, close, Timer.cpp:47-64 *)
  | OTimerDel h => match find_t s h with
                   | Some i => (free_t (set_t s i (mkT None None)) (e_tf s ++ [i]), [ATimerDel h])
                   | None => (s, [])
                   end
  | OTick h => match find_t s h with
               | Some i => match t_fd (e_t s i) with
                           | Some TArmed => (set_t s i (mkT (Some TExpired) (t_own (e_t s i))), [ATick h])
                           | _ => (s, [])
                           end
               | None => (s, [])
               end
  (* createLink, Reactor.cpp:75-90 *)
  | OLinkNew hd => match e_lf s with
                   | [] => (s, [AFail])
                   | i :: r => (bump (set_l (free_l s r) i (mkL (l_fd (e_l s i)) hd (Some (e_next s)))), [ALinkNew (e_next s)])
                   end
  (* setHandler, Link.cpp:135-138 *)
  | OLinkHandler h b => match find_l s h with
                        | Some i => (set_l s i (mkL (l_fd (e_l s i)) b (l_own (e_l s i))), [])
                        | None => (s, [])
                        end
  (* connect, Link.cpp:40-74 *)
  | OLinkConnect h ok => match find_l s h with
                         | Some i => match l_fd (e_l s i), ok with
                                     | None, true => (bump (set_l s i (mkL (Some (e_next s)) (l_set (e_l s i)) (l_own (e_l s i)))), [ALinkOpen h (e_next s)])
                                     | _, _ => (s, [AFail])
                                     end
                         | None => (s, [])
                         end
  (* close, Link.cpp:76-93 *)
  | OLinkClose h => match find_l s h with
                    | Some i => (set_l s i (mkL None (l_set (e_l s i)) (l_own (e_l s i))), [ALinkClose h])
                    | None => (s, [])
                    end
  (* the deleter, Reactor.cpp:84-88; release, Link.cpp:95-99 *)
  | OLinkDel h => match find_l s h with
                  | Some i => (free_l (set_l s i (mkL None false None)) (e_lf s ++ [i]), [ALinkDel h])
                  | None => (s, [])
                  end
  (* createAcceptor, Reactor.cpp:92-107 *)
  | OAccNew => match e_af s with
               | [] => (s, [AFail])
               | i :: r => (bump (set_a (free_a s r) i (mkA false (Some (e_next s)))), [AAccNew (e_next s)])
               end
  (* listen, Acceptor.cpp:42-79 *)
  | OAccListen h ok => match find_a s h with
                       | Some i => if negb (a_fd (e_a s i)) && ok then (set_a s i (mkA true (a_own (e_a s i))), []) else (s, [AFail])
                       | None => (s, [])
                       end
  (* the deleter, Reactor.cpp:101-105; release and close, Acceptor.cpp:36-40, 81-97; the exception leaves a destructor *)
  | OAccDel h => match find_a s h with
                 | Some i => if a_fd (e_a s i) then (free_a (set_a s i (mkA false None)) (e_af s ++ [i]), [AAccDel h]) else (s, [ATerminate])
                 | None => (s, [])
                 end
  (* accept, Acceptor.cpp:114-139; a failing registration leaves the link with a closed descriptor (C16) and is a plain failure here *)
  | OAccept a h ok => match find_a s a, find_l s h with
                      | Some j, Some i =>
                          match l_fd (e_l s i), a_fd (e_a s j) && ok with
                          | None, true => (bump (set_l s i (mkL (Some (e_next s)) (l_set (e_l s i)) (l_own (e_l s i)))), [ALinkOpen h (e_next s)])
                          | _, _ => (s, [AFail])
                          end
                      | _, _ => (s, [])
                      end
  end.
(** Several of them in a row. Model only. *)
Fixpoint execs (s : loop) (os : list op) : loop * list act :=
  match os with
  | [] => (s, [])
  | o :: r => let '(s1, t1) := exec s o in let '(s2, t2) := execs s1 r in (s2, t1 ++ t2)
  end.

(** What a handler does when it is called, and whether an exception leaves it. Model only. *)
Definition script := (list op * bool)%type.
(** A callback runs: it is recorded, then its script is executed. Model only. *)
Definition called (s : loop) (a : act) (p : script) : loop * list act * bool :=
  let '(s1, t) := execs s (fst p) in (s1, a :: t, snd p).

(** <sys/epoll.h>. Model only. *)
Definition EPOLLIN : Z := 1%Z.
(** <sys/epoll.h>. Model only. *)
Definition EPOLLOUT : Z := 4%Z.
(** onFileDescriptorEvent of the object the event points to; the boolean: an exception leaves it. *)
Definition dispatch (s : loop) (e : entry) (p : script) : loop * list act * bool :=
  match en_obj e with
  (* Timer.cpp:111-133 *)
  | RT i => match t_fd (e_t s i) with
            | None => (s, [], true)                                   (* EBADF: throw "timer read" *)
            | Some TExpired => let s1 := set_t s i (mkT (Some TOff) (t_own (e_t s i))) in
                               match t_own (e_t s i) with Some h => called s1 (ATimerCall h) p | None => (s1, [], false) end
            | Some _ => (s, [], false)                                (* EAGAIN *)
            end
  (* Link.cpp:140-175 *)
  | RL i => match l_set (e_l s i), l_own (e_l s i) with
            | true, Some h =>
                if Z.eqb (en_mask e) EPOLLIN then called s (ALinkCall h LData (l_fd (e_l s i))) p
                else let s1 := set_l s i (mkL None (l_set (e_l s i)) (l_own (e_l s i))) in
                     if Z.eqb (en_mask e) EPOLLOUT then
                       match l_fd (e_l s i) with
                       | Some c => called s (ALinkCall h LConnected (Some c)) p
                       | None => called s1 (ALinkCall h LError None) p          (* epoll_ctl fails *)
                       end
                     else called s1 (ALinkCall h LError (l_fd (e_l s i))) p     (* the connection just closed *)
            | _, _ => (s, [], false)
            end
  (* Acceptor.cpp:104-112 *)
  | RA i => match a_own (e_a s i) with Some h => called s (AAccCall h) p | None => (s, [], false) end
  (* Event.cpp:56-64; the counter and the messages are modelled in ReactorModel *)
  | RMsg => called s AMsgCall p
  end.
(** The loop of Epoll.cpp:64-72 over the events of one epoll_wait; an exception is caught in Reactor.cpp:169-176. *)
Fixpoint batch (s : loop) (b : list (entry * script)) : loop * list act :=
  match b with
  | [] => (s, [])
  | (e, p) :: r =>
      match dispatch s e p with
      | (s1, t1, true) => (s1, AEntry e :: t1 ++ [AThrow (map fst r)])
      | (s1, t1, false) => let '(s2, t2) := batch s1 r in (s2, AEntry e :: t1 ++ t2)
      end
  end.
