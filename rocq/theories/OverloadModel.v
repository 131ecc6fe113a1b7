(** Model of a reactor under load: the kernel's side of the sockets and timers of the UA TCP transport, the batches of events its
    epoll descriptor returns, and the accept queues of the two servers.
    common/reactor/Epoll.cpp, Reactor.cpp, Link.cpp, Timer.cpp, Acceptor.cpp, ua/transport/server, modbus/server. *)
From Verif Require Import Base QueueModel PoolModel ModbusCodecModel ModbusClientModel ModbusServerModel UaCodecModel UaTcpModel.
Local Open Scope Z_scope.

(** Objects of each kind a reactor has, EntityPool.hpp:19; events of one epoll_wait, Epoll.hpp:31. *)
Definition linkMax : nat := 32.
(** Epoll.hpp:31. *)
Definition batchMax : nat := 10.

(** ** The kernel *)
(** A timer descriptor: not expired (or not armed); expired and to be reported; expired and reported, and not read since.
    It is registered edge-triggered (Timer.cpp:39), so an expiry is reported once. *)
Inductive ktimer := KRun | KDue | KOver.
(** The kernel's side of a connection: octets not read yet, whether the peer has finished, whether something has arrived since
    the last report.  Links are registered edge-triggered (Acceptor.cpp:133). *)
Record ksock := mkK { n_in : list Z; n_end : bool; n_edge : bool; n_tick : ktimer }.
(** A socket just accepted. Model only. *)
Definition ksock0 : ksock := mkK [] false false KRun.
(** read(2) takes octets. Model only. *)
Definition n_took (k : ksock) n := mkK (skipn n (n_in k)) (n_end k) (n_edge k) (n_tick k).
(** Octets arrive; an edge. Model only. *)
Definition n_got (k : ksock) bs := mkK (n_in k ++ bs) (n_end k) true (n_tick k).
(** The peer finishes; an edge. Model only. *)
Definition n_fin (k : ksock) := mkK (n_in k) true true (n_tick k).
(** The timer changes. Model only. *)
Definition n_set (k : ksock) t := mkK (n_in k) (n_end k) (n_edge k) t.
(** epoll_wait reports the edge. Model only. *)
Definition n_seen (k : ksock) := mkK (n_in k) (n_end k) false (n_tick k).

(** An event epoll_wait returns: the acceptor, a connection's link with EPOLLIN or with an error, a connection's timer, the
    message queue (with the messages handled for it; what becomes of messages whose event is dropped is C08's subject). Model only. *)
Inductive hent := NAccept | NData (u : Z) | NError (u : Z) | NTimer (u : Z) | NMsg (ms : list tev).

(** [h_wait]: clients the kernel has connected and the transport has not accepted; [h_batch]: events returned by the last
    epoll_wait and not dispatched yet.  Connection [u]'s link and timer are identified by [u]: the pools of links and
    timers and the pool of connections are FIFO queues of equal length used together. Model only. *)
Record host := mkH { h_srv : tserver; h_sk : Z -> ksock; h_wait : nat; h_batch : list hent }.

(** Updating one socket (model only). *)
Definition kset (f : Z -> ksock) (u : Z) (k : ksock) : Z -> ksock := fun x => if x =? u then k else f x.

(** The connection with id [u], for the ids there are. Model only. *)
Definition conn_at (v : tserver) (u : Z) : option tconn := if (1 <=? u) && (u <=? 32) then conn_of v u else None.

(** Links in use: a connection holds one from its acceptance to its release. Model only. *)
Definition holds_link (c : tconn) : bool := match t_link c with Some _ => true | None => false end.
(** The links taken from the reactor's pool, EntityPool.hpp:32-48. *)
Definition links_used (v : tserver) : nat := length (filter holds_link (d_conn v)).

(** What the transport's calls do to the kernel's objects: timerfd_settime clears an expiry (Timer.cpp:71-102), releasing a
    connection closes both descriptors. *)
Definition k_eff (f : Z -> ksock) (o : uout) : Z -> ksock :=
  match o with
  | UArm u _ | UDisarm u => kset f u (n_set (f u) KRun)
  | UFree u => kset f u ksock0
  | _ => f
  end.
(** The handler threw. Model only. *)
Definition is_uthrow (o : uout) : bool := match o with UThrow => true | _ => false end.

(** Things that happen.  [HNext]: the loop dispatches the next event of the batch; its arguments are results of system calls
    should the handler make them: accept(2), creating a timer, what the accepted client had sent already, read(2) fails, write(2). Model only. *)
Inductive hev :=
| HConnect                                   (* a client's connection is completed by the kernel *)
| HArrive (u : Z) (bs : list Z)              (* octets arrive *)
| HFinish (u : Z)                            (* the peer finishes sending *)
| HTick (u : Z)                              (* a timer expires *)
| HWait (es : list hent)                     (* epoll_wait returns *)
| HNext (aok tok : bool) (early : list Z) (rerr : bool) (w : option nat).

(** What a step shows: the events given to the transport with their effects, the read(2) made (connection, size asked for,
    result), the events dropped. Model only. *)
Record hout := mkHo { o_seen : list (tev * list uout); o_read : option (Z * nat * lrx); o_lost : list hent }.
(** A step without effects. Model only. *)
Definition quiet : hout := mkHo [] None [].

(** Give event [e] to the transport; an exception drops the rest of the batch: Epoll.cpp:64-72 left by it, Reactor.cpp:163-176. *)
Definition give (h : host) (e : tev) (rest : list hent) (rd : option (Z * nat * lrx)) : option (host * hout) :=
  match tsrv_step (h_srv h) e with
  | None => None
  | Some (v, os) =>
      let thrown := existsb is_uthrow os in
      Some (mkH v (fold_left k_eff os (h_sk h)) (h_wait h) (if thrown then [] else rest),
            mkHo [(e, os)] rd (if thrown then rest else []))
  end.

(** Messages of one event: Reactor.cpp:131-160; handlers of messages do not throw here ([UThrow] occurs in accept and hello only). *)
Fixpoint give_msgs (h : host) (ms : list tev) : option (host * list (tev * list uout)) :=
  match ms with
  | [] => Some (h, [])
  | e :: r => match tsrv_step (h_srv h) e with
              | None => None
              | Some (v, os) => match give_msgs (mkH v (fold_left k_eff os (h_sk h)) (h_wait h) (h_batch h)) r with
                                | None => None
                                | Some (h', tr) => Some (h', (e, os) :: tr)
                                end
              end
  end.

(** read(2) of at most [n] octets (Link.cpp:115-133). *)
Definition k_read (k : ksock) (n : nat) (rerr : bool) : lrx :=
  if rerr then RxErr
  else match n_in k with
       | [] => if n_end k then RxBytes [] else RxNa
       | _ => RxBytes (firstn n (n_in k))
       end.

(** onAcceptEvent, UaTcpServer.cpp:53-68.  A link is free when fewer than 32 are held; the accepted
    client's octets are reported by registering the descriptor (Acceptor.cpp:133). *)
Definition h_accept (h : host) (rest : list hent) (aok tok : bool) (early : list Z) : option (host * hout) :=
  let lok := Nat.ltb (links_used (h_srv h)) linkMax in
  match give h (EvAccept lok aok tok) rest None with
  | None => None
  | Some (h', o) =>
      let took := lok && aok in
      let sk := match o_seen o with
                | [(_, [UArm u _])] => kset (h_sk h') u (mkK early false (match early with [] => false | _ => true end) KRun)
                | _ => h_sk h'
                end in
      Some (mkH (h_srv h') sk (if took then pred (h_wait h) else h_wait h) (h_batch h'), o)
  end.

(** The link's handler and receive, UaTcpConnection.cpp:128-146, 176-189: one read per event, of what the buffer has left; none when it
    holds more than 1024 octets already.  A released link has no handler; in the initial state the event is ignored. *)
Definition h_data (h : host) (u : Z) (rest : list hent) (rerr : bool) (w : option nat) : option (host * hout) :=
  let skip := Some (mkH (h_srv h) (h_sk h) (h_wait h) rest, quiet) in
  match conn_at (h_srv h) u with
  | None => skip
  | Some c =>
      match t_st c, t_link c with
      | UInit, _ => skip
      | _, Some true =>
          if (1024 <? Z.of_nat (k_head (t_rx c))) then give h (EvData u RxNa w) rest None
          else
            let n := (length (k_pkt (t_rx c)) - k_head (t_rx c))%nat in
            let r := k_read (h_sk h u) n rerr in
            let k := match r with RxBytes bs => n_took (h_sk h u) (length bs) | _ => h_sk h u end in
            give (mkH (h_srv h) (kset (h_sk h) u k) (h_wait h) (h_batch h)) (EvData u r w) rest (Some (u, n, r))
      (* only an error event closes the descriptor, and a batch has one event per descriptor *)
      | _, _ => None
      end
  end.

(** An event with an error mask: the link closes its descriptor (Link.cpp:168-173); the transport only logs. *)
Definition h_error (h : host) (u : Z) (rest : list hent) : option (host * hout) :=
  let skip := Some (mkH (h_srv h) (h_sk h) (h_wait h) rest, quiet) in
  match conn_at (h_srv h) u with
  | None => skip
  | Some c =>
      match t_st c, t_link c with
      | UInit, _ => skip
      | _, Some true => give (mkH (h_srv h) (kset (h_sk h) u (mkK [] false false (n_tick (h_sk h u)))) (h_wait h) (h_batch h)) (EvError u) rest None
      | _, _ => skip
      end
  end.

(** Timer.cpp:111-133: a timer destroyed meanwhile is a failing read, which throws; one restarted or stopped meanwhile has nothing
    to read, unless it has expired again; the second report of such an expiry is left out. *)
Definition h_timer (h : host) (u : Z) (rest : list hent) : option (host * hout) :=
  match conn_at (h_srv h) u with
  | None => Some (mkH (h_srv h) (h_sk h) (h_wait h) rest, quiet)
  | Some c =>
      match t_timer c with
      | None => Some (mkH (h_srv h) (h_sk h) (h_wait h) [], mkHo [] None rest)
      | Some a =>
          match a, n_tick (h_sk h u) with
          | Some _, KOver | Some _, KDue => give (mkH (h_srv h) (kset (h_sk h) u (n_set (h_sk h u) KRun)) (h_wait h) (h_batch h)) (EvTimer u) rest None
          | _, _ => Some (mkH (h_srv h) (h_sk h) (h_wait h) rest, quiet)
          end
      end
  end.

(** What epoll_wait takes off its list of ready descriptors; the acceptor is registered level-triggered (Acceptor.cpp:73). *)
Definition k_report (f : Z -> ksock) (e : hent) : Z -> ksock :=
  match e with
  | NData u => kset f u (n_seen (f u))
  | NTimer u => kset f u (n_set (f u) KOver)
  | _ => f
  end.

(** Connection [u] has an open descriptor, an armed timer. Model only. *)
Definition is_open (v : tserver) (u : Z) : bool :=
  match conn_at v u with Some c => match t_link c with Some true => true | _ => false end | None => false end.
(** The timer of the connection runs. Model only. *)
Definition is_armed (v : tserver) (u : Z) : bool :=
  match conn_at v u with Some c => match t_timer c with Some (Some _) => true | _ => false end | None => false end.
(** An event that comes through the reactor's message queue, Reactor.cpp:133-163. *)
Definition is_msg (e : tev) : bool := match e with EvMsg _ _ _ | EvRelease _ => true | _ => false end.

(** ** What epoll_wait may return *)
(** Timer.cpp:111-133. *)
Definition is_due (t : ktimer) : bool := match t with KDue => true | _ => false end.
(** Has the kernel something to report for this descriptor?  Links and timers are registered edge-triggered (Acceptor.cpp:133, Timer.cpp:40), the acceptor level-triggered (Acceptor.cpp:73). *)
Definition ready (h : host) (e : hent) : bool :=
  match e with
  | NAccept => Nat.ltb 0 (h_wait h)
  | NData u => n_edge (h_sk h u) && is_open (h_srv h) u
  | NError u => is_open (h_srv h) u
  | NTimer u => is_due (n_tick (h_sk h u)) && is_armed (h_srv h) u
  | NMsg ms => forallb is_msg ms
  end.
(** The descriptor an event is about. Model only. *)
Definition same_source (a b : hent) : bool :=
  match a, b with
  | NAccept, NAccept => true
  | NData u, NData w | NData u, NError w | NError u, NData w | NError u, NError w => u =? w
  | NTimer u, NTimer w => u =? w
  | NMsg _, NMsg _ => true
  | _, _ => false
  end.
(** epoll_wait reports a descriptor once. Model only. *)
Fixpoint distinct (es : list hent) : bool :=
  match es with [] => true | e :: r => negb (existsb (same_source e) r) && distinct r end.
(** Everything ready is returned unless there are more than ten; errors and messages come as they like. Model only. *)
Definition uids : list Z := map Z.of_nat (seq 1 maxConn).
(** epoll_wait leaves nothing out unless the array is full. Epoll.cpp:55-57. *)
Definition complete (h : host) (es : list hent) : bool :=
  negb (Nat.ltb (length es) batchMax) ||
  forallb (fun e => negb (ready h e) || existsb (same_source e) es) (NAccept :: map NData uids ++ map NTimer uids).
(** A batch epoll_wait may return, Epoll.cpp:53-73. *)
Definition may_return (h : host) (es : list hent) : bool :=
  Nat.leb (length es) batchMax && forallb (ready h) es && distinct es && complete h es.

(** [None]: the event cannot happen, or undefined behaviour in the transport. Model only. *)
Definition h_step (h : host) (e : hev) : option (host * hout) :=
  match e with
  | HConnect => Some (mkH (h_srv h) (h_sk h) (S (h_wait h)) (h_batch h), quiet)
  | HArrive u bs => if is_open (h_srv h) u then Some (mkH (h_srv h) (kset (h_sk h) u (n_got (h_sk h u) bs)) (h_wait h) (h_batch h), quiet) else None
  | HFinish u => if is_open (h_srv h) u then Some (mkH (h_srv h) (kset (h_sk h) u (n_fin (h_sk h u))) (h_wait h) (h_batch h), quiet) else None
  | HTick u => if is_armed (h_srv h) u then
                 match n_tick (h_sk h u) with
                 | KRun => Some (mkH (h_srv h) (kset (h_sk h) u (n_set (h_sk h u) KDue)) (h_wait h) (h_batch h), quiet)
                 | _ => None
                 end
               else None
  | HWait es => match h_batch h with
                | [] => if may_return h es then Some (mkH (h_srv h) (fold_left k_report es (h_sk h)) (h_wait h) es, quiet) else None
                | _ => None
                end
  | HNext aok tok early rerr w =>
      match h_batch h with
      | [] => None
      | NAccept :: rest => h_accept h rest aok tok early
      | NData u :: rest => h_data h u rest rerr w
      | NError u :: rest => h_error h u rest
      | NTimer u :: rest => h_timer h u rest
      | NMsg ms :: rest => match give_msgs h ms with
                           | None => None
                           | Some (h', tr) => Some (mkH (h_srv h') (h_sk h') (h_wait h') rest, mkHo tr None [])
                           end
      end
  end.
(** The process has just started to listen. Model only. *)
Definition h_new (v : tserver) : host := mkH v (fun _ => ksock0) 0 [].

(** ** The Modbus server's accept queue *)
(** [q_other]: timers and links the reactor's other users hold (each Modbus client has one of each, ModbusClient.cpp:13-21);
    [q_wait]: clients connected by the kernel and not accepted. *)
Record mhost := mkQ { q_srv : server; q_wait : nat; q_other : nat }.
(** A session holds a timer, ModbusSession.cpp:26-31. *)
Definition sess_timer (s : sess) : bool := match x_timer s with Some _ => true | None => false end.
(** A session holds a link, ModbusServer.cpp:45-58. *)
Definition sess_link (s : sess) : bool := match x_link s with Some _ => true | None => false end.
(** Is a timer left? EntityPool.hpp:32-42. *)
Definition timers_free (h : mhost) : bool := Nat.ltb (q_other h + length (filter sess_timer (v_sess (q_srv h)))) linkMax.
(** Is a link left? EntityPool.hpp:32-42. *)
Definition slinks_free (h : mhost) : bool := Nat.ltb (q_other h + length (filter sess_link (v_sess (q_srv h)))) linkMax.
(** What happens to the Modbus server's host. Model only. *)
Inductive qev :=
| QConnect
| QAccept (aok : bool)      (* the acceptor's event; it comes in every round as long as a client waits *)
| QOther (e : vev).         (* a session's event, an answer of the application *)
(** onAcceptEvent, ModbusServer.cpp:45-58: accept(2) is reached when there are an id, a timer and a link. *)
Definition q_step (h : mhost) (e : qev) : option (mhost * list (vev * list sout)) :=
  match e with
  | QConnect => Some (mkQ (q_srv h) (S (q_wait h)) (q_other h), [])
  | QAccept aok =>
      match q_wait h with
      | O => None
      | S n =>
          let ev := VAccept (timers_free h) (slinks_free h) aok in
          match srv_step (q_srv h) ev with
          | None => None
          | Some (v, os) =>
              let took := existsb (fun o => match o with TArm _ _ => true | _ => false end) os in
              Some (mkQ v (if took then n else q_wait h) (q_other h), [(ev, os)])
          end
      end
  | QOther (VAccept _ _ _) => None
  | QOther ev => if srv_enabled (q_srv h) ev then
                   match srv_step (q_srv h) ev with
                   | None => None
                   | Some (v, os) => Some (mkQ v (q_wait h) (q_other h), [(ev, os)])
                   end
                 else None
  end.
