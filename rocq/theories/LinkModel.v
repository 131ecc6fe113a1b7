(** Model of common/reactor/Link.cpp and Acceptor::accept
    (common/reactor/Acceptor.cpp:114-139).  System-call results are inputs;
    every system call on a socket descriptor is recorded. *)
From Verif Require Import Base.
Local Open Scope Z_scope.

(** Members, Link.hpp:39-40 (fd, handler set or not). *)
Record link := mkLink { l_fd : Z; l_handler : bool }.

(** Constructor, Link.cpp:17-21. *)
Definition link_new : link := mkLink (-1) false.

(** System calls with an effect on descriptors, Link.cpp, in the order they are made. Link.cpp:40-175. *)
Inductive sysev :=
| KOpen (fd : Z)     (* socket() or accept() returned fd *)
| KUse (fd : Z)      (* fcntl, connect, epoll_ctl, read, write *)
| KClose (fd : Z).

(** Results of read(2), Link.cpp:115-133. *)
Inductive rdres := RdAgain | RdErr | RdN (n : Z).

(** Calls on a link, with the results of the system calls they make. LinkInterface.hpp:28-38, Acceptor.hpp:24, Link.hpp:36. *)
Inductive lop :=
| LConnect (sock : Z) (fcntl_ok connect_ok epoll_ok : bool)
| LAccept (fd : Z) (fcntl_ok epoll_ok : bool)
| LClose
| LRelease
| LSetHandler (b : bool)
| LSend (wr : Z)
| LReceive (rd : rdres)
| LEvent (events : Z) (mod_ok : bool).

(** LinkEvent, LinkHandler.hpp:8-13. *)
Inductive levent := LevData | LevConnected | LevError.
(** The status of a LinkResult, common/reactor/LinkInterface.hpp:13-19. *)
Inductive lstatus := LrOk | LrNa | LrError | LrClosed.

(** Result of a call: normal return, exception, value, handler called. LinkInterface.hpp:28-38. *)
Inductive lret :=
| RetUnit
| RetThrow
| RetSend (v : Z)
| RetRecv (s : lstatus) (len : Z)
| RetNotify (e : levent).

(** close, Link.cpp:76-93. *)
Definition link_close (l : link) : link * list sysev :=
  if l_fd l =? -1 then (l, [])
  else (mkLink (-1) (l_handler l), [KUse (l_fd l); KClose (l_fd l)]).

(** EPOLLIN and EPOLLOUT of <sys/epoll.h>. Model only. *)
Definition EPOLLIN : Z := 1.
(** <sys/epoll.h>. Model only. *)
Definition EPOLLOUT : Z := 4.

Definition link_step (l : link) (o : lop) : link * list sysev * lret :=
  match o with
  (* connect, Link.cpp:40-74 *)
  | LConnect sock fcntl_ok connect_ok epoll_ok =>
      if negb (l_fd l =? -1) then (l, [], RetThrow)
      else if sock =? -1 then (mkLink (-1) (l_handler l), [], RetThrow)
      else if negb fcntl_ok then (mkLink (-1) (l_handler l), [KOpen sock; KUse sock; KClose sock], RetThrow)
      else if negb connect_ok then
        (mkLink (-1) (l_handler l), [KOpen sock; KUse sock; KUse sock; KClose sock], RetThrow)
      else if negb epoll_ok then
        (mkLink (-1) (l_handler l), [KOpen sock; KUse sock; KUse sock; KUse sock; KClose sock], RetThrow)
      else (mkLink sock (l_handler l), [KOpen sock; KUse sock; KUse sock; KUse sock], RetUnit)
  (* Acceptor::accept, Acceptor.cpp:114-139, with Link::setFileDescriptor,
     Link.cpp:31-38 *)
  | LAccept fd fcntl_ok epoll_ok =>
      if fd =? -1 then (l, [], RetThrow)
      else if negb fcntl_ok then (l, [KOpen fd; KUse fd; KClose fd], RetThrow)
      else if negb (l_fd l =? -1) then (l, [KOpen fd; KUse fd], RetThrow)
      else if negb epoll_ok then
        (* ::close(fd), then setFileDescriptor(-1) throws because fd is set *)
        (mkLink fd (l_handler l), [KOpen fd; KUse fd; KUse fd; KClose fd], RetThrow)
      else (mkLink fd (l_handler l), [KOpen fd; KUse fd; KUse fd], RetUnit)
  (* close, Link.cpp:76-93 *)
  | LClose => let '(l', ev) := link_close l in (l', ev, RetUnit)
  (* release, Link.cpp:95-99 *)
  | LRelease => let '(l', ev) := link_close l in (mkLink (l_fd l') false, ev, RetUnit)
  (* setHandler, Link.cpp:135-138 *)
  | LSetHandler b => (mkLink (l_fd l) b, [], RetUnit)
  (* send, Link.cpp:101-113; [wr] is the result of write() *)
  | LSend wr =>
      if l_fd l =? -1 then (l, [], RetSend (-1))
      else (l, [KUse (l_fd l)], RetSend (if wr =? -1 then -1 else 1))
  (* receive, Link.cpp:115-133 *)
  | LReceive rd =>
      if l_fd l =? -1 then (l, [], RetRecv LrError 0)
      else (l, [KUse (l_fd l)],
            match rd with
            | RdAgain => RetRecv LrNa 0
            | RdErr => RetRecv LrError 0
            | RdN n => RetRecv LrOk n
            end)
  (* onFileDescriptorEvent, Link.cpp:140-175 *)
  | LEvent events mod_ok =>
      if negb (l_handler l) then (l, [], RetUnit)
      else if events =? EPOLLIN then (l, [], RetNotify LevData)
      else if events =? EPOLLOUT then
        if mod_ok then (l, [KUse (l_fd l)], RetNotify LevConnected)
        else let '(l', ev) := link_close l in (l', KUse (l_fd l) :: ev, RetNotify LevError)
      else let '(l', ev) := link_close l in (l', ev, RetNotify LevError)
  end.

(** All links of the process; calls are interleaved arbitrarily. Model only. *)
Definition world := nat -> link.
(** No link has been used yet. Model only. *)
Definition w_new : world := fun _ => link_new.
(** Updating one link (model only). *)
Definition w_set (w : world) (i : nat) (l : link) : world :=
  fun j => if Nat.eqb j i then l else w j.

(** A sequence of calls on the links (model only). *)
Fixpoint w_run (w : world) (ops : list (nat * lop)) : world * list sysev :=
  match ops with
  | [] => (w, [])
  | (i, o) :: r =>
      let '(l', ev, _) := link_step (w i) o in
      let '(w', evs) := w_run (w_set w i l') r in (w', ev ++ evs)
  end.
