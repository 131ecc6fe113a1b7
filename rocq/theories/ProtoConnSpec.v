(** Specification vocabulary for the connection library: what its user and the reactor can observe. *)
From Verif Require Import Base ModbusCodecSpec ModbusClientModel UaCodecModel UaTcpModel UaTcpSpec ProtoConnModel.
Local Open Scope Z_scope.

Definition ptrace := list (pev * list pout).
Definition pouts (tr : ptrace) : list pout := concat (map snd tr).

Definition pev_ok (e : pev) : Prop := match e with PvData (RxBytes bs) _ _ => bytes_ok bs | _ => True end.

(** Histories of a connection object; [b0] is any contents of its receive buffer. *)
Inductive preach (role : prole) (b0 : list Z) : pconn -> ptrace -> Prop :=
| pr_new : umem_ok b0 -> preach role b0 (conn0 b0) []
| pr_step c tr e c' os t :
    preach role b0 c tr -> pev_ok e -> p_enabled c e = true -> p_step role e c = Some (c', os, t) ->
    preach role b0 c' (tr ++ [(e, os)]).

(** ** The life of a connection *)
(** An attempt begins when the connection takes a timer.  It is announced as connected at most once, then data may
    follow, then at most one of closed and error (none if the user closed it), and then link and timer are given back. *)
Inductive phase := Idle | Trying | Up | Ending.
Definition phase_next (ph : phase) (o : pout) : option phase :=
  match ph, o with
  | Idle, PTimer => Some Trying
  | Trying, PNote NConnected => Some Up
  | Trying, PNote NError => Some Ending
  | Up, PNote (NData _) => Some Up
  | Up, PNote NClosed | Up, PNote NError => Some Ending
  | Up, PUser KClose => Some Ending
  | Ending, PFreed => Some Idle
  | _, PTimer | _, PFreed | _, PNote _ => None
  | _, _ => Some ph
  end.
Fixpoint phases (ph : phase) (os : list pout) : option phase :=
  match os with [] => Some ph | o :: r => match phase_next ph o with Some p => phases p r | None => None end end.

(** A user who does not close from inside the connected notification and, from inside a closed or error notification, does not
    close and then start anew. *)
Definition starts_anew (o : pout) : Prop := match o with PUser (KConnect _ _ _) | PUser (KAccept _) => True | _ => False end.
Definition mannered (os : list pout) : Prop :=
  forall a n b, os = a ++ PNote n :: b ->
    match n with
    | NConnected => ~ In (PUser KClose) b
    | NData _ => True
    | NClosed | NError => forall b1 b2, b = b1 ++ PUser KClose :: b2 -> forall o, In o b2 -> ~ starts_anew o
    end.
(** Link::connect never fails at once. *)
Definition dials (os : list pout) : Prop := forall l t, ~ In (PUser (KConnect l t false)) os.
(** The reactor never runs out of timers. *)
Definition has_timers (os : list pout) : Prop := forall l k, ~ In (PUser (KConnect l false k)) os /\ ~ In (PUser (KAccept false)) os.

(** The running timeout, from the calls on the timer and its expiry. *)
Definition parm_next (a : option Z) (o : pout) : option Z :=
  match o with PArm us => Some us | PDisarm | PFreed => None | _ => a end.
Definition running (tr : ptrace) : option Z :=
  fold_left (fun a x => fold_left parm_next (snd x) (match fst x with PvTimer _ => None | _ => a end)) tr None.

(** The octets received since the handshake began, the connection was established or the last message was announced. *)
Definition prx_next (w : list Z) (x : pev * list pout) : list Z :=
  match fst x with
  | PvData (RxBytes bs) _ _ =>
      if existsb (fun o => match o with PNote _ => true | _ => false end) (snd x) then [] else w ++ bs
  | _ => if existsb (fun o => match o with PArm _ => true | _ => false end) (snd x) then [] else w
  end.
Definition unread (tr : ptrace) : list Z := fold_left prx_next tr [].

Definition pcount (f : pout -> bool) (os : list pout) : nat := length (filter f os).
Definition is_ptimer (o : pout) := match o with PTimer => true | _ => false end.
Definition is_plink (o : pout) := match o with PLink => true | _ => false end.
Definition is_pfreed (o : pout) := match o with PFreed => true | _ => false end.
Definition is_pthrow (o : pout) := match o with PThrow => true | _ => false end.

(** The packets of the handshake. *)
Definition hello_packet : list Z :=
  [72; 69; 76; 70] ++ le_bytes 4 32 ++ le_bytes 4 0 ++ le_bytes 4 65536 ++ le_bytes 4 65536 ++
  le_bytes 4 65536 ++ le_bytes 4 5000 ++ [255; 255; 255; 255].
Definition rhello_packet : list Z := [82; 72; 69; 70] ++ le_bytes 4 16 ++ [255; 255; 255; 255] ++ [255; 255; 255; 255].
Definition greeting_packet (role : prole) : list Z := match role with RClient => hello_packet | RServer => rhello_packet end.
(** The type of the packet that the peer has to answer with. *)
Definition awaited (role : prole) : list Z := match role with RClient => [65; 67; 75] | RServer => [72; 69; 76] end.
