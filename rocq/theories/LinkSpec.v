(** Descriptor discipline, stated on the system-call trace only. *)
From Verif Require Import Base LinkModel.
Local Open Scope Z_scope.

Fixpoint zremove (f : Z) (l : list Z) : list Z :=
  match l with [] => [] | x :: r => if x =? f then r else x :: zremove f r end.

(** [open] are the descriptors currently open.  The kernel only returns
    descriptors that are not open; given that, every use and every close must
    target an open descriptor (so no use after close and no double close). *)
Fixpoint disciplined (open : list Z) (tr : list sysev) : Prop :=
  match tr with
  | [] => True
  | KOpen f :: r => 0 <= f -> ~ In f open -> disciplined (f :: open) r
  | KUse f :: r => In f open /\ disciplined open r
  | KClose f :: r => In f open /\ disciplined (zremove f open) r
  end.

(** The kernel's part of the bargain. *)
Fixpoint kernel_ok (open : list Z) (tr : list sysev) : Prop :=
  match tr with
  | [] => True
  | KOpen f :: r => 0 <= f /\ ~ In f open /\ kernel_ok (f :: open) r
  | KUse _ :: r => kernel_ok open r
  | KClose f :: r => kernel_ok (zremove f open) r
  end.

Fixpoint open_after (open : list Z) (tr : list sysev) : list Z :=
  match tr with
  | [] => open
  | KOpen f :: r => open_after (f :: open) r
  | KUse _ :: r => open_after open r
  | KClose f :: r => open_after (zremove f open) r
  end.

(** Calls excluded by the partial statement: accepting onto a link that is in
    use, and a failing epoll registration inside accept. *)
Definition accept_clean (l : link) (o : lop) : Prop :=
  match o with LAccept fd fc ep => fd = -1 \/ fc = false \/ (l_fd l = -1 /\ ep = true) | _ => True end.
(** Epoll reports events only for registered, hence open, descriptors. *)
Definition event_clean (l : link) (o : lop) : Prop :=
  match o with LEvent _ _ => l_fd l <> -1 | _ => True end.

Fixpoint clean (w : world) (ops : list (nat * lop)) : Prop :=
  match ops with
  | [] => True
  | (i, o) :: r => accept_clean (w i) o /\ event_clean (w i) o /\
                   clean (w_set w i (fst (fst (link_step (w i) o)))) r
  end.
