(** Model of common/reactor/MsgMemStorage.{hpp,cpp} at byte level.
    The mutex makes push and pop atomic; each is one function here. *)
From Verif Require Import Base QueueModel.
Local Open Scope Z_scope.

(** Memory behind the aligned pointer [ptr]: contents plus the number of
    bytes available, MsgMemStorage.cpp:14-18.  [malloc(totalMem + 15)] aligned
    up leaves [totalMem + slack] bytes with 0 <= slack <= 15; the slack depends on
    the allocator and is a parameter. *)
Definition memory := Z -> Z.

(** memcpy into the memory. MsgMemStorage.cpp:44. *)
Definition write_bytes (m : memory) (a : Z) (bs : list Z) : memory :=
  fun x => if (a <=? x) && (x <? a + Z.of_nat (length bs))
           then nth (Z.to_nat (x - a)) bs 0 else m x.

(** memcpy out of the memory. MsgMemStorage.cpp:60. *)
Definition read_bytes (m : memory) (a : Z) (n : nat) : list Z :=
  map (fun i => m (a + Z.of_nat i)) (seq 0 n).

(** Members: MsgMemStorage.hpp:30-37.  Slot ids are [unsigned] (kept as Z). *)
Record storage := mkSt {
  s_chunk : Z;
  s_num : nat;
  s_ext : Z;
  s_mem : memory;
  s_free : queue Z;
  s_busy : queue Z
}.

(** Constructor, MsgMemStorage.cpp:8-24.  [m0] is the indeterminate initial
    memory.  Loop of lines 20-23; [push(i)] converts size_t to unsigned. *)
Fixpoint st_fill (q : queue Z) (i : Z) (n : nat) : option (queue Z) :=
  match n with
  | O => Some q
  | S k => match q_push q (u32 i) with
           | None => None
           | Some q' => st_fill q' (i + 1) k
           end
  end.

(** MsgMemStorage.cpp:8-24. *)
Definition st_new (chunk : Z) (num : nat) (slack : Z) (m0 : memory) : option storage :=
  option_map (fun f => mkSt chunk num (chunk * Z.of_nat num + slack) m0 f (q_new num))
             (st_fill (q_new num) 0 num).

(** get, MsgMemStorage.cpp:64-67: offset of slot [id] from [ptr] (chunkSize is
    size_t, so the product is 64-bit). *)
Definition st_get (s : storage) (id : Z) : Z := u64 (s_chunk s * id).

(** push, MsgMemStorage.cpp:31-46.  [data]: the message bytes (its length is
    the [len] argument).  Outer [None]: undefined behaviour (access outside the
    allocation or a broken queue); the boolean is the returned value.  The
    [Item] layout (hpp:23-27) is 8 bytes of length then the data. *)
Definition st_push (s : storage) (data : list Z) : option (storage * bool) :=
  if q_empty (s_free s) then Some (s, false)
  else match q_front (s_free s), q_pop (s_free s) with
       | Some id, Some free' =>
           match q_push (s_busy s) id with
           | Some busy' =>
               let a := st_get s id in
               let len := Z.of_nat (length data) in
               if a + 8 + len <=? s_ext s then
                 let m1 := write_bytes (s_mem s) a (le_bytes 8 len) in
                 let m2 := write_bytes m1 (a + 8) data in
                 Some (mkSt (s_chunk s) (s_num s) (s_ext s) m2 free' busy', true)
               else None
           | None => None
           end
       | _, _ => None
       end.

(** pop, MsgMemStorage.cpp:48-62.  [dst] is the size of the caller's buffer
    (Reactor.cpp:142: maxMsgSize); copying more is undefined behaviour. *)
Definition st_pop (s : storage) (dst : Z) : option (storage * option (list Z)) :=
  if q_empty (s_busy s) then Some (s, None)
  else match q_front (s_busy s), q_pop (s_busy s) with
       | Some id, Some busy' =>
           match q_push (s_free s) id with
           | Some free' =>
               let a := st_get s id in
               let len := le_val (read_bytes (s_mem s) a 8) in
               if (a + 8 + len <=? s_ext s) && (len <=? dst) then
                 Some (mkSt (s_chunk s) (s_num s) (s_ext s) (s_mem s) free' busy',
                       Some (read_bytes (s_mem s) (a + 8) (Z.to_nat len)))
               else None
           | None => None
           end
       | _, _ => None
       end.

(** A sequence of calls. MsgMemStorage.hpp:18-20. *)
Inductive sop := SPush (data : list Z) | SPop.
(** What the calls return, MsgMemStorage.hpp. Lines 18-20. *)
Inductive sout := SAccepted (b : bool) | STaken (r : option (list Z)).

(** One call, MsgMemStorage.cpp:31-62. *)
Definition st_step (dst : Z) (s : storage) (o : sop) : option (storage * sout) :=
  match o with
  | SPush d => option_map (fun '(s', b) => (s', SAccepted b)) (st_push s d)
  | SPop => option_map (fun '(s', r) => (s', STaken r)) (st_pop s dst)
  end.

(** Several calls (model only). *)
Fixpoint st_run (dst : Z) (s : storage) (os : list sop) : option (storage * list sout) :=
  match os with
  | [] => Some (s, [])
  | o :: r => match st_step dst s o with
              | None => None
              | Some (s1, out) =>
                  match st_run dst s1 r with
                  | None => None
                  | Some (s2, outs) => Some (s2, out :: outs)
                  end
              end
  end.
