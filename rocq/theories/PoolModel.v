(** Model of the three fixed-size object pools.
    - common/reactor/EntityPool.hpp (timers, links, acceptors; ids 0..cap-1)
    - common/ua/common/UaEntityPool.hpp (connections, channels, sessions; ids 1..cap)
    - modbus/server/ModbusSessionPool.cpp (server sessions; ids 0..cap-1)
    All three are the same code up to the first id, which is [p_base] here. *)
From Verif Require Import Base QueueModel.
Local Open Scope Z_scope.

(** Members: EntityPool.hpp:57-58, UaEntityPool.hpp:60-61,
    ModbusSessionPool.hpp:29-30.  The entities are represented by their index in
    the vector [pool]; [p_size] is its length. *)
Record pool := mkPool { p_base : Z; p_size : nat; p_ids : queue Z }.

(** Constructor loop: EntityPool.hpp:22-27, UaEntityPool.hpp:25-30,
    ModbusSessionPool.cpp:10-14. *)
Fixpoint pool_fill (q : queue Z) (uid : Z) (n : nat) : option (queue Z) :=
  match n with
  | O => Some q
  | S k => match q_push q uid with
           | None => None
           | Some q' => pool_fill q' (uid + 1) k
           end
  end.

(** All ids are free, in increasing order. EntityPool.hpp:18-28, UaEntityPool.hpp:21-31, ModbusSessionPool.cpp:7-15. *)
Definition pool_new (base : Z) (cap : nat) : option pool :=
  option_map (mkPool base cap) (pool_fill (q_new cap) base cap).

(** alloc: EntityPool.hpp:32-42, UaEntityPool.hpp:35-45,
    ModbusSessionPool.cpp:21-31.  Outer [None] = undefined behaviour, inner
    [None] = the call returned false. *)
Definition pool_alloc (p : pool) : option (pool * option Z) :=
  if q_empty (p_ids p) then Some (p, None)
  else match q_front (p_ids p), q_pop (p_ids p) with
       | Some uid, Some ids' => Some (mkPool (p_base p) (p_size p) ids', Some uid)
       | _, _ => None
       end.

(** release/free: EntityPool.hpp:44-48, UaEntityPool.hpp:47-51,
    ModbusSessionPool.cpp:33-37. *)
Definition pool_release (p : pool) (uid : Z) : option pool :=
  option_map (mkPool (p_base p) (p_size p)) (q_push (p_ids p) uid).

(** get: EntityPool.hpp:50-53, UaEntityPool.hpp:53-56 ([uid - 1] in uint32),
    ModbusSessionPool.cpp:39-42.  Result: index of the entity; [None] = the
    vector is indexed out of range (undefined behaviour). *)
Definition pool_get (p : pool) (uid : Z) : option nat :=
  let i := u32 (uid - p_base p) in
  if i <? Z.of_nat (p_size p) then Some (Z.to_nat i) else None.
