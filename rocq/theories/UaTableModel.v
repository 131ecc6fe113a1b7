(** Model of the service table of the OPC UA services: the map from type numbers to services in UaService
    (ua/service/UaService.hpp:33, UaService.cpp:23-26, 50-59). *)
From Verif Require Import Base.
Local Open Scope Z_scope.

(** The services: UaGetEndpoints, UaCreateSession, UaActivateSession, UaCloseSession, UaRead.  UaDiscoveryService.cpp:18,
    UaSessionService.cpp:22-24, UaAttributeService.cpp:23. *)
Inductive service := VEndpoints | VCreate | VActivate | VClose | VRead.

(** [std::map<DataTypeId, UaServiceInterfacePtr>], UaService.hpp:33; [None]: the null pointer.  Simplified: the order of
    the entries, which nothing depends on. *)
Definition table := list (Z * option service).

(** operator[] of the map: the entry's pointer; a missing entry is added, null.  UaService.cpp:25, 52. *)
Fixpoint tbl_find (t : table) (k : Z) : option (option service) :=
  match t with [] => None | (a, s) :: r => if a =? k then Some s else tbl_find r k end.
(** UaService.cpp:25, 52. *)
Definition tbl_index (t : table) (k : Z) : table * option service :=
  match tbl_find t k with Some s => (t, s) | None => (t ++ [(k, None)], None) end.
(** Assignment through the reference operator[] returned. UaService.cpp:25. *)
Fixpoint tbl_put (t : table) (k : Z) (s : service) : table :=
  match t with [] => [] | (a, x) :: r => if a =? k then (a, Some s) :: r else (a, x) :: tbl_put r k s end.
(** subscribeService, UaService.cpp:23-26. *)
Definition tbl_subscribe (t : table) (k : Z) (s : service) : table := tbl_put (fst (tbl_index t k)) k s.
(** The constructor, UaService.cpp:14-16: UaDiscoveryService.cpp:16-19, UaSessionService.cpp:20-25, UaAttributeService.cpp:21-24;
    numbers: DataType.hpp:45-57. *)
Definition tbl_new : table :=
  tbl_subscribe (tbl_subscribe (tbl_subscribe (tbl_subscribe (tbl_subscribe [] 428 VEndpoints) 461 VCreate) 473 VClose) 467 VActivate) 631 VRead.
(** The look-up for a request with number [id], UaService.cpp:50-53: the cast to DataTypeId keeps 16 bits (DataType.hpp:15). *)
Definition tbl_ind (t : table) (id : Z) : table * option service := tbl_index t (u16 id).
