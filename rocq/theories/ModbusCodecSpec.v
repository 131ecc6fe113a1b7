(** Specification vocabulary for the Modbus codec: field ranges, what a peer may
    rely on.  Independent of how the codec works. *)
From Verif Require Import Base ModbusCodecModel.
Local Open Scope Z_scope.

Definition is_u16 (z : Z) : Prop := 0 <= z < 65536.
Definition is_u32 (z : Z) : Prop := 0 <= z < 4294967296.

(** Ranges imposed by the C++ field types; the data pointer addresses at least
    [nbytes] octets. *)
Definition req_ok (q : adu_req) : Prop :=
  is_u32 (q_tid q) /\ is_byte (q_func q) /\ is_u16 (q_addr q) /\ is_u16 (q_start q) /\
  is_u16 (q_nitems q) /\ is_u16 (q_nbytes q) /\ bytes_ok (q_data q) /\
  q_nbytes q <= Z.of_nat (length (q_data q)).

Definition rsp_ok (a : adu_rsp) : Prop :=
  is_u32 (a_tid a) /\ is_byte (a_func a) /\ is_u16 (a_addr a) /\ is_byte (a_error a) /\ is_u16 (a_start a) /\
  is_u16 (a_nitems a) /\ is_u16 (a_nbytes a) /\ bytes_ok (a_data a) /\
  a_nbytes a <= Z.of_nat (length (a_data a)).

(** [d] starts with the first [n] octets of [d']. *)
Definition same_prefix (n : Z) (d d' : list Z) : Prop :=
  firstn (Z.to_nat n) d = firstn (Z.to_nat n) d'.

(** What the receiver of a request must see. *)
Definition req_received (q q' : adu_req) : Prop :=
  q_tid q' = q_tid q mod 65536 /\ q_func q' = q_func q /\ q_addr q' = q_addr q /\ q_start q' = q_start q /\
  (In (q_func q) [1; 2; 3; 4; 16] -> q_nitems q' = q_nitems q) /\
  (In (q_func q) [5; 6; 16] -> q_nbytes q' = q_nbytes q /\ same_prefix (q_nbytes q) (q_data q') (q_data q)).

(** What the receiver of a response must see. *)
Definition rsp_received (a a' : adu_rsp) : Prop :=
  a_tid a' = a_tid a mod 65536 /\ a_func a' = a_func a /\ a_addr a' = a_addr a mod 256 /\
  (a_func a = 143 -> In (a_error a) [0; 1; 2; 3; 4; 5; 6; 7; 8; 10; 11; 255] -> a_error a' = a_error a) /\
  (In (a_func a) [5; 6; 16] -> a_start a' = a_start a) /\
  (a_func a = 16 -> a_nitems a' = a_nitems a) /\
  (In (a_func a) [3; 4; 5; 6] -> a_nbytes a' = a_nbytes a /\ same_prefix (a_nbytes a) (a_data a') (a_data a)).

(** Modbus/TCP header of a frame: protocol id 0 and a length field counting
    the octets after it, at most 260 octets in total. *)
Definition wf_frame (bs : list Z) : Prop :=
  bytes_ok bs /\ 8 <= Z.of_nat (length bs) <= 260 /\
  exists t1 t2 l1 l2 body, bs = t1 :: t2 :: 0 :: 0 :: l1 :: l2 :: body /\
    l1 * 256 + l2 = Z.of_nat (length body).

(** A receiver that gets a frame in segments applies the framing checks after
    each of them until they ask for something other than more data. *)
Fixpoint feed (acc : list Z) (segs : list (list Z)) : framing :=
  match segs with
  | [] => FrWait
  | s :: r =>
      match frame_check (acc ++ s) (Z.of_nat (length (acc ++ s))) with
      | FrWait => feed (acc ++ s) r
      | x => x
      end
  end.
