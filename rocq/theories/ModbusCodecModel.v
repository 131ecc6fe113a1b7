(** Model of modbus/PduBuffer.hpp, modbus/ModbusDefs.hpp, modbus/ModbusCodec.cpp,
    client/AduRequest.hpp and client/AduRespond.hpp.

    A buffer is the list of its [maxLen] octets together with the read position
    [pos] and the fill level [len].  Octets that were never written are
    arbitrary.  Log statements are omitted. *)
From Verif Require Import Base.
Local Open Scope Z_scope.

(** PduBuffer.hpp:13. *)
Definition bufMaxLen : Z := 512.
(** ModbusDefs.hpp:7. *)
Definition modbusProtocolId : Z := 0.
(** ModbusDefs.hpp:11. *)
Definition maxPduLen : Z := 253.
(** ModbusDefs.hpp:16. *)
Definition maxAduLen : Z := 260.
(** ModbusDefs.hpp:18. *)
Definition maxAddr : Z := 247.
(** ModbusCodec.hpp:38-41. *)
Definition aduHdrLen : Z := 6.

(** common/msg/types/ModbusFunction.hpp:8-18.  The enumeration has a fixed
    underlying type uint8_t and is produced by a plain cast
    (common/utils/MsgUtils.hpp:9-12), so every octet is a possible value. *)
Definition readCoilStatus : Z := 1.
(** ModbusFunction.hpp:8-18. *)
Definition readDiscreteInputs : Z := 2.
(** ModbusFunction.hpp:8-18. *)
Definition readHoldingRegisters : Z := 3.
(** ModbusFunction.hpp:8-18. *)
Definition readInputRegisters : Z := 4.
(** ModbusFunction.hpp:8-18. *)
Definition forceSingleCoil : Z := 5.
(** ModbusFunction.hpp:8-18. *)
Definition presetSingleRegister : Z := 6.
(** ModbusFunction.hpp:8-18. *)
Definition presetMultipleRegisters : Z := 16.
(** ModbusFunction.hpp:8-18. *)
Definition modbusErrorFn : Z := 143.

(** The four shapes the [switch] statements of the codec distinguish. E.g. ModbusCodec.cpp:24-25. *)
Definition is_read_bits (f : Z) : bool := (f =? readCoilStatus) || (f =? readDiscreteInputs).
(** Labels that share a case in the switches of ModbusCodec.cpp, e.g. lines 32-33. *)
Definition is_read_regs (f : Z) : bool := (f =? readHoldingRegisters) || (f =? readInputRegisters).
(** Labels shared by the cases that write one item. E.g. ModbusCodec.cpp:26-27. *)
Definition is_single (f : Z) : bool := (f =? forceSingleCoil) || (f =? presetSingleRegister).
(** The case that writes several registers. E.g. ModbusCodec.cpp:34. *)
Definition is_multi (f : Z) : bool := f =? presetMultipleRegisters.

(** toUint8(ModbusError), ModbusError.hpp:22-40: unknown values become 255. *)
Definition error_to_u8 (e : Z) : Z :=
  if (0 <=? e) && (e <=? 8) || (e =? 10) || (e =? 11) then e else 255.

(** AduRequest.hpp:13-27 (clientId is carried by the client model).  [q_data] is the
    storage that the data pointer addresses, [] for a null pointer. *)
Record adu_req := mkReq {
  q_tid : Z;       (* unsigned, 32 bit *)
  q_func : Z;      (* uint8_t *)
  q_addr : Z;      (* uint16_t *)
  q_start : Z;     (* uint16_t *)
  q_nitems : Z;    (* uint16_t *)
  q_nbytes : Z;    (* uint16_t *)
  q_data : list Z
}.

(** AduRespond.hpp:14-24; [a_data] has [maxAduLen] octets. *)
Record adu_rsp := mkRsp {
  a_tid : Z; a_func : Z; a_addr : Z; a_error : Z;
  a_start : Z; a_nitems : Z; a_nbytes : Z; a_data : list Z
}.

(** pduLen, ModbusCodec.cpp:20-45 (the result of the default case is [false],
    i.e. 0). *)
Definition pduLen (f n : Z) : Z :=
  if is_read_bits f || is_single f then 2 + (n + 7) / 8
  else if is_read_regs f || is_multi f then 2 + n * 2
  else 0.

(** PduBuffer::write, PduBuffer.hpp:55-58, and writeBe, 60-64. *)
Definition wr (ch : Z) : list Z := [u8 ch].
(** writeBe, PduBuffer.hpp:60-64. *)
Definition wrBe (ch : Z) : list Z := [u8 (ch / 256); u8 ch].

(** The swapping copy loops, ModbusCodec.cpp:143-147 and 275-279:
    [k] iterations starting at index [i]; reading [data] outside its storage is
    [None]. *)
Fixpoint wr_pairs (k i : nat) (data : list Z) : option (list Z) :=
  match k with
  | O => Some []
  | S k' =>
      match nth_error data (S i), nth_error data i with
      | Some hi, Some lo =>
          match wr_pairs k' (S (S i)) data with
          | Some r => Some (wr hi ++ wr lo ++ r)
          | None => None
          end
      | _, _ => None
      end
  end.

(** Number of iterations of [for (i = 0; i < n; i += 2)]. The loops over registers of ModbusCodec.cpp. *)
Definition pairs (n : Z) : nat := Z.to_nat ((n + 1) / 2).

(** Outcome of an encode call on an empty buffer. Model only. *)
Inductive enc :=
| EncOk (bs : list Z)     (* returned true; bs = buffer contents *)
| EncFail (bs : list Z)   (* returned false *)
| EncOverflow             (* wrote outside the 512-octet buffer *)
| EncBadRead.             (* read outside adu.data *)

(** Append to the buffer; the writes happen octet by octet, so the buffer is
    overrun exactly when the total exceeds its length. PduBuffer.hpp:55-64. *)
Definition finish (o : option (list Z)) : enc :=
  match o with
  | None => EncBadRead
  | Some bs =>
      if bufMaxLen <? Z.of_nat (length bs) then EncOverflow
      else if maxAduLen <? Z.of_nat (length bs) then EncFail bs   (* 156-160, 328-332 *)
      else EncOk bs
  end.

(** The check at ModbusCodec.cpp:110 and 292 on data[1] and data[0]. *)
Definition coil_ok (f d0 d1 : Z) : bool :=
  negb (f =? forceSingleCoil) || ((d1 =? 0) && ((d0 =? 0) || (d0 =? 255))).

(** encode(AduRequest const&), ModbusCodec.cpp:67-162. *)
Definition encode_req (q : adu_req) : enc :=
  if negb (q_addr q <=? maxAddr) then EncFail []
  else if is_read_bits (q_func q) || is_read_regs (q_func q) then
    if maxPduLen <? pduLen (q_func q) (q_nitems q) then EncFail []
    else finish (Some (wrBe (q_tid q) ++ wrBe modbusProtocolId ++ wrBe 6 ++ wr (q_addr q) ++
                       wr (q_func q) ++ wrBe (q_start q) ++ wrBe (q_nitems q)))
  else if is_single (q_func q) then
    if negb (q_nitems q =? 0) then EncFail []
    else if negb (q_nbytes q =? 2) then EncFail []
    else match nth_error (q_data q) 1, nth_error (q_data q) 0 with
         | Some d1, Some d0 =>
             if coil_ok (q_func q) d0 d1 then
               finish (Some (wrBe (q_tid q) ++ wrBe modbusProtocolId ++ wrBe 6 ++ wr (q_addr q) ++
                             wr (q_func q) ++ wrBe (q_start q) ++ wr d1 ++ wr d0))
             else EncFail []
         | _, _ => EncBadRead
         end
  else if is_multi (q_func q) then
    if negb (q_nbytes q =? q_nitems q * 2) then EncFail []
    else finish (match wr_pairs (pairs (q_nbytes q)) 0 (q_data q) with
                 | Some ps => Some (wrBe (q_tid q) ++ wrBe modbusProtocolId ++ wrBe (7 + q_nbytes q) ++
                                    wr (q_addr q) ++ wr (q_func q) ++ wrBe (q_start q) ++ wrBe (q_nitems q) ++
                                    wr (q_nbytes q) ++ ps)
                 | None => None
                 end)
  else EncFail [].

(** encode(AduRespond const&), ModbusCodec.cpp:247-334. *)
Definition encode_rsp (a : adu_rsp) : enc :=
  if a_func a =? modbusErrorFn then
    finish (Some (wrBe (a_tid a) ++ wrBe modbusProtocolId ++ wrBe 3 ++ wr (a_addr a) ++ wr (a_func a) ++
                  wr (error_to_u8 (a_error a))))
  else if is_read_regs (a_func a) then
    let h := wrBe (a_tid a) ++ wrBe modbusProtocolId ++ wrBe (3 + a_nbytes a) ++ wr (a_addr a) ++
             wr (a_func a) ++ wr (a_nbytes a) in
    if negb (a_nbytes a mod 2 =? 0) then EncFail h
    else finish (match wr_pairs (pairs (a_nbytes a)) 0 (a_data a) with
                 | Some ps => Some (h ++ ps)
                 | None => None
                 end)
  else if is_single (a_func a) then
    if negb (a_nbytes a =? 2) then EncFail []
    else match nth_error (a_data a) 1, nth_error (a_data a) 0 with
         | Some d1, Some d0 =>
             if coil_ok (a_func a) d0 d1 then
               finish (Some (wrBe (a_tid a) ++ wrBe modbusProtocolId ++ wrBe 6 ++ wr (a_addr a) ++
                             wr (a_func a) ++ wrBe (a_start a) ++ wr d1 ++ wr d0))
             else EncFail []
         | _, _ => EncBadRead
         end
  else if is_multi (a_func a) then
    finish (Some (wrBe (a_tid a) ++ wrBe modbusProtocolId ++ wrBe 6 ++ wr (a_addr a) ++
                  wr (a_func a) ++ wrBe (a_start a) ++ wrBe (a_nitems a)))
  else EncFail [].

(** Outcome of a decode call; [rest] are the octets of the 512-octet buffer that
    were not read (so the read position is 512 - length rest). Model only. *)
Inductive dec (A : Type) :=
| DOk (a : A) (rest : list Z)
| DFail (rest : list Z)        (* returned false *)
| DUB.                         (* read past the buffer or wrote past adu.data *)
Arguments DOk {A}. Arguments DFail {A}. Arguments DUB {A}.

(** PduBuffer::read, PduBuffer.hpp:36-39, and readBe, 48-53, in
    continuation-passing form. *)
Definition rd {A} (r : list Z) (k : Z -> list Z -> dec A) : dec A :=
  match r with b :: r' => k b r' | [] => DUB end.
(** readBe, PduBuffer.hpp:48-53. *)
Definition rdBe {A} (r : list Z) (k : Z -> list Z -> dec A) : dec A :=
  rd r (fun h r => rd r (fun l r => k (h * 256 + l) r)).

(** The swapping read loops, ModbusCodec.cpp:230-234 and 369-373.  [None] is an
    access outside the source buffer or the destination. *)
Fixpoint rd_pairs (k i : nat) (data r : list Z) : option (list Z * list Z) :=
  match k with
  | O => Some (data, r)
  | S k' =>
      match r with
      | hi :: lo :: r' =>
          if (S i <? length data)%nat
          then rd_pairs k' (S (S i)) (upd (upd data (S i) hi) i lo) r'
          else None
      | _ => None
      end
  end.

(** decode(AduRequest&), ModbusCodec.cpp:164-245.  [q0] is the caller's record
    before the call; fields that are not assigned keep their value. *)
Definition decode_req (buf : list Z) (q0 : adu_req) : dec adu_req :=
  rdBe buf (fun tid r => rdBe r (fun proto r =>
  if negb (proto =? modbusProtocolId) then DFail r else
  rdBe r (fun pktLen r => rd r (fun addr r =>
  if negb (addr <=? maxAddr) then DFail r else
  rd r (fun func r =>
  if is_read_bits func || is_read_regs func then
    if negb (pktLen =? 6) then DFail r else
    rdBe r (fun start r => rdBe r (fun n r =>
    if maxPduLen <? pduLen func n then DFail r
    else DOk (mkReq tid func addr start n (q_nbytes q0) (q_data q0)) r))
  else if is_single func then
    if negb (pktLen =? 6) then DFail r else
    rdBe r (fun start r => rd r (fun d1 r => rd r (fun d0 r =>
    if (1 <? length (q_data q0))%nat
    then DOk (mkReq tid func addr start (q_nitems q0) 2 (upd (upd (q_data q0) 1 d1) 0 d0)) r
    else DUB)))
  else if is_multi func then
    rdBe r (fun start r => rdBe r (fun n r => rd r (fun nb r =>
    if negb (nb =? n * 2) then DFail r else
    if negb (pktLen =? 7 + nb) then DFail r else
    match rd_pairs (pairs nb) 0 (q_data q0) r with
    | Some (data, r) => DOk (mkReq tid func addr start n nb data) r
    | None => DUB
    end)))
  else DFail r))))).

(** decode(AduRespond&), ModbusCodec.cpp:336-409. *)
Definition decode_rsp (buf : list Z) (a0 : adu_rsp) : dec adu_rsp :=
  rdBe buf (fun tid r => rdBe r (fun proto r =>
  if negb (proto =? modbusProtocolId) then DFail r else
  rdBe r (fun pktLen r => rd r (fun addr r => rd r (fun func r =>
  if func =? modbusErrorFn then
    rd r (fun e r => DOk (mkRsp tid func addr e (a_start a0) (a_nitems a0) (a_nbytes a0) (a_data a0)) r)
  else if is_read_regs func then
    rd r (fun nb r =>
    if negb (pktLen =? nb + 3) then DFail r else
    if negb (nb mod 2 =? 0) then DFail r else
    match rd_pairs (pairs nb) 0 (a_data a0) r with
    | Some (data, r) => DOk (mkRsp tid func addr (a_error a0) (a_start a0) (a_nitems a0) nb data) r
    | None => DUB
    end)
  else if is_single func then
    if negb (pktLen =? 6) then DFail r else
    rdBe r (fun start r => rd r (fun d1 r => rd r (fun d0 r =>
    if (1 <? length (a_data a0))%nat
    then DOk (mkRsp tid func addr (a_error a0) start (a_nitems a0) 2 (upd (upd (a_data a0) 1 d1) 0 d0)) r
    else DUB)))
  else if is_multi func then
    if negb (pktLen =? 6) then DFail r else
    rdBe r (fun start r => rdBe r (fun n r =>
    DOk (mkRsp tid func addr (a_error a0) start n (a_nbytes a0) (a_data a0)) r))
  else DFail r))))).

(** aduPktLen, ModbusCodec.cpp:13-18, of the first octets of the buffer. *)
Definition aduPktLen (buf : list Z) : Z := nth 4 buf 0 * 256 + nth 5 buf 0.

(** The framing predicates, ModbusCodec.cpp:47-65; [len] is buf.size(). *)
Definition isAduHdrReceived (len : Z) : bool := aduHdrLen <=? len.
(** ModbusCodec.cpp:47-65. *)
Definition isAduReceived (buf : list Z) (len : Z) : bool := aduPktLen buf <=? len.
(** ModbusCodec.cpp:47-65. *)
Definition isAduDataLenValid (buf : list Z) : bool := aduPktLen buf + aduHdrLen <? maxAduLen.
(** ModbusCodec.cpp:47-65. *)
Definition isAduValid (buf : list Z) (len : Z) : bool :=
  (len <? maxAduLen) && (aduPktLen buf + aduHdrLen =? len).

(** The order in which both receivers apply them: client/ModbusClient.cpp:112-135 and
    server/session/ModbusSession.cpp receive(). *)
Inductive framing := FrWait | FrBadLength | FrInvalid | FrComplete.
(** ModbusClient.cpp:112-135, ModbusSession.cpp:108-128. *)
Definition frame_check (buf : list Z) (len : Z) : framing :=
  if negb (isAduHdrReceived len) then FrWait
  else if negb (isAduDataLenValid buf) then FrBadLength
  else if negb (isAduReceived buf len) then FrWait
  else if negb (isAduValid buf len) then FrInvalid
  else FrComplete.
