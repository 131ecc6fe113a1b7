(** Model of the OPC UA binary codec: common/ua/common/OpcUaSduBuffer.cpp,
    OpcUaBinaryCodec.cpp/.hpp and the types they serialise (common/ua/common/types, msg). *)
From Verif Require Import Base.
Local Open Scope Z_scope.

(** ** Two's complement conversions to the signed types (C++ integral conversion). *)
(** Model only. *)
Definition s8 (z : Z) : Z := if u8 z <? 128 then u8 z else u8 z - 256.
(** Conversion to [std::int16_t]. Model only. *)
Definition s16 (z : Z) : Z := if u16 z <? 32768 then u16 z else u16 z - 65536.
(** Conversion to [std::int32_t]. Model only. *)
Definition s32 (z : Z) : Z := if u32 z <? 2147483648 then u32 z else u32 z - 4294967296.
(** Conversion to [std::int64_t]. Model only. *)
Definition s64 (z : Z) : Z :=
  if u64 z <? 9223372036854775808 then u64 z else u64 z - 18446744073709551616.

(** ** The packet buffer (OpcUaSduBuffer.hpp 36-43): read cursor, write cursor, storage.
    The storage is a [std::array] of 4096 octets; the model takes its bound from the list. *)
Record sdu := mkSdu { k_tail : nat; k_head : nat; k_pkt : list Z }.
(** OpcUaSduBuffer.hpp 38 *)
Definition maxPacketLen : Z := 4096.
(** OpcUaSduBuffer.cpp 17-21.  [None]: a write outside the array. *)
Definition write (v : Z) (b : sdu) : option sdu :=
  if (k_head b <? length (k_pkt b))%nat then Some (mkSdu (k_tail b) (S (k_head b)) (upd (k_pkt b) (k_head b) (u8 v)))
  else None.

(** Outcome of decoding: a value and the buffer; a catchable exception; a bare [throw]
    without active exception, i.e. [std::terminate]; a read outside the array. Model only. *)
Inductive dres (A : Type) := DOk (a : A) (b : sdu) | DThrow | DAbort | DOob.
Arguments DOk {A}. Arguments DThrow {A}. Arguments DAbort {A}. Arguments DOob {A}.
(** The type of a decoding operation: a function of the buffer. Model only. *)
Definition rd (A : Type) := sdu -> dres A.
(** Decoding nothing (model only). *)
Definition ret {A} (a : A) : rd A := fun b => DOk a b.
(** Decoding one thing after the other; an exception ends it (model only: C++ sequencing). *)
Definition bind {A B} (m : rd A) (k : A -> rd B) : rd B :=
  fun b => match m b with DOk a b' => k a b' | DThrow => DThrow | DAbort => DAbort | DOob => DOob end.
(** Notation for [bind]. *)
Notation "'do' x <- m ; k" := (bind m (fun x => k)) (at level 200, x name, m at level 100, k at level 200).
(** OpcUaSduBuffer.cpp 23-29: no check against the write cursor. *)
Definition read : rd Z := fun b =>
  match nth_error (k_pkt b) (k_tail b) with
  | Some v => DOk v (mkSdu (S (k_tail b)) (k_head b) (k_pkt b))
  | None => DOob
  end.
(** [*begin()], OpcUaSduBuffer.cpp 31-34: the octet at the read cursor. *)
Definition peek : rd Z := fun b =>
  match nth_error (k_pkt b) (k_tail b) with Some v => DOk v b | None => DOob end.

(** The type of an encoding operation; [None]: a write outside the array. Model only. *)
Definition wr := sdu -> option sdu.
(** Encoding nothing (model only). *)
Definition nop : wr := fun b => Some b.
(** Encoding one thing after the other (model only: C++ sequencing). *)
Definition seq2 (a c : wr) : wr := fun b => match a b with Some b' => c b' | None => None end.
(** Notation for [seq2]. *)
Notation "a ;; b" := (seq2 a b) (at level 90, right associativity).

(** ** Numeric types *)
(** OpcUaBinaryCodec.cpp 38-48 *)
Definition dec_bool : rd bool := do v <- read; ret (negb (v =? 0)).
(** OpcUaBinaryCodec.cpp 44-48 *)
Definition enc_bool (v : bool) : wr := write (if v then 1 else 0).
(** OpcUaBinaryCodec.cpp 50-60 *)
Definition dec_sbyte : rd Z := do v <- read; ret (s8 v).
(** OpcUaBinaryCodec.cpp 56-60 *)
Definition enc_sbyte (v : Z) : wr := write v.
(** OpcUaBinaryCodec.cpp 62-72 *)
Definition dec_byte : rd Z := read.
(** OpcUaBinaryCodec.cpp 68-72 *)
Definition enc_byte (v : Z) : wr := write v.
(** The expression [hh << 8 | ll] and its wider variants. OpcUaBinaryCodec.cpp 74-102. *)
Definition or16 (l h : Z) : Z := Z.lor (Z.shiftl h 8) l.
(** The same with four octets, OpcUaBinaryCodec.cpp 104-131. *)
Definition or32 (a b c d : Z) : Z := Z.lor (Z.lor (Z.lor (Z.shiftl d 24) (Z.shiftl c 16)) (Z.shiftl b 8)) a.
(** The same with eight octets, OpcUaBinaryCodec.cpp 142-181. *)
Definition or64 (a b c d e f g h : Z) : Z :=
  Z.lor (Z.lor (Z.lor (Z.lor (Z.lor (Z.lor (Z.lor (Z.shiftl h 56) (Z.shiftl g 48)) (Z.shiftl f 40)) (Z.shiftl e 32))
    (Z.shiftl d 24)) (Z.shiftl c 16)) (Z.shiftl b 8)) a.
(** OpcUaBinaryCodec.cpp 74-102 *)
Definition dec_i16 : rd Z := do l <- read; do h <- read; ret (s16 (or16 l h)).
(** OpcUaBinaryCodec.cpp 89-95 *)
Definition dec_u16 : rd Z := do l <- read; do h <- read; ret (u16 (or16 l h)).
(** OpcUaBinaryCodec.cpp 82-87, 97-102: both signednesses write the same octets. *)
Definition enc_16 (v : Z) : wr := write v ;; write (Z.shiftr v 8).
(** OpcUaBinaryCodec.cpp 104-140 *)
Definition rd32 : rd Z := do a <- read; do b <- read; do c <- read; do d <- read; ret (u32 (or32 a b c d)).
(** OpcUaBinaryCodec.cpp 104-112 *)
Definition dec_i32 : rd Z := do v <- rd32; ret (s32 v).
(** OpcUaBinaryCodec.cpp 123-131 *)
Definition dec_u32 : rd Z := rd32.
(** OpcUaBinaryCodec.cpp 114-121, 133-140: both signednesses write the same octets. *)
Definition enc_32 (v : Z) : wr := write v ;; write (Z.shiftr v 8) ;; write (Z.shiftr v 16) ;; write (Z.shiftr v 24).
(** OpcUaBinaryCodec.cpp 142-194 *)
Definition rd64 : rd Z :=
  do a <- read; do b <- read; do c <- read; do d <- read; do e <- read; do f <- read; do g <- read; do h <- read;
  ret (u64 (or64 a b c d e f g h)).
(** OpcUaBinaryCodec.cpp 142-154 *)
Definition dec_i64 : rd Z := do v <- rd64; ret (s64 v).
(** OpcUaBinaryCodec.cpp 169-181 *)
Definition dec_u64 : rd Z := rd64.
(** OpcUaBinaryCodec.cpp 156-167, 183-194: both signednesses write the same octets. *)
Definition enc_64 (v : Z) : wr :=
  write v ;; write (Z.shiftr v 8) ;; write (Z.shiftr v 16) ;; write (Z.shiftr v 24) ;;
  write (Z.shiftr v 32) ;; write (Z.shiftr v 40) ;; write (Z.shiftr v 48) ;; write (Z.shiftr v 56).
(** OpcUaBinaryCodec.cpp 196-252.  Floating-point values are represented by their bit
    pattern, which is what [memcpy] moves. *)
Definition dec_float : rd Z := rd32.
(** OpcUaBinaryCodec.cpp 209-219 *)
Definition enc_float (bits : Z) : wr := enc_32 bits.
(** OpcUaBinaryCodec.cpp 221-236 *)
Definition dec_double : rd Z := rd64.
(** OpcUaBinaryCodec.cpp 238-252 *)
Definition enc_double (bits : Z) : wr := enc_64 bits.
(** OpcUaBinaryCodec.cpp 288-301, 452-465 *)
Definition dec_datetime : rd Z := dec_i64.
(** OpcUaBinaryCodec.cpp 296-301 *)
Definition enc_datetime : Z -> wr := enc_64.
(** OpcUaBinaryCodec.cpp 452-458 *)
Definition dec_status : rd Z := dec_u32.
(** OpcUaBinaryCodec.cpp 460-465 *)
Definition enc_status : Z -> wr := enc_32.

(** ** Strings: lists of octets *)
(** types/DataType.hpp:89-108, the member val. *)
Definition ustr := list Z.
(** [n] octets, the loops of OpcUaBinaryCodec.cpp 254-268 and 321-336. *)
Fixpoint rdn (n : nat) : rd (list Z) :=
  match n with O => ret [] | S k => do v <- read; do r <- rdn k; ret (v :: r) end.
(** All octets, the loops of OpcUaBinaryCodec.cpp 270-286 and 338-354. *)
Fixpoint wrn (l : list Z) : wr := match l with [] => nop | v :: r => write v ;; wrn r end.
(** OpcUaBinaryCodec.cpp 254-268: length -1 leaves the target as it was; any other
    negative length becomes a huge [size_t] in [resize], which throws. Allocation of up to 2^31
    octets is taken to succeed. *)
Definition dec_string (old : ustr) : rd ustr :=
  do len <- dec_i32;
  if len =? -1 then ret old else if len <? 0 then fun _ => DThrow else rdn (Z.to_nat len).
(** OpcUaBinaryCodec.cpp 321-336 *)
Definition dec_bstring (old : ustr) : rd ustr :=
  do len <- dec_i32;
  if len =? -1 then ret [] else if len <? 0 then fun _ => DThrow else rdn (Z.to_nat len).
(** OpcUaBinaryCodec.cpp 270-286, 338-354 *)
Definition enc_string (v : ustr) : wr :=
  let len := s32 (Z.of_nat (length v)) in
  if len =? 0 then enc_32 (-1) else enc_32 len ;; wrn (firstn (Z.to_nat len) v).
(** OpcUaBinaryCodec.cpp 338-354 *)
Definition enc_bstring : ustr -> wr := enc_string.

(** ** Templates (OpcUaBinaryCodec.hpp 195-261) *)
(** [Opt] and [Ptr]: decode into a fresh object; encode the contained object. OpcUaBinaryCodec.hpp 195-201, 208-214. *)
Definition dec_opt {A} (d : rd A) : rd (option A) := do v <- d; ret (Some v).
(** OpcUaBinaryCodec.hpp 202-207, 215-220; [None]: [value()] of an empty one, a throw or a null dereference. *)
Definition enc_opt {A} (e : A -> wr) (v : option A) : wr := match v with Some x => e x | None => fun _ => None end.
(** Elements one after the other, each decoded into its present value. OpcUaBinaryCodec.hpp 224-227, 245-248. *)
Fixpoint dec_each {A} (d : A -> rd A) (old : list A) : rd (list A) :=
  match old with [] => ret [] | x :: r => do v <- d x; do vs <- dec_each d r; ret (v :: vs) end.
(** The loops over containers, OpcUaBinaryCodec.hpp 195-261. *)
Fixpoint enc_each {A} (e : A -> wr) (l : list A) : wr :=
  match l with [] => nop | x :: r => e x ;; enc_each e r end.
(** [vector::resize]. OpcUaBinaryCodec.hpp 244. *)
Definition resize {A} (dflt : A) (old : list A) (n : nat) : list A := firstn n old ++ repeat dflt (n - length old).
(** DynamicArray: a negative length makes [resize] throw. OpcUaBinaryCodec.hpp 239-250. *)
Definition dec_arr {A} (dflt : A) (d : A -> rd A) (old : list A) : rd (list A) :=
  do len <- dec_i32; if len <? 0 then fun _ => DThrow else dec_each d (resize dflt old (Z.to_nat len)).
(** DynamicArray, encoding: OpcUaBinaryCodec.hpp 195-261. *)
Definition enc_arr {A} (e : A -> wr) (l : list A) : wr := enc_32 (s32 (Z.of_nat (length l))) ;; enc_each e l.
(** A decoder that ignores the present value. Model only. *)
Definition fresh {A} (d : rd A) : A -> rd A := fun _ => d.

(** ** Guid (types/Guid.hpp 12-17; OpcUaBinaryCodec.cpp 303-319) *)
Record guid := mkGuid { g1 : Z; g2 : Z; g3 : Z; g4 : list Z }.
(** A Guid as constructed, types/Guid.hpp 11-25 *)
Definition guid0 : guid := mkGuid 0 0 0 (repeat 0 8).
(** OpcUaBinaryCodec.cpp 303-310 *)
Definition dec_guid (old : guid) : rd guid :=
  do a <- dec_u32; do b <- dec_u16; do c <- dec_u16; do d <- dec_each (fresh dec_byte) (g4 old); ret (mkGuid a b c d).
(** OpcUaBinaryCodec.cpp 312-319 *)
Definition enc_guid (v : guid) : wr := enc_32 (g1 v) ;; enc_16 (g2 v) ;; enc_16 (g3 v) ;; enc_each enc_byte (g4 v).

(** ** NodeId (types/NodeId.hpp 13-23; OpcUaBinaryCodec.cpp 356-450) *)
Inductive idval := IdNum (i : Z) | IdStr (s : ustr) | IdGuid (g : guid) | IdOpq (s : ustr).
(** types/NodeId.hpp 13-30 *)
Record nodeid := mkNid { n_ns : Z; n_val : idval }.
(** A NodeId as constructed, types/NodeId.hpp 13-30 *)
Definition nodeid0 : nodeid := mkNid 0 (IdNum 0).
(** 356-404.  The two-octet form does not assign the namespace; unknown forms end in a bare
    [throw]. *)
Definition dec_nodeid (old : nodeid) : rd nodeid :=
  do e <- dec_byte;
  match Z.land e 15 with
  | 0 => do i <- dec_byte; ret (mkNid (n_ns old) (IdNum i))
  | 1 => do n <- dec_byte; do i <- dec_u16; ret (mkNid n (IdNum i))
  | 2 => do n <- dec_u16; do i <- dec_u32; ret (mkNid n (IdNum i))
  | 3 => do n <- dec_u16; do s <- dec_string []; ret (mkNid n (IdStr s))
  | 4 => do n <- dec_u16; do g <- dec_guid guid0; ret (mkNid n (IdGuid g))
  | 5 => do n <- dec_u16; do s <- dec_bstring []; ret (mkNid n (IdOpq s))
  | _ => fun _ => DAbort
  end.
(** 406-450; the final [else throw] needs a valueless variant and is not modelled. *)
Definition enc_nodeid (v : nodeid) : wr :=
  match n_val v with
  | IdNum i =>
      if (n_ns v =? 0) && (i <? 256) then enc_byte 0 ;; enc_byte (u8 i)
      else if (n_ns v <? 256) && (i <? 65536) then enc_byte 1 ;; enc_byte (u8 (n_ns v)) ;; enc_16 (u16 i)
      else enc_byte 2 ;; enc_16 (n_ns v) ;; enc_32 i
  | IdStr s => enc_byte 3 ;; enc_16 (n_ns v) ;; enc_string s
  | IdGuid g => enc_byte 4 ;; enc_16 (n_ns v) ;; enc_guid g
  | IdOpq s => enc_byte 5 ;; enc_16 (n_ns v) ;; enc_bstring s
  end.

(** ** Encoding masks (types/StructType.hpp 41-65) *)
Definition is_some {A} (o : option A) : bool := match o with Some _ => true | None => false end.
(** The fields of string type count only if present and not empty, types/StructType.hpp 54-65. *)
Definition nonempty (o : option ustr) : bool := match o with Some (_ :: _) => true | _ => false end.
(** One bit for each field, types/StructType.hpp 41-65. *)
Fixpoint mask_of (pos : Z) (l : list bool) : Z :=
  match l with [] => 0 | b :: r => Z.lor (if b then Z.shiftl 1 pos else 0) (mask_of (pos + 1) r) end.
(** [mask & bit]. OpcUaBinaryCodec.cpp 467-535. *)
Definition has (m bit : Z) : bool := negb (Z.land m bit =? 0).
(** [if (mask & bit) s >> field], [if (mask & bit) s << field]. OpcUaBinaryCodec.cpp 467-535. *)
Definition when_d {A} (c : bool) (d : rd A) (old : option A) : rd (option A) := if c then dec_opt d else ret old.
(** [if (mask & bit) s << field]. OpcUaBinaryCodec.cpp 467-535. *)
Definition when_e {A} (c : bool) (e : A -> wr) (v : option A) : wr := if c then enc_opt e v else nop.

(** ** DiagnosticInfo (types/DiagnosticInfo.hpp 12-55; OpcUaBinaryCodec.cpp 467-535) *)
Inductive diag := mkDiag (sym ns loc ltext : option Z) (info : option ustr) (st : option Z) (inner : option diag).
(** A DiagnosticInfo as constructed, types/DiagnosticInfo.hpp 12-55 *)
Definition diag0 : diag := mkDiag None None None None None None None.
(** Every level reads at least one octet, so [fuel] of one more than the octets left in
    the array is enough: when it is used up the next read is outside the array. OpcUaBinaryCodec.cpp 467-500. *)
Fixpoint dec_diag_f (fuel : nat) (old : diag) : rd diag :=
  match fuel with
  | O => fun _ => DOob
  | S k =>
      let 'mkDiag a b c d e f g := old in
      do m <- dec_byte;
      do a <- when_d (has m 1) dec_i32 a; do b <- when_d (has m 2) dec_i32 b;
      do c <- when_d (has m 4) dec_i32 c; do d <- when_d (has m 8) dec_i32 d;
      do e <- when_d (has m 16) (dec_string []) e; do f <- when_d (has m 32) dec_status f;
      do g <- (if has m 64 then dec_opt (dec_diag_f k diag0) else ret g);
      ret (mkDiag a b c d e f g)
  end.
(** OpcUaBinaryCodec.cpp 467-500 *)
Definition dec_diag (old : diag) : rd diag := fun b => dec_diag_f (S (length (k_pkt b) - k_tail b)) old b.
(** DiagnosticInfo::encodingMask, types/DiagnosticInfo.hpp 12-55 *)
Definition diag_mask (v : diag) : Z :=
  let 'mkDiag a b c d e f g := v in
  mask_of 0 [is_some a; is_some b; is_some c; is_some d; is_some e; is_some f; is_some g].
(** OpcUaBinaryCodec.cpp 502-535 *)
Fixpoint enc_diag (v : diag) : wr :=
  let 'mkDiag a b c d e f g := v in
  let m := diag_mask v in
  enc_byte m ;; when_e (has m 1) enc_32 a ;; when_e (has m 2) enc_32 b ;; when_e (has m 4) enc_32 c ;;
  when_e (has m 8) enc_32 d ;; when_e (has m 16) enc_string e ;; when_e (has m 32) enc_status f ;;
  (if has m 64 then match g with Some x => enc_diag x | None => fun _ => None end else nop).

(** ** QualifiedName (types/QualifiedName.hpp; OpcUaBinaryCodec.cpp 537-547) *)
Record qname := mkQn { qn_ns : Z; qn_name : ustr }.
(** A QualifiedName as constructed, types/QualifiedName.hpp 8-18 *)
Definition qname0 : qname := mkQn 0 [].
(** OpcUaBinaryCodec.cpp 537-541 *)
Definition dec_qname (old : qname) : rd qname := do n <- dec_u16; do s <- dec_string (qn_name old); ret (mkQn n s).
(** OpcUaBinaryCodec.cpp 543-547 *)
Definition enc_qname (v : qname) : wr := enc_16 (qn_ns v) ;; enc_string (qn_name v).

(** ** LocalizedText (types/LocalizedText.hpp; OpcUaBinaryCodec.cpp 549-578) *)
Record ltext := mkLt { lt_locale : option ustr; lt_text : option ustr }.
(** A LocalizedText as constructed, types/LocalizedText.hpp 9-29 *)
Definition ltext0 : ltext := mkLt None None.
(** OpcUaBinaryCodec.cpp 549-562 *)
Definition dec_ltext (old : ltext) : rd ltext :=
  do m <- dec_byte; do a <- when_d (has m 1) (dec_string []) (lt_locale old);
  do b <- when_d (has m 2) (dec_string []) (lt_text old); ret (mkLt a b).
(** LocalizedText::encodingMask, types/LocalizedText.hpp 9-29 *)
Definition ltext_mask (v : ltext) : Z := mask_of 0 [nonempty (lt_locale v); nonempty (lt_text v)].
(** OpcUaBinaryCodec.cpp 564-578 *)
Definition enc_ltext (v : ltext) : wr :=
  let m := ltext_mask v in
  enc_byte m ;; when_e (has m 1 && nonempty (lt_locale v)) enc_string (lt_locale v) ;;
  when_e (has m 2 && nonempty (lt_text v)) enc_string (lt_text v).

(** ** XmlElement (types/XmlElement.hpp; OpcUaBinaryCodec.cpp 580-588): nothing on the wire *)
Definition dec_xml (old : Z) : rd Z := ret old.
(** OpcUaBinaryCodec.cpp 585-588 *)
Definition enc_xml (v : Z) : wr := nop.

(** ** ExpandedNodeId (types/ExpandedNodeId.hpp; OpcUaBinaryCodec.cpp 590-620) *)
Record xnodeid := mkXn { xn_id : nodeid; xn_uri : option ustr; xn_srv : option Z }.
(** A ExpandedNodeId as constructed, types/ExpandedNodeId.hpp 11-31 *)
Definition xnodeid0 : xnodeid := mkXn nodeid0 None None.
(** OpcUaBinaryCodec.cpp 590-603 *)
Definition dec_xnodeid (old : xnodeid) : rd xnodeid :=
  do m <- peek; do n <- dec_nodeid (xn_id old); do u <- when_d (has m 128) (dec_string []) (xn_uri old);
  do i <- when_d (has m 64) dec_u32 (xn_srv old); ret (mkXn n u i).
(** [encodingMask |= bit] through the reference [*begin()], bound before the node id is
    written: it designates the octet at the READ cursor [t]. OpcUaBinaryCodec.cpp 607-616. *)
Definition or_at (t : nat) (bit : Z) : wr := fun b =>
  match nth_error (k_pkt b) t with
  | Some v => Some (mkSdu (k_tail b) (k_head b) (upd (k_pkt b) t (Z.lor v bit)))
  | None => None
  end.
(** ExpandedNodeId::encodingMask, types/ExpandedNodeId.hpp 11-31 *)
Definition xnodeid_mask (v : xnodeid) : Z := mask_of 0 [nonempty (xn_uri v); is_some (xn_srv v)].
(** OpcUaBinaryCodec.cpp 605-620 *)
Definition enc_xnodeid (v : xnodeid) : wr := fun b0 =>
  (enc_nodeid (xn_id v) ;;
   (if has (xnodeid_mask v) 1 then or_at (k_tail b0) 128 ;; enc_opt enc_string (xn_uri v) else nop) ;;
   (if has (xnodeid_mask v) 2 then or_at (k_tail b0) 64 ;; enc_opt enc_32 (xn_srv v) else nop)) b0.

(** ** ExtensionObject (types/ExtensionObject.hpp; OpcUaBinaryCodec.cpp 622-662) *)
Record extobj := mkXo { xo_id : nodeid; xo_body : option ustr }.
(** A ExtensionObject as constructed, types/ExtensionObject.hpp 10-27 *)
Definition extobj0 : extobj := mkXo nodeid0 None.
(** OpcUaBinaryCodec.cpp 622-641 *)
Definition dec_extobj (old : extobj) : rd extobj :=
  do n <- dec_nodeid (xo_id old); do m <- dec_byte;
  do s <- when_d ((m =? 1) || (m =? 2)) (dec_bstring []) (xo_body old); ret (mkXo n s).
(** ExtensionObject::encodingMask, types/ExtensionObject.hpp 10-27 *)
Definition extobj_mask (v : extobj) : Z := mask_of 0 [nonempty (xo_body v)].
(** OpcUaBinaryCodec.cpp 643-662 *)
Definition enc_extobj (v : extobj) : wr :=
  let m := extobj_mask v in
  enc_nodeid (xo_id v) ;; enc_byte m ;; when_e ((m =? 1) || (m =? 2)) enc_bstring (xo_body v).

(** ** Variant (types/Variant.hpp; OpcUaBinaryCodec.cpp 726-916) *)
(** The 44 alternatives of Variant::Value in order (Variant.hpp 33-80). *)
Inductive vval :=
| VBool (v : bool) | VSByte (v : Z) | VByte (v : Z) | VInt16 (v : Z) | VUInt16 (v : Z) | VInt32 (v : Z) | VUInt32 (v : Z)
| VInt64 (v : Z) | VUInt64 (v : Z) | VFloat (v : Z) | VDouble (v : Z) | VString (v : ustr) | VDateTime (v : Z)
| VGuid (v : guid) | VBString (v : ustr) | VXml (v : Z) | VNodeId (v : nodeid) | VXNodeId (v : xnodeid) | VStatus (v : Z)
| VQName (v : qname) | VLText (v : ltext) | VExtObj (v : extobj)
| ABool (v : list bool) | ASByte (v : list Z) | AByte (v : list Z) | AInt16 (v : list Z) | AUInt16 (v : list Z)
| AInt32 (v : list Z) | AUInt32 (v : list Z) | AInt64 (v : list Z) | AUInt64 (v : list Z) | AFloat (v : list Z)
| ADouble (v : list Z) | AString (v : list ustr) | ADateTime (v : list Z) | AGuid (v : list guid) | ABString (v : list ustr)
| AXml (v : list Z) | ANodeId (v : list nodeid) | AXNodeId (v : list xnodeid) | AStatus (v : list Z) | AQName (v : list qname)
| ALText (v : list ltext) | AExtObj (v : list extobj).
(** [std::variant::index()]. types/Variant.hpp 102. *)
Definition vindex (v : vval) : Z :=
  match v with
  | VBool _ => 0 | VSByte _ => 1 | VByte _ => 2 | VInt16 _ => 3 | VUInt16 _ => 4 | VInt32 _ => 5 | VUInt32 _ => 6
  | VInt64 _ => 7 | VUInt64 _ => 8 | VFloat _ => 9 | VDouble _ => 10 | VString _ => 11 | VDateTime _ => 12
  | VGuid _ => 13 | VBString _ => 14 | VXml _ => 15 | VNodeId _ => 16 | VXNodeId _ => 17 | VStatus _ => 18
  | VQName _ => 19 | VLText _ => 20 | VExtObj _ => 21
  | ABool _ => 22 | ASByte _ => 23 | AByte _ => 24 | AInt16 _ => 25 | AUInt16 _ => 26 | AInt32 _ => 27 | AUInt32 _ => 28
  | AInt64 _ => 29 | AUInt64 _ => 30 | AFloat _ => 31 | ADouble _ => 32 | AString _ => 33 | ADateTime _ => 34
  | AGuid _ => 35 | ABString _ => 36 | AXml _ => 37 | ANodeId _ => 38 | AXNodeId _ => 39 | AStatus _ => 40
  | AQName _ => 41 | ALText _ => 42 | AExtObj _ => 43
  end.
(** types/Variant.hpp 30-110 *)
Record variant := mkVar { vr_val : option vval; vr_dims : option (list Z) }.
(** A Variant as constructed, types/Variant.hpp 30-110 *)
Definition variant0 : variant := mkVar None None.
(** Variant.hpp 98-103, and its conversion to [uint8_t] *)
Definition variant_mask (v : variant) : Z :=
  match vr_val v with
  | Some x => u8 (if vindex x <? 22 then vindex x + 1 else Z.lor (vindex x - 21) 128)
  | None => 0
  end.
(** OpcUaBinaryCodec.cpp 726-901 *)
Definition dec_variant (old : variant) : rd variant :=
  do m <- dec_byte;
  let put {A} (c : A -> vval) (d : rd A) : rd variant := do v <- d; ret (mkVar (Some (c v)) (vr_dims old)) in
  if m =? 0 then ret old
  else
    let t := Z.land m 63 in
    if has m 128 then
      match t with
      | 1 => put ABool (dec_arr false (fresh dec_bool) [])
      | 2 => put ASByte (dec_arr 0 (fresh dec_sbyte) [])
      | 3 => put AByte (dec_arr 0 (fresh dec_byte) [])
      | 4 => put AInt16 (dec_arr 0 (fresh dec_i16) [])
      | 5 => put AUInt16 (dec_arr 0 (fresh dec_u16) [])
      | 6 => put AInt32 (dec_arr 0 (fresh dec_i32) [])
      | 7 => put AUInt32 (dec_arr 0 (fresh dec_u32) [])
      | _ => fun _ => DAbort
      end
    else
      match t with
      | 1 => put VBool dec_bool
      | 2 => put VSByte dec_sbyte
      | 3 => put VByte dec_byte
      | 4 => put VInt16 dec_i16
      | 5 => put VUInt16 dec_u16
      | 6 => put VInt32 dec_i32
      | 7 => put VUInt32 dec_u32
      | 8 => put VInt64 dec_i64
      | 9 => put VUInt64 dec_u64
      | 10 => put VFloat dec_float
      | 11 => put VDouble dec_double
      | 12 => put VString (dec_string [])
      | 13 => put VDateTime dec_datetime
      | 14 => put VGuid (dec_guid guid0)
      | 15 => put VBString (dec_bstring [])
      | 16 => put VXml (dec_xml 0)
      | 17 => put VNodeId (dec_nodeid nodeid0)
      | 18 => put VXNodeId (dec_xnodeid xnodeid0)
      | 19 => put VStatus dec_status
      | 20 => put VQName (dec_qname qname0)
      | 21 => put VLText (dec_ltext ltext0)
      | 22 => put VExtObj (dec_extobj extobj0)
      | _ => ret old
      end.
(** The visitor of OpcUaBinaryCodec.cpp 903-916: the alternative held is encoded. *)
Definition enc_vval (v : vval) : wr :=
  match v with
  | VBool x => enc_bool x | VSByte x => enc_sbyte x | VByte x => enc_byte x | VInt16 x => enc_16 x | VUInt16 x => enc_16 x
  | VInt32 x => enc_32 x | VUInt32 x => enc_32 x | VInt64 x => enc_64 x | VUInt64 x => enc_64 x | VFloat x => enc_float x
  | VDouble x => enc_double x | VString x => enc_string x | VDateTime x => enc_datetime x | VGuid x => enc_guid x
  | VBString x => enc_bstring x | VXml x => enc_xml x | VNodeId x => enc_nodeid x | VXNodeId x => enc_xnodeid x
  | VStatus x => enc_status x | VQName x => enc_qname x | VLText x => enc_ltext x | VExtObj x => enc_extobj x
  | ABool x => enc_arr enc_bool x | ASByte x => enc_arr enc_sbyte x | AByte x => enc_arr enc_byte x
  | AInt16 x => enc_arr enc_16 x | AUInt16 x => enc_arr enc_16 x | AInt32 x => enc_arr enc_32 x | AUInt32 x => enc_arr enc_32 x
  | AInt64 x => enc_arr enc_64 x | AUInt64 x => enc_arr enc_64 x | AFloat x => enc_arr enc_float x
  | ADouble x => enc_arr enc_double x | AString x => enc_arr enc_string x | ADateTime x => enc_arr enc_datetime x
  | AGuid x => enc_arr enc_guid x | ABString x => enc_arr enc_bstring x | AXml x => enc_arr enc_xml x
  | ANodeId x => enc_arr enc_nodeid x | AXNodeId x => enc_arr enc_xnodeid x | AStatus x => enc_arr enc_status x
  | AQName x => enc_arr enc_qname x | ALText x => enc_arr enc_ltext x | AExtObj x => enc_arr enc_extobj x
  end.
(** 904-916 *)
Definition enc_variant (v : variant) : wr :=
  let m := variant_mask v in
  enc_byte m ;; (if m =? 0 then nop else match vr_val v with Some x => enc_vval x | None => nop end).

(** ** DataValue (types/DataValue.hpp; OpcUaBinaryCodec.cpp 664-724) *)
Record dvalue := mkDv { dv_val : variant; dv_st : option Z; dv_sts : option Z; dv_spico : option Z;
  dv_vts : option Z; dv_vpico : option Z }.
(** A DataValue as constructed, types/DataValue.hpp 9-39 *)
Definition dvalue0 : dvalue := mkDv variant0 None None None None None.
(** OpcUaBinaryCodec.cpp 664-693 *)
Definition dec_dvalue (old : dvalue) : rd dvalue :=
  do m <- dec_byte;
  do v <- (if has m 1 then dec_variant (dv_val old) else ret (dv_val old));
  do a <- when_d (has m 2) dec_status (dv_st old); do b <- when_d (has m 4) dec_datetime (dv_sts old);
  do c <- when_d (has m 8) dec_u16 (dv_spico old); do d <- when_d (has m 16) dec_datetime (dv_vts old);
  do e <- when_d (has m 32) dec_u16 (dv_vpico old); ret (mkDv v a b c d e).
(** DataValue::encodingMask, types/DataValue.hpp 9-39 *)
Definition dvalue_mask (v : dvalue) : Z :=
  mask_of 0 [is_some (vr_val (dv_val v)); is_some (dv_st v); is_some (dv_sts v); is_some (dv_spico v);
    is_some (dv_vts v); is_some (dv_vpico v)].
(** OpcUaBinaryCodec.cpp 695-724 *)
Definition enc_dvalue (v : dvalue) : wr :=
  let m := dvalue_mask v in
  enc_byte m ;; (if has m 1 then enc_variant (dv_val v) else nop) ;; when_e (has m 2) enc_status (dv_st v) ;;
  when_e (has m 4) enc_datetime (dv_sts v) ;; when_e (has m 8) enc_16 (dv_spico v) ;;
  when_e (has m 16) enc_datetime (dv_vts v) ;; when_e (has m 32) enc_16 (dv_vpico v).

(** ** Transport messages (OpcUaBinaryCodec.cpp 918-1002) *)
Record mhdr := mkMh { mh_type : list Z; mh_final : Z; mh_size : Z }.
(** A MessageHeader as constructed, types/MessageHeader.hpp 12-17 *)
Definition mhdr0 : mhdr := mkMh [0; 0; 0] 0 0.
(** OpcUaBinaryCodec.cpp 918-924 *)
Definition dec_mhdr (old : mhdr) : rd mhdr :=
  do t <- dec_each (fresh dec_byte) (mh_type old); do f <- dec_byte; do s <- dec_u32; ret (mkMh t f s).
(** OpcUaBinaryCodec.cpp 926-932 *)
Definition enc_mhdr (v : mhdr) : wr := enc_each enc_byte (mh_type v) ;; enc_byte (mh_final v) ;; enc_32 (mh_size v).
(** msg/HelloMessage.hpp 9-17 *)
Record hello := mkHello { he_ver : Z; he_rcv : Z; he_snd : Z; he_max : Z; he_chunk : Z; he_url : ustr }.
(** A HelloMessage as constructed, msg/HelloMessage.hpp 9-17 *)
Definition hello0 : hello := mkHello 0 0 0 0 0 [].
(** OpcUaBinaryCodec.cpp 934-943 *)
Definition dec_hello (old : hello) : rd hello :=
  do a <- dec_u32; do b <- dec_u32; do c <- dec_u32; do d <- dec_u32; do e <- dec_u32; do u <- dec_string (he_url old);
  ret (mkHello a b c d e u).
(** OpcUaBinaryCodec.cpp 945-954 *)
Definition enc_hello (v : hello) : wr :=
  enc_32 (he_ver v) ;; enc_32 (he_rcv v) ;; enc_32 (he_snd v) ;; enc_32 (he_max v) ;; enc_32 (he_chunk v) ;;
  enc_string (he_url v).
(** msg/AcknowledgeMessage.hpp 8-15 *)
Record ack := mkAck { ak_ver : Z; ak_rcv : Z; ak_snd : Z; ak_max : Z; ak_chunk : Z }.
(** OpcUaBinaryCodec.cpp 956-964 *)
Definition dec_ack : rd ack :=
  do a <- dec_u32; do b <- dec_u32; do c <- dec_u32; do d <- dec_u32; do e <- dec_u32; ret (mkAck a b c d e).
(** OpcUaBinaryCodec.cpp 966-974 *)
Definition enc_ack (v : ack) : wr :=
  enc_32 (ak_ver v) ;; enc_32 (ak_rcv v) ;; enc_32 (ak_snd v) ;; enc_32 (ak_max v) ;; enc_32 (ak_chunk v).
(** msg/ErrorMessage.hpp 9-13 *)
Record errmsg := mkErr { er_code : Z; er_reason : ustr }.
(** A ErrorMessage as constructed, msg/ErrorMessage.hpp 9-13 *)
Definition errmsg0 : errmsg := mkErr 0 [].
(** OpcUaBinaryCodec.cpp 976-981 *)
Definition dec_errmsg (old : errmsg) : rd errmsg := do a <- dec_u32; do s <- dec_string (er_reason old); ret (mkErr a s).
(** OpcUaBinaryCodec.cpp 983-988 *)
Definition enc_errmsg (v : errmsg) : wr := enc_32 (er_code v) ;; enc_string (er_reason v).
(** msg/ReverseHelloMessage.hpp 8-12 *)
Record rhello := mkRh { rh_srv : ustr; rh_url : ustr }.
(** A ReverseHelloMessage as constructed, msg/ReverseHelloMessage.hpp 8-12 *)
Definition rhello0 : rhello := mkRh [] [].
(** OpcUaBinaryCodec.cpp 990-995 *)
Definition dec_rhello (old : rhello) : rd rhello :=
  do a <- dec_string (rh_srv old); do b <- dec_string (rh_url old); ret (mkRh a b).
(** OpcUaBinaryCodec.cpp 997-1002 *)
Definition enc_rhello (v : rhello) : wr := enc_string (rh_srv v) ;; enc_string (rh_url v).

(** ** Secure-channel headers (OpcUaBinaryCodec.cpp 1004-1078) *)
Record uhdr := mkUh { uh_type : list Z; uh_final : Z; uh_size : Z; uh_chan : Z }.
(** A UaMessageHeader as constructed, types/UaMessageHeader.hpp 9-12 *)
Definition uhdr0 : uhdr := mkUh [0; 0; 0] 0 0 0.
(** OpcUaBinaryCodec.cpp 1004-1013 *)
Definition dec_uhdr (old : uhdr) : rd uhdr :=
  do t <- dec_each (fresh dec_byte) (uh_type old); do f <- dec_byte; do s <- dec_u32; do c <- dec_u32; ret (mkUh t f s c).
(** OpcUaBinaryCodec.cpp 1015-1024 *)
Definition enc_uhdr (v : uhdr) : wr :=
  enc_each enc_byte (uh_type v) ;; enc_byte (uh_final v) ;; enc_32 (uh_size v) ;; enc_32 (uh_chan v).
(** types/UaSecurityHeader.hpp 8-13 *)
Record sechdr := mkSh { sh_policy : ustr; sh_cert : ustr; sh_thumb : ustr }.
(** A UaSecurityHeader as constructed, types/UaSecurityHeader.hpp 8-13 *)
Definition sechdr0 : sechdr := mkSh [] [] [].
(** OpcUaBinaryCodec.cpp 1026-1034 *)
Definition dec_sechdr (old : sechdr) : rd sechdr :=
  do a <- dec_bstring (sh_policy old); do b <- dec_bstring (sh_cert old); do c <- dec_bstring (sh_thumb old); ret (mkSh a b c).
(** OpcUaBinaryCodec.cpp 1036-1044 *)
Definition enc_sechdr (v : sechdr) : wr := enc_bstring (sh_policy v) ;; enc_bstring (sh_cert v) ;; enc_bstring (sh_thumb v).
(** types/UaSecurityHeader.hpp 15-18 *)
Record tokhdr := mkTh { th_token : Z }.
(** OpcUaBinaryCodec.cpp 1046-1052 *)
Definition dec_tokhdr : rd tokhdr := do t <- dec_u32; ret (mkTh t).
(** OpcUaBinaryCodec.cpp 1054-1060 *)
Definition enc_tokhdr (v : tokhdr) : wr := enc_32 (th_token v).
(** types/UaSequenceHeader.hpp 9-13 *)
Record seqhdr := mkSq { sq_num : Z; sq_req : Z }.
(** OpcUaBinaryCodec.cpp 1062-1069 *)
Definition dec_seqhdr : rd seqhdr := do a <- dec_u32; do b <- dec_u32; ret (mkSq a b).
(** OpcUaBinaryCodec.cpp 1071-1078 *)
Definition enc_seqhdr (v : seqhdr) : wr := enc_32 (sq_num v) ;; enc_32 (sq_req v).

(** ** Request and response headers (OpcUaBinaryCodec.cpp 1080-1106, 1188-1212) *)
Record reqhdr := mkRq { rq_token : nodeid; rq_time : Z; rq_handle : Z; rq_diag : Z; rq_audit : ustr; rq_hint : Z; rq_add : extobj }.
(** A UaRequestHeader as constructed, types/UaRequestHeader.hpp 13-22 *)
Definition reqhdr0 : reqhdr := mkRq nodeid0 0 0 0 [] 0 extobj0.
(** OpcUaBinaryCodec.cpp 1080-1092 *)
Definition dec_reqhdr (old : reqhdr) : rd reqhdr :=
  do a <- dec_nodeid (rq_token old); do b <- dec_datetime; do c <- dec_u32; do d <- dec_u32; do e <- dec_string (rq_audit old);
  do f <- dec_u32; do g <- dec_extobj (rq_add old); ret (mkRq a b c d e f g).
(** OpcUaBinaryCodec.cpp 1094-1106 *)
Definition enc_reqhdr (v : reqhdr) : wr :=
  enc_nodeid (rq_token v) ;; enc_datetime (rq_time v) ;; enc_32 (rq_handle v) ;; enc_32 (rq_diag v) ;; enc_string (rq_audit v) ;;
  enc_32 (rq_hint v) ;; enc_extobj (rq_add v).
(** types/UaResponseHeader.hpp 13-21 *)
Record rsphdr := mkRp { rp_time : Z; rp_handle : Z; rp_result : Z; rp_diag : diag; rp_strs : list ustr; rp_add : extobj }.
(** A UaResponseHeader as constructed, types/UaResponseHeader.hpp 13-21 *)
Definition rsphdr0 : rsphdr := mkRp 0 0 0 diag0 [] extobj0.
(** OpcUaBinaryCodec.cpp 1188-1199 *)
Definition dec_rsphdr (old : rsphdr) : rd rsphdr :=
  do a <- dec_datetime; do b <- dec_u32; do c <- dec_status; do d <- dec_diag (rp_diag old);
  do e <- dec_arr [] dec_string (rp_strs old); do f <- dec_extobj (rp_add old); ret (mkRp a b c d e f).
(** OpcUaBinaryCodec.cpp 1201-1212 *)
Definition enc_rsphdr (v : rsphdr) : wr :=
  enc_datetime (rp_time v) ;; enc_32 (rp_handle v) ;; enc_status (rp_result v) ;; enc_diag (rp_diag v) ;;
  enc_arr enc_string (rp_strs v) ;; enc_extobj (rp_add v).

(** ** Secure-channel services (OpcUaBinaryCodec.cpp 1108-1186, 1214-1234) *)
Record openreq := mkOq { oq_hdr : reqhdr; oq_ver : Z; oq_type : Z; oq_mode : Z; oq_nonce : ustr; oq_life : Z }.
(** A UaOpenSecureChannelReq as constructed, msg/UaOpenSecureChannelReq.hpp 13-21 *)
Definition openreq0 : openreq := mkOq reqhdr0 0 0 0 [] 0.
(** OpcUaBinaryCodec.cpp 1108-1119 *)
Definition dec_openreq (old : openreq) : rd openreq :=
  do h <- dec_reqhdr (oq_hdr old); do a <- dec_u32; do b <- dec_i32; do c <- dec_i32; do d <- dec_bstring (oq_nonce old);
  do e <- dec_u32; ret (mkOq h a b c d e).
(** OpcUaBinaryCodec.cpp 1121-1132 *)
Definition enc_openreq (v : openreq) : wr :=
  enc_reqhdr (oq_hdr v) ;; enc_32 (oq_ver v) ;; enc_32 (oq_type v) ;; enc_32 (oq_mode v) ;; enc_bstring (oq_nonce v) ;;
  enc_32 (oq_life v).
(** msg/UaCloseSecureChannelReq.hpp 10-13 *)
Record closereq := mkCq { cq_hdr : reqhdr }.
(** A UaCloseSecureChannelReq as constructed, msg/UaCloseSecureChannelReq.hpp 10-13 *)
Definition closereq0 : closereq := mkCq reqhdr0.
(** OpcUaBinaryCodec.cpp 1134-1140 *)
Definition dec_closereq (old : closereq) : rd closereq := do h <- dec_reqhdr (cq_hdr old); ret (mkCq h).
(** OpcUaBinaryCodec.cpp 1142-1148 *)
Definition enc_closereq (v : closereq) : wr := enc_reqhdr (cq_hdr v).
(** msg/UaCloseSecureChannelRsp.hpp 9-12 *)
Record closersp := mkCr { cr_hdr : rsphdr }.
(** A UaCloseSecureChannelRsp as constructed, msg/UaCloseSecureChannelRsp.hpp 9-12 *)
Definition closersp0 : closersp := mkCr rsphdr0.
(** OpcUaBinaryCodec.cpp 1150-1156 *)
Definition dec_closersp (old : closersp) : rd closersp := do h <- dec_rsphdr (cr_hdr old); ret (mkCr h).
(** OpcUaBinaryCodec.cpp 1158-1164 *)
Definition enc_closersp (v : closersp) : wr := enc_rsphdr (cr_hdr v).
(** types/UaChannelSecurityToken.hpp 9-15 *)
Record chtoken := mkCt { ct_chan : Z; ct_token : Z; ct_at : Z; ct_life : Z }.
(** A UaChannelSecurityToken as constructed, types/UaChannelSecurityToken.hpp 9-15 *)
Definition chtoken0 : chtoken := mkCt 0 0 0 0.
(** OpcUaBinaryCodec.cpp 1166-1175 *)
Definition dec_chtoken : rd chtoken :=
  do a <- dec_u32; do b <- dec_u32; do c <- dec_datetime; do d <- dec_u32; ret (mkCt a b c d).
(** OpcUaBinaryCodec.cpp 1177-1186 *)
Definition enc_chtoken (v : chtoken) : wr := enc_32 (ct_chan v) ;; enc_32 (ct_token v) ;; enc_datetime (ct_at v) ;; enc_32 (ct_life v).
(** msg/UaOpenSecureChannelRsp.hpp 12-18 *)
Record openrsp := mkOr { or_hdr : rsphdr; or_ver : Z; or_tok : chtoken; or_nonce : ustr }.
(** A UaOpenSecureChannelRsp as constructed, msg/UaOpenSecureChannelRsp.hpp 12-18 *)
Definition openrsp0 : openrsp := mkOr rsphdr0 0 chtoken0 [].
(** OpcUaBinaryCodec.cpp 1214-1223 *)
Definition dec_openrsp (old : openrsp) : rd openrsp :=
  do h <- dec_rsphdr (or_hdr old); do a <- dec_u32; do b <- dec_chtoken; do c <- dec_bstring (or_nonce old); ret (mkOr h a b c).
(** OpcUaBinaryCodec.cpp 1225-1234 *)
Definition enc_openrsp (v : openrsp) : wr :=
  enc_rsphdr (or_hdr v) ;; enc_32 (or_ver v) ;; enc_chtoken (or_tok v) ;; enc_bstring (or_nonce v).

(** ** Discovery (OpcUaBinaryCodec.cpp 1236-1324, 1364-1384) *)
Record appdesc := mkAd { ad_uri : ustr; ad_prod : ustr; ad_name : ltext; ad_type : Z; ad_gw : ustr; ad_prof : ustr; ad_urls : list ustr }.
(** A UaApplicationDescription as constructed, types/UaApplicationDescription.hpp 11-20 *)
Definition appdesc0 : appdesc := mkAd [] [] ltext0 0 [] [] [].
(** OpcUaBinaryCodec.cpp 1300-1311 *)
Definition dec_appdesc (old : appdesc) : rd appdesc :=
  do a <- dec_string (ad_uri old); do b <- dec_string (ad_prod old); do c <- dec_ltext (ad_name old); do d <- dec_i32;
  do e <- dec_string (ad_gw old); do f <- dec_string (ad_prof old); do g <- dec_arr [] dec_string (ad_urls old);
  ret (mkAd a b c d e f g).
(** OpcUaBinaryCodec.cpp 1313-1324 *)
Definition enc_appdesc (v : appdesc) : wr :=
  enc_string (ad_uri v) ;; enc_string (ad_prod v) ;; enc_ltext (ad_name v) ;; enc_32 (ad_type v) ;; enc_string (ad_gw v) ;;
  enc_string (ad_prof v) ;; enc_arr enc_string (ad_urls v).
(** types/UaUserTokenPolicy.hpp 10-17 *)
Record utpolicy := mkUp { up_id : ustr; up_type : Z; up_iss : ustr; up_url : ustr; up_pol : ustr }.
(** A UaUserTokenPolicy as constructed, types/UaUserTokenPolicy.hpp 10-17 *)
Definition utpolicy0 : utpolicy := mkUp [] 0 [] [] [].
(** OpcUaBinaryCodec.cpp 1364-1373 *)
Definition dec_utpolicy (old : utpolicy) : rd utpolicy :=
  do a <- dec_string (up_id old); do b <- dec_i32; do c <- dec_string (up_iss old); do d <- dec_string (up_url old);
  do e <- dec_string (up_pol old); ret (mkUp a b c d e).
(** OpcUaBinaryCodec.cpp 1375-1384 *)
Definition enc_utpolicy (v : utpolicy) : wr :=
  enc_string (up_id v) ;; enc_32 (up_type v) ;; enc_string (up_iss v) ;; enc_string (up_url v) ;; enc_string (up_pol v).
(** types/UaEndpointDescription.hpp 13-23 *)
Record epdesc := mkEd { ed_url : ustr; ed_srv : appdesc; ed_cert : ustr; ed_mode : Z; ed_pol : ustr; ed_toks : list utpolicy;
  ed_trans : ustr; ed_level : Z }.
(** A UaEndpointDescription as constructed, types/UaEndpointDescription.hpp 13-23 *)
Definition epdesc0 : epdesc := mkEd [] appdesc0 [] 0 [] [] [] 0.
(** OpcUaBinaryCodec.cpp 1272-1284 *)
Definition dec_epdesc (old : epdesc) : rd epdesc :=
  do a <- dec_string (ed_url old); do b <- dec_appdesc (ed_srv old); do c <- dec_bstring (ed_cert old); do d <- dec_i32;
  do e <- dec_string (ed_pol old); do f <- dec_arr utpolicy0 dec_utpolicy (ed_toks old); do g <- dec_string (ed_trans old);
  do h <- dec_byte; ret (mkEd a b c d e f g h).
(** OpcUaBinaryCodec.cpp 1286-1298 *)
Definition enc_epdesc (v : epdesc) : wr :=
  enc_string (ed_url v) ;; enc_appdesc (ed_srv v) ;; enc_bstring (ed_cert v) ;; enc_32 (ed_mode v) ;; enc_string (ed_pol v) ;;
  enc_arr enc_utpolicy (ed_toks v) ;; enc_string (ed_trans v) ;; enc_byte (ed_level v).
(** msg/UaGetEndpointsReq.hpp 10-16 *)
Record epreq := mkEq { eq_hdr : reqhdr; eq_url : ustr; eq_loc : list ustr; eq_prof : list ustr }.
(** A UaGetEndpointsReq as constructed, msg/UaGetEndpointsReq.hpp 10-16 *)
Definition epreq0 : epreq := mkEq reqhdr0 [] [] [].
(** OpcUaBinaryCodec.cpp 1236-1244 *)
Definition dec_epreq (old : epreq) : rd epreq :=
  do h <- dec_reqhdr (eq_hdr old); do a <- dec_string (eq_url old); do b <- dec_arr [] dec_string (eq_loc old);
  do c <- dec_arr [] dec_string (eq_prof old); ret (mkEq h a b c).
(** OpcUaBinaryCodec.cpp 1246-1254 *)
Definition enc_epreq (v : epreq) : wr :=
  enc_reqhdr (eq_hdr v) ;; enc_string (eq_url v) ;; enc_arr enc_string (eq_loc v) ;; enc_arr enc_string (eq_prof v).
(** msg/UaGetEndpointsRsp.hpp 10-14 *)
Record eprsp := mkEr { ep_hdr : rsphdr; ep_list : list epdesc }.
(** A UaGetEndpointsRsp as constructed, msg/UaGetEndpointsRsp.hpp 10-14 *)
Definition eprsp0 : eprsp := mkEr rsphdr0 [].
(** OpcUaBinaryCodec.cpp 1256-1262 *)
Definition dec_eprsp (old : eprsp) : rd eprsp :=
  do h <- dec_rsphdr (ep_hdr old); do a <- dec_arr epdesc0 dec_epdesc (ep_list old); ret (mkEr h a).
(** OpcUaBinaryCodec.cpp 1264-1270 *)
Definition enc_eprsp (v : eprsp) : wr := enc_rsphdr (ep_hdr v) ;; enc_arr enc_epdesc (ep_list v).

(** ** Session services (OpcUaBinaryCodec.cpp 1386-1536) *)
Record sigdata := mkSg { sg_alg : ustr; sg_sig : ustr }.
(** A UaSignatureData as constructed, types/UaSignatureData.hpp 9-13 *)
Definition sigdata0 : sigdata := mkSg [] [].
(** OpcUaBinaryCodec.cpp 1416-1422 *)
Definition dec_sigdata (old : sigdata) : rd sigdata := do a <- dec_string (sg_alg old); do b <- dec_bstring (sg_sig old); ret (mkSg a b).
(** OpcUaBinaryCodec.cpp 1424-1430 *)
Definition enc_sigdata (v : sigdata) : wr := enc_string (sg_alg v) ;; enc_bstring (sg_sig v).
(** msg/UaCreateSessionReq.hpp 13-24 *)
Record csreq := mkCsq { cs_hdr : reqhdr; cs_desc : appdesc; cs_uri : ustr; cs_url : ustr; cs_name : ustr; cs_nonce : ustr; cs_cert : ustr;
  cs_tmo : Z; cs_max : Z }.
(** A UaCreateSessionReq as constructed, msg/UaCreateSessionReq.hpp 13-24 *)
Definition csreq0 : csreq := mkCsq reqhdr0 appdesc0 [] [] [] [] [] 0 0.
(** OpcUaBinaryCodec.cpp 1386-1399 *)
Definition dec_csreq (old : csreq) : rd csreq :=
  do h <- dec_reqhdr (cs_hdr old); do a <- dec_appdesc (cs_desc old); do b <- dec_string (cs_uri old); do c <- dec_string (cs_url old);
  do d <- dec_string (cs_name old); do e <- dec_bstring (cs_nonce old); do f <- dec_bstring (cs_cert old); do g <- dec_double;
  do i <- dec_u32; ret (mkCsq h a b c d e f g i).
(** OpcUaBinaryCodec.cpp 1401-1414 *)
Definition enc_csreq (v : csreq) : wr :=
  enc_reqhdr (cs_hdr v) ;; enc_appdesc (cs_desc v) ;; enc_string (cs_uri v) ;; enc_string (cs_url v) ;; enc_string (cs_name v) ;;
  enc_bstring (cs_nonce v) ;; enc_bstring (cs_cert v) ;; enc_double (cs_tmo v) ;; enc_32 (cs_max v).
(** msg/UaCreateSessionRsp.hpp 15-27 *)
Record csrsp := mkCsr { ch_hdr : rsphdr; ch_sid : nodeid; ch_tok : nodeid; ch_tmo : Z; ch_nonce : ustr; ch_cert : ustr; ch_eps : list epdesc;
  ch_soft : list Z; ch_sig : sigdata; ch_max : Z }.
(** A UaCreateSessionRsp as constructed, msg/UaCreateSessionRsp.hpp 15-27 *)
Definition csrsp0 : csrsp := mkCsr rsphdr0 nodeid0 nodeid0 0 [] [] [] [] sigdata0 0.
(** OpcUaBinaryCodec.cpp 1432-1446 *)
Definition dec_csrsp (old : csrsp) : rd csrsp :=
  do h <- dec_rsphdr (ch_hdr old); do a <- dec_nodeid (ch_sid old); do b <- dec_nodeid (ch_tok old); do c <- dec_double;
  do d <- dec_bstring (ch_nonce old); do e <- dec_bstring (ch_cert old); do f <- dec_arr epdesc0 dec_epdesc (ch_eps old);
  do g <- dec_arr 0 (fresh dec_byte) (ch_soft old); do i <- dec_sigdata (ch_sig old); do j <- dec_u32; ret (mkCsr h a b c d e f g i j).
(** OpcUaBinaryCodec.cpp 1448-1462 *)
Definition enc_csrsp (v : csrsp) : wr :=
  enc_rsphdr (ch_hdr v) ;; enc_nodeid (ch_sid v) ;; enc_nodeid (ch_tok v) ;; enc_double (ch_tmo v) ;; enc_bstring (ch_nonce v) ;;
  enc_bstring (ch_cert v) ;; enc_arr enc_epdesc (ch_eps v) ;; enc_arr enc_byte (ch_soft v) ;; enc_sigdata (ch_sig v) ;; enc_32 (ch_max v).
(** msg/UaCloseSessionReq.hpp 10-14 *)
Record clsreq := mkClq { cl_hdr : reqhdr; cl_del : bool }.
(** A UaCloseSessionReq as constructed, msg/UaCloseSessionReq.hpp 10-14 *)
Definition clsreq0 : clsreq := mkClq reqhdr0 false.
(** OpcUaBinaryCodec.cpp 1464-1470 *)
Definition dec_clsreq (old : clsreq) : rd clsreq := do h <- dec_reqhdr (cl_hdr old); do a <- dec_bool; ret (mkClq h a).
(** OpcUaBinaryCodec.cpp 1472-1478 *)
Definition enc_clsreq (v : clsreq) : wr := enc_reqhdr (cl_hdr v) ;; enc_bool (cl_del v).
(** msg/UaCloseSessionRsp.hpp 9-12 *)
Record clsrsp := mkClr { cz_hdr : rsphdr }.
(** A UaCloseSessionRsp as constructed, msg/UaCloseSessionRsp.hpp 9-12 *)
Definition clsrsp0 : clsrsp := mkClr rsphdr0.
(** OpcUaBinaryCodec.cpp 1480-1485 *)
Definition dec_clsrsp (old : clsrsp) : rd clsrsp := do h <- dec_rsphdr (cz_hdr old); ret (mkClr h).
(** OpcUaBinaryCodec.cpp 1487-1492 *)
Definition enc_clsrsp (v : clsrsp) : wr := enc_rsphdr (cz_hdr v).
(** msg/UaActivateSessionReq.hpp 12-20 *)
Record asreq := mkAsq { as_hdr : reqhdr; as_sig : sigdata; as_soft : list Z; as_loc : list ustr; as_tok : extobj; as_tsig : sigdata }.
(** A UaActivateSessionReq as constructed, msg/UaActivateSessionReq.hpp 12-20 *)
Definition asreq0 : asreq := mkAsq reqhdr0 sigdata0 [] [] extobj0 sigdata0.
(** OpcUaBinaryCodec.cpp 1494-1504 *)
Definition dec_asreq (old : asreq) : rd asreq :=
  do h <- dec_reqhdr (as_hdr old); do a <- dec_sigdata (as_sig old); do b <- dec_arr 0 (fresh dec_byte) (as_soft old);
  do c <- dec_arr [] dec_string (as_loc old); do d <- dec_extobj (as_tok old); do e <- dec_sigdata (as_tsig old);
  ret (mkAsq h a b c d e).
(** OpcUaBinaryCodec.cpp 1506-1516 *)
Definition enc_asreq (v : asreq) : wr :=
  enc_reqhdr (as_hdr v) ;; enc_sigdata (as_sig v) ;; enc_arr enc_byte (as_soft v) ;; enc_arr enc_string (as_loc v) ;;
  enc_extobj (as_tok v) ;; enc_sigdata (as_tsig v).
(** msg/UaActivateSessionRsp.hpp 12-18 *)
Record asrsp := mkAsr { ar_hdr : rsphdr; ar_nonce : ustr; ar_res : list Z; ar_diag : list diag }.
(** A UaActivateSessionRsp as constructed, msg/UaActivateSessionRsp.hpp 12-18 *)
Definition asrsp0 : asrsp := mkAsr rsphdr0 [] [] [].
(** OpcUaBinaryCodec.cpp 1518-1526 *)
Definition dec_asrsp (old : asrsp) : rd asrsp :=
  do h <- dec_rsphdr (ar_hdr old); do a <- dec_bstring (ar_nonce old); do b <- dec_arr 0 (fresh dec_status) (ar_res old);
  do c <- dec_arr diag0 dec_diag (ar_diag old); ret (mkAsr h a b c).
(** OpcUaBinaryCodec.cpp 1528-1536 *)
Definition enc_asrsp (v : asrsp) : wr :=
  enc_rsphdr (ar_hdr v) ;; enc_bstring (ar_nonce v) ;; enc_arr enc_status (ar_res v) ;; enc_arr enc_diag (ar_diag v).

(** ** Read service (OpcUaBinaryCodec.cpp 1538-1594) *)
Record rvid := mkRv { rv_id : nodeid; rv_attr : Z; rv_range : ustr; rv_enc : qname }.
(** A ReadValueId as constructed, types/ReadValueId.hpp 11-17 *)
Definition rvid0 : rvid := mkRv nodeid0 0 [] qname0.
(** OpcUaBinaryCodec.cpp 1538-1546 *)
Definition dec_rvid (old : rvid) : rd rvid :=
  do a <- dec_nodeid (rv_id old); do b <- dec_u32; do c <- dec_string (rv_range old); do d <- dec_qname (rv_enc old); ret (mkRv a b c d).
(** OpcUaBinaryCodec.cpp 1548-1556 *)
Definition enc_rvid (v : rvid) : wr := enc_nodeid (rv_id v) ;; enc_32 (rv_attr v) ;; enc_string (rv_range v) ;; enc_qname (rv_enc v).
(** msg/UaReadReq.hpp 12-18 *)
Record rdreq := mkRd { rr_hdr : reqhdr; rr_age : Z; rr_ts : Z; rr_nodes : list rvid }.
(** A UaReadReq as constructed, msg/UaReadReq.hpp 12-18 *)
Definition rdreq0 : rdreq := mkRd reqhdr0 0 0 [].
(** OpcUaBinaryCodec.cpp 1558-1566 *)
Definition dec_rdreq (old : rdreq) : rd rdreq :=
  do h <- dec_reqhdr (rr_hdr old); do a <- dec_double; do b <- dec_i32; do c <- dec_arr rvid0 dec_rvid (rr_nodes old); ret (mkRd h a b c).
(** OpcUaBinaryCodec.cpp 1568-1576 *)
Definition enc_rdreq (v : rdreq) : wr := enc_reqhdr (rr_hdr v) ;; enc_double (rr_age v) ;; enc_32 (rr_ts v) ;; enc_arr enc_rvid (rr_nodes v).
(** msg/UaReadRsp.hpp 10-15 *)
Record rdrsp := mkRs { rs_hdr : rsphdr; rs_res : list dvalue; rs_diag : list diag }.
(** A UaReadRsp as constructed, msg/UaReadRsp.hpp 10-15 *)
Definition rdrsp0 : rdrsp := mkRs rsphdr0 [] [].
(** OpcUaBinaryCodec.cpp 1578-1585 *)
Definition dec_rdrsp (old : rdrsp) : rd rdrsp :=
  do h <- dec_rsphdr (rs_hdr old); do a <- dec_arr dvalue0 dec_dvalue (rs_res old); do b <- dec_arr diag0 dec_diag (rs_diag old); ret (mkRs h a b).
(** OpcUaBinaryCodec.cpp 1587-1594 *)
Definition enc_rdrsp (v : rdrsp) : wr := enc_rsphdr (rs_hdr v) ;; enc_arr enc_dvalue (rs_res v) ;; enc_arr enc_diag (rs_diag v).

(** ** UaMsgCont (msg/UaMsgCont.hpp; OpcUaBinaryCodec.hpp 274-287): type id, then message *)
Record cont (A : Type) := mkCont { co_id : xnodeid; co_msg : A }.
Arguments mkCont {A}. Arguments co_id {A}. Arguments co_msg {A}.
(** The constructor sets the numeric identifier. msg/UaMsgCont.hpp:11-14. *)
Definition cont_new {A} (id : Z) (m : A) : cont A := mkCont (mkXn (mkNid 0 (IdNum id)) None None) m.
(** OpcUaBinaryCodec.hpp 274-287, decoding *)
Definition dec_cont {A} (d : A -> rd A) (old : cont A) : rd (cont A) :=
  do i <- dec_xnodeid (co_id old); do m <- d (co_msg old); ret (mkCont i m).
(** OpcUaBinaryCodec.hpp 274-287, encoding *)
Definition enc_cont {A} (e : A -> wr) (v : cont A) : wr := enc_xnodeid (co_id v) ;; e (co_msg v).

(** ** Headers in place (types/MessageHeader.hpp 19-35, types/UaMessageHeader.hpp 29-37) *)
Definition le32_at (m : list Z) (i : nat) : option Z :=
  match nth_error m i, nth_error m (i + 1), nth_error m (i + 2), nth_error m (i + 3) with
  | Some a, Some b, Some c, Some d => Some (u32 (or32 a b c d))
  | _, _, _, _ => None
  end.
(** types/MessageHeader.hpp 19-27 *)
Definition getMsgSizeFromHdr (m : list Z) : option Z := le32_at m 4.
(** types/UaMessageHeader.hpp 29-37 *)
Definition getSecureChannelIdFromHdr (m : list Z) : option Z := le32_at m 8.
(** types/MessageHeader.hpp 29-35 *)
Definition setPayloadSizeToHdr (m : list Z) (v : Z) : list Z :=
  upd (upd (upd (upd m 4 (u8 v)) 5 (u8 (Z.shiftr v 8))) 6 (u8 (Z.shiftr v 16))) 7 (u8 (Z.shiftr v 24)).
