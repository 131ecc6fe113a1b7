(** Model of the comparisons of OPC UA values: the [operator==] of common/ua/common/types.  An octet string, a number and a
    list are represented as in [UaCodecModel]; the standard library's comparisons of [std::string], [std::vector],
    [std::array], [std::optional] and [std::variant] are written out. *)
From Verif Require Import Base UaCodecModel.
Local Open Scope Z_scope.

(** [std::vector::operator==], [std::array::operator==], [std::string::operator==]: as many elements, and each equal to its
    counterpart.  types/DataType.hpp 89-108 ([StringType]), 117-120. *)
Fixpoint list_eq {A} (e : A -> A -> bool) (a b : list A) : bool :=
  match a, b with
  | [], [] => true
  | x :: a', y :: b' => e x y && list_eq e a' b'
  | _, _ => false
  end.
(** [StringType::operator==], types/DataType.hpp 98-101. *)
Definition str_eq (a b : ustr) : bool := list_eq Z.eqb a b.
(** [std::optional::operator==]; types/DataType.hpp 111. *)
Definition opt_eq {A} (e : A -> A -> bool) (a b : option A) : bool :=
  match a, b with
  | Some x, Some y => e x y
  | None, None => true
  | _, _ => false
  end.
(** One pair of [compare], types/StructType.hpp 20-39, for strings: a missing one counts as an empty one. *)
Definition cmp_opt (rhs lhs : option ustr) : bool :=
  match lhs, rhs with
  | Some x, Some y => str_eq x y
  | _, _ => negb ((match lhs with Some x => negb (Z.of_nat (length x) =? 0) | None => false end)
                  || (match rhs with Some y => negb (Z.of_nat (length y) =? 0) | None => false end))
  end.
(** types/Guid.hpp 18-24 *)
Definition guid_eq (a b : guid) : bool :=
  (g1 a =? g1 b) && (g2 a =? g2 b) && (g3 a =? g3 b) && list_eq Z.eqb (g4 a) (g4 b).
(** [std::variant::operator==] on the four kinds of identifier, types/NodeId.hpp 14-23. *)
Definition idval_eq (a b : idval) : bool :=
  match a, b with
  | IdNum x, IdNum y => x =? y
  | IdStr x, IdStr y => str_eq x y
  | IdGuid x, IdGuid y => guid_eq x y
  | IdOpq x, IdOpq y => str_eq x y
  | _, _ => false
  end.
(** types/NodeId.hpp 25-29 *)
Definition nodeid_eq (a b : nodeid) : bool := (n_ns a =? n_ns b) && idval_eq (n_val a) (n_val b).
(** types/QualifiedName.hpp 13-17 *)
Definition qname_eq (a b : qname) : bool := (qn_ns a =? qn_ns b) && str_eq (qn_name a) (qn_name b).
(** types/LocalizedText.hpp 13-20 *)
Definition ltext_eq (a b : ltext) : bool := cmp_opt (lt_locale a) (lt_locale b) && cmp_opt (lt_text a) (lt_text b).
(** types/ExpandedNodeId.hpp 17-22 *)
Definition xnodeid_eq (a b : xnodeid) : bool :=
  nodeid_eq (xn_id a) (xn_id b) && opt_eq str_eq (xn_uri a) (xn_uri b) && opt_eq Z.eqb (xn_srv a) (xn_srv b).
(** types/ExtensionObject.hpp 15-19 *)
Definition extobj_eq (a b : extobj) : bool := nodeid_eq (xo_id a) (xo_id b) && opt_eq str_eq (xo_body a) (xo_body b).
(** types/DiagnosticInfo.hpp 22-40 *)
Fixpoint diag_eq (x y : diag) : bool :=
  let 'mkDiag a b c d e f g := x in
  let 'mkDiag a' b' c' d' e' f' g' := y in
  let cmpInner := match g, g' with
                  | Some i, Some j => diag_eq i j
                  | _, _ => negb (is_some g || is_some g')
                  end in
  opt_eq Z.eqb a a' && opt_eq Z.eqb b b' && opt_eq Z.eqb c c' && opt_eq Z.eqb d d' && opt_eq str_eq e e' &&
  opt_eq Z.eqb f f' && cmpInner.
(** Comparison of two [float]s given by their bit patterns: the machine's IEEE 754 comparison, which the implicit conversion of
    [NumericType] (types/DataType.hpp 83-84) leads to.  No NaN equals anything; the two zeros are equal. *)
Definition f32_eq (a b : Z) : bool :=
  let nan x := 2139095040 <? Z.land x 2147483647 in
  negb (nan a) && negb (nan b) && ((a =? b) || ((Z.land a 2147483647 =? 0) && (Z.land b 2147483647 =? 0))).
(** The same for [double]; types/DataType.hpp 83-84. *)
Definition f64_eq (a b : Z) : bool :=
  let nan x := 9218868437227405312 <? Z.land x 9223372036854775807 in
  negb (nan a) && negb (nan b) && ((a =? b) || ((Z.land a 9223372036854775807 =? 0) && (Z.land b 9223372036854775807 =? 0))).
(** [std::variant::operator==] on the 44 alternatives, types/Variant.hpp 33-80: different alternatives are different. *)
Definition vval_eq (a b : vval) : bool :=
  match a, b with
  | VBool x, VBool y => Bool.eqb x y
  | VSByte x, VSByte y | VByte x, VByte y | VInt16 x, VInt16 y | VUInt16 x, VUInt16 y | VInt32 x, VInt32 y
  | VUInt32 x, VUInt32 y | VInt64 x, VInt64 y | VUInt64 x, VUInt64 y | VDateTime x, VDateTime y | VXml x, VXml y
  | VStatus x, VStatus y => x =? y
  | VFloat x, VFloat y => f32_eq x y
  | VDouble x, VDouble y => f64_eq x y
  | VString x, VString y | VBString x, VBString y => str_eq x y
  | VGuid x, VGuid y => guid_eq x y
  | VNodeId x, VNodeId y => nodeid_eq x y
  | VXNodeId x, VXNodeId y => xnodeid_eq x y
  | VQName x, VQName y => qname_eq x y
  | VLText x, VLText y => ltext_eq x y
  | VExtObj x, VExtObj y => extobj_eq x y
  | ABool x, ABool y => list_eq Bool.eqb x y
  | ASByte x, ASByte y | AByte x, AByte y | AInt16 x, AInt16 y | AUInt16 x, AUInt16 y | AInt32 x, AInt32 y
  | AUInt32 x, AUInt32 y | AInt64 x, AInt64 y | AUInt64 x, AUInt64 y | ADateTime x, ADateTime y | AXml x, AXml y
  | AStatus x, AStatus y => list_eq Z.eqb x y
  | AFloat x, AFloat y => list_eq f32_eq x y
  | ADouble x, ADouble y => list_eq f64_eq x y
  | AString x, AString y | ABString x, ABString y => list_eq str_eq x y
  | AGuid x, AGuid y => list_eq guid_eq x y
  | ANodeId x, ANodeId y => list_eq nodeid_eq x y
  | AXNodeId x, AXNodeId y => list_eq xnodeid_eq x y
  | AQName x, AQName y => list_eq qname_eq x y
  | ALText x, ALText y => list_eq ltext_eq x y
  | AExtObj x, AExtObj y => list_eq extobj_eq x y
  | _, _ => false
  end.
(** types/Variant.hpp 84-97.  The array dimensions of both sides are dereferenced without asking whether they are there:
    [None] is that undefined behaviour. *)
Definition variant_eq (a b : variant) : option bool :=
  let cmpValue := match vr_val a, vr_val b with
                  | Some x, Some y => vval_eq x y
                  | _, _ => negb (is_some (vr_val a) || is_some (vr_val b))
                  end in
  match vr_dims a, vr_dims b with
  | Some d, Some e => Some (cmpValue && list_eq Z.eqb d e)
  | _, _ => None
  end.
(** types/DataValue.hpp 18-26; [None]: undefined behaviour in the comparison of the variants, which comes first. *)
Definition dvalue_eq (a b : dvalue) : option bool :=
  match variant_eq (dv_val a) (dv_val b) with
  | None => None
  | Some v => Some (v && opt_eq Z.eqb (dv_st a) (dv_st b) && opt_eq Z.eqb (dv_sts a) (dv_sts b)
                      && opt_eq Z.eqb (dv_spico a) (dv_spico b) && opt_eq Z.eqb (dv_vts a) (dv_vts b)
                      && opt_eq Z.eqb (dv_vpico a) (dv_vpico b))
  end.
