(** Specification for the comparison of OPC UA values: when two values carry the same information. *)
From Verif Require Import Base UaCodecModel.
Local Open Scope Z_scope.

(** The text of an optional string: none is no text. *)
Definition text_of (o : option ustr) : ustr := match o with Some s => s | None => [] end.
(** Two localized texts that read the same. *)
Definition same_text (a b : ltext) : Prop :=
  text_of (lt_locale a) = text_of (lt_locale b) /\ text_of (lt_text a) = text_of (lt_text b).
(** A bit pattern with [e] exponent bits above [m] bits of significand is not a number (IEEE 754, 3.4). *)
Definition not_a_number (e m x : Z) : Prop := (x / 2 ^ m) mod 2 ^ e = 2 ^ e - 1 /\ x mod 2 ^ m <> 0.
(** A bit pattern is one of the two zeros. *)
Definition is_zero (e m x : Z) : Prop := (x / 2 ^ m) mod 2 ^ e = 0 /\ x mod 2 ^ m = 0.
(** Two patterns are the same number. *)
Definition same_number (e m a b : Z) : Prop :=
  ~ not_a_number e m a /\ ~ not_a_number e m b /\ (a = b \/ is_zero e m a /\ is_zero e m b).
(** Two contents of a variant that carry the same information: the same but for the forms of numbers and localized texts. *)
Definition same_content (a b : vval) : Prop :=
  match a, b with
  | VFloat x, VFloat y => same_number 8 23 x y
  | VDouble x, VDouble y => same_number 11 52 x y
  | VLText x, VLText y => same_text x y
  | AFloat x, AFloat y => Forall2 (same_number 8 23) x y
  | ADouble x, ADouble y => Forall2 (same_number 11 52) x y
  | ALText x, ALText y => Forall2 same_text x y
  | _, _ => a = b
  end.
(** Contents without a NaN. *)
Definition no_nan (v : vval) : Prop :=
  match v with
  | VFloat x => ~ not_a_number 8 23 x
  | VDouble x => ~ not_a_number 11 52 x
  | AFloat x => Forall (fun y => ~ not_a_number 8 23 y) x
  | ADouble x => Forall (fun y => ~ not_a_number 11 52 y) x
  | _ => True
  end.
