(** Proleptic Gregorian calendar, independent of the code. *)
From Verif Require Import Base.
Local Open Scope Z_scope.

Definition leap (y : Z) : bool :=
  ((y mod 4 =? 0) && negb (y mod 100 =? 0)) || (y mod 400 =? 0).
Definition year_days (y : Z) : Z := if leap y then 366 else 365.

(** Days from 1 January [y] to 1 January [y + n]. *)
Fixpoint days_over (y : Z) (n : nat) : Z :=
  match n with O => 0 | S k => year_days y + days_over (y + 1) k end.

Definition month_days (y m : Z) : Z :=
  match m with
  | 2 => if leap y then 29 else 28
  | 4 | 6 | 9 | 11 => 30
  | _ => 31
  end.
Fixpoint months_over (y m : Z) (n : nat) : Z :=
  match n with O => 0 | S k => month_days y m + months_over y (m + 1) k end.

Record civil := mkCivil { c_year : Z; c_month : Z; c_day : Z; c_hour : Z; c_min : Z; c_sec : Z }.

Definition civil_ok (c : civil) : Prop :=
  1970 <= c_year c /\ 1 <= c_month c <= 12 /\ 1 <= c_day c <= month_days (c_year c) (c_month c) /\
  0 <= c_hour c < 24 /\ 0 <= c_min c < 60 /\ 0 <= c_sec c < 60.

(** Seconds from 1 January [epoch] 00:00:00 to [c] (no leap seconds, as in
    POSIX time and OPC UA DateTime). *)
Definition seconds_since (epoch : Z) (c : civil) : Z :=
  86400 * (days_over epoch (Z.to_nat (c_year c - epoch))
           + months_over (c_year c) 1 (Z.to_nat (c_month c - 1)) + (c_day c - 1))
  + 3600 * c_hour c + 60 * c_min c + c_sec c.
