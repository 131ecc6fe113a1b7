(** Model of the arithmetic in common/reactor/Timer.cpp (start),
    common/utils/TimeUtils.hpp and common/reactor/types/LinkAddr.hpp. *)
From Verif Require Import Base.
Local Open Scope Z_scope.

(** The largest std::int64_t. Model only. *)
Definition max_i64 : Z := 9223372036854775807.
(** The result of a signed operation is defined. Model only. *)
Definition fits_i64 (z : Z) : bool := (- max_i64 - 1 <=? z) && (z <=? max_i64).

(** Timer::start, Timer.cpp:71-89.  Arguments: clock_gettime result and the
    interval (microseconds, long).  [None]: signed overflow (undefined
    behaviour).  Otherwise the it_value passed to timerfd_settime; C++ [/] and
    [%] truncate. *)
Definition timer_start (now_sec now_nsec interval : Z) : option (Z * Z) :=
  let nsec := interval * 1000 in
  if fits_i64 nsec && fits_i64 (now_nsec + nsec) then
    let sec := now_sec + Z.quot (now_nsec + nsec) 1000000000 in
    if fits_i64 sec then Some (sec, Z.rem (now_nsec + nsec) 1000000000) else None
  else None.

(** timerfd_settime (Timer.cpp:85): rejects it_value outside its domain, and
    the value (0,0) disarms. *)
Definition settime_ok (v : Z * Z) : bool :=
  let '(s, n) := v in (0 <=? s) && (0 <=? n) && (n <? 1000000000).
(** The timer runs afterwards: an accepted value other than (0,0). Timer.cpp:71-102. *)
Definition settime_arms (v : Z * Z) : bool :=
  let '(s, n) := v in negb ((s =? 0) && (n =? 0)).

(** getCurrentDateTime, TimeUtils.hpp:9-31, for the gettimeofday result
    (tv_sec, tv_usec).  Constants of lines 19-28. *)
Definition secs_correction : Z :=
  (1970 - 1601) * 31536000 + (Z.quot (1970 - 1601) 4 - 3) * 86400.
(** TimeUtils.hpp:9-31; [None]: signed overflow. *)
Definition date_time (sec usec : Z) : option Z :=
  let a := (sec + secs_correction) * 1000 * 1000 * 10 in
  let r := a + Z.rem usec 1000000 * 10 in
  if fits_i64 a && fits_i64 r then Some r else None.

(** [char] is signed on the supported targets: an octet stored in LinkAddr's
    [char data[16]] (LinkAddr.hpp:15) reads back sign-extended. *)
Definition schar (b : Z) : Z := if b <? 128 then b else b - 256.

(** ipv4port, LinkAddr.hpp:18-23. *)
Definition ipv4port (d4 d5 : Z) : Z :=
  let a := u16 (schar d4) in
  let b := u16 (schar d5) in
  u16 (Z.lor (Z.shiftl a 8) b).

(** ipv4addr, LinkAddr.hpp:25-32 (all shifts in uint32). *)
Definition ipv4addr (d0 d1 d2 d3 : Z) : Z :=
  let a := u32 (schar d0) in
  let b := u32 (schar d1) in
  let c := u32 (schar d2) in
  let d := u32 (schar d3) in
  Z.lor (Z.lor (Z.lor (u32 (Z.shiftl a 24)) (u32 (Z.shiftl b 16))) (u32 (Z.shiftl c 8))) d.
