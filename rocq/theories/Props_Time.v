(** C13 - C15: timers, timestamps, link addresses. *)
From Verif Require Import Base TimeModel TimeSpec TimeProofs.
Local Open Scope Z_scope.

(** C13. *)
Theorem C13_timer_deadline : forall now_sec now_nsec interval,
  0 <= now_sec -> 0 <= now_nsec < 1000000000 -> 0 <= interval ->
  now_nsec + interval * 1000 <= max_i64 ->
  now_sec + (now_nsec + interval * 1000) / 1000000000 <= max_i64 ->
  exists s n, timer_start now_sec now_nsec interval = Some (s, n) /\
    0 <= n < 1000000000 /\
    s * 1000000000 + n = now_sec * 1000000000 + now_nsec + interval * 1000 /\
    settime_ok (s, n) = true /\
    (0 < now_sec + now_nsec + interval -> settime_arms (s, n) = true).
Proof. exact timer_deadline. Qed.
Print Assumptions C13_timer_deadline.

Example C13_case : timer_start 5 999999999 3000000 = Some (8, 999999999)
  /\ timer_start 5 999999000 1 = Some (6, 0).
Proof. split; vm_compute; reflexivity. Qed.

(** C14: for every calendar instant from 1970 on that fits the result type,
    the code returns the 100 ns ticks since 1601-01-01 of the proleptic
    Gregorian calendar. *)
Theorem C14_timestamp_exact : forall c usec, civil_ok c -> 0 <= usec < 1000000 ->
  seconds_since 1601 c * 10000000 + usec * 10 <= max_i64 ->
  date_time (seconds_since 1970 c) usec = Some (seconds_since 1601 c * 10000000 + usec * 10).
Proof. exact date_time_exact. Qed.
Print Assumptions C14_timestamp_exact.

Theorem C14_timestamp_monotone : forall s1 u1 s2 u2 t1 t2,
  0 <= u1 < 1000000 -> 0 <= u2 < 1000000 ->
  date_time s1 u1 = Some t1 -> date_time s2 u2 = Some t2 ->
  (t1 < t2 <-> s1 < s2 \/ s1 = s2 /\ u1 < u2).
Proof. exact date_time_monotone. Qed.
Print Assumptions C14_timestamp_monotone.

(** 29 February 2024, 12:34:56. *)
Example C14_case : civil_ok (mkCivil 2024 2 29 12 34 56) /\
  seconds_since 1970 (mkCivil 2024 2 29 12 34 56) = 1709210096 /\
  seconds_since 1601 (mkCivil 2024 2 29 12 34 56) * 10000000 <= max_i64.
Proof. split; [unfold civil_ok; cbn; lia|split; vm_compute; [reflexivity|discriminate]]. Qed.

(** C15 is false as stated; exactly when it holds: *)
Theorem C15_port_partial : forall d4 d5, is_byte d4 -> is_byte d5 ->
  (ipv4port d4 d5 = be_val [d4; d5] <-> d5 < 128 \/ d4 = 255).
Proof. exact port_iff_be. Qed.
Print Assumptions C15_port_partial.

Theorem C15_addr_partial : forall a b c d, is_byte a -> is_byte b -> is_byte c -> is_byte d ->
  (ipv4addr a b c d = be_val [a; b; c; d] <->
   (b < 128 \/ a = 255) /\ (c < 128 \/ a = 255 /\ b = 255) /\ (d < 128 \/ a = 255 /\ b = 255 /\ c = 255)).
Proof. exact addr_iff. Qed.
Print Assumptions C15_addr_partial.

Theorem C15_addresses_refuted :
  (exists d4 d5, is_byte d4 /\ is_byte d5 /\ ipv4port d4 d5 <> be_val [d4; d5]) /\
  (exists a b c d, is_byte a /\ is_byte b /\ is_byte c /\ is_byte d /\ ipv4addr a b c d <> be_val [a; b; c; d]).
Proof.
  split.
  - exists 1, 246. unfold is_byte. repeat split; try lia. vm_compute. discriminate.
  - exists 192, 168, 0, 10. unfold is_byte. repeat split; try lia. vm_compute. discriminate.
Qed.
Print Assumptions C15_addresses_refuted.

Example C15_case : ipv4port 17 17 = 4369 /\ ipv4addr 127 0 0 1 = 2130706433 /\ ipv4port 1 246 = 65526.
Proof. repeat split; vm_compute; reflexivity. Qed.
