From Verif Require Import Base TimeModel TimeSpec.
Local Open Scope Z_scope.

Lemma fits_true z : fits_i64 z = true <-> - max_i64 - 1 <= z <= max_i64.
Proof. unfold fits_i64. lia. Qed.

Lemma timer_deadline now_sec now_nsec interval :
  0 <= now_sec -> 0 <= now_nsec < 1000000000 -> 0 <= interval ->
  now_nsec + interval * 1000 <= max_i64 ->
  now_sec + (now_nsec + interval * 1000) / 1000000000 <= max_i64 ->
  exists s n, timer_start now_sec now_nsec interval = Some (s, n) /\
    0 <= n < 1000000000 /\
    s * 1000000000 + n = now_sec * 1000000000 + now_nsec + interval * 1000 /\
    settime_ok (s, n) = true /\
    (0 < now_sec + now_nsec + interval -> settime_arms (s, n) = true).
Proof.
  intros H1 H2 H3 H4 H5. unfold timer_start.
  rewrite (proj2 (fits_true (interval * 1000))) by (unfold max_i64 in *; lia).
  rewrite (proj2 (fits_true (now_nsec + interval * 1000))) by (unfold max_i64 in *; lia).
  cbn [andb].
  rewrite Z.quot_div_nonneg, Z.rem_mod_nonneg by lia.
  rewrite (proj2 (fits_true _)) by (unfold max_i64 in *; lia).
  eexists. eexists. split; [reflexivity|].
  unfold settime_ok, settime_arms. repeat split; try lia.
Qed.

(** Calendar lemmas. *)
Lemma days_over_app a : forall y b, days_over y (a + b) = days_over y a + days_over (y + Z.of_nat a) b.
Proof.
  induction a as [|a IH]; intros y b.
  - cbn. now rewrite Z.add_0_r.
  - cbn [Nat.add days_over]. rewrite IH.
    replace (y + Z.of_nat (S a)) with (y + 1 + Z.of_nat a) by lia. lia.
Qed.

Lemma days_1601_1970 : days_over 1601 (Z.to_nat (1970 - 1601)) = 134774.
Proof. vm_compute. reflexivity. Qed.

Lemma secs_corr_value : secs_correction = 86400 * 134774.
Proof. vm_compute. reflexivity. Qed.

Lemma seconds_since_1601 c : 1970 <= c_year c ->
  seconds_since 1601 c = seconds_since 1970 c + 86400 * 134774.
Proof.
  intros H. unfold seconds_since.
  replace (Z.to_nat (c_year c - 1601)) with (Z.to_nat (1970 - 1601) + Z.to_nat (c_year c - 1970))%nat by lia.
  rewrite days_over_app, days_1601_1970.
  replace (1601 + Z.of_nat (Z.to_nat (1970 - 1601))) with 1970 by lia.
  lia.
Qed.

Lemma date_time_calendar c usec : civil_ok c -> 0 <= usec < 1000000 ->
  seconds_since 1601 c * 10000000 + usec * 10 <= max_i64 ->
  (forall c', civil_ok c' -> 0 <= seconds_since 1970 c') ->
  date_time (seconds_since 1970 c) usec = Some (seconds_since 1601 c * 10000000 + usec * 10).
Proof.
  intros Hc Hu Hb Hpos. specialize (Hpos c Hc). destruct Hc as (Hy & _).
  rewrite (seconds_since_1601 c Hy) in *. rewrite <- secs_corr_value in *.
  set (s := seconds_since 1970 c) in *. unfold date_time.
  assert (Hcorr : secs_correction = 11644473600) by (vm_compute; reflexivity).
  rewrite (proj2 (fits_true ((s + secs_correction) * 1000 * 1000 * 10))) by (unfold max_i64 in *; lia).
  rewrite Z.rem_small by lia.
  rewrite (proj2 (fits_true _)) by (unfold max_i64 in *; lia).
  cbn [andb]. f_equal. lia.
Qed.

Lemma days_over_nonneg n : forall y, 0 <= days_over y n.
Proof. induction n; intros; cbn; [lia|]. specialize (IHn (y + 1)). unfold year_days. destruct (leap y); lia. Qed.
Lemma months_over_nonneg n : forall y m, 0 <= months_over y m n.
Proof.
  induction n; intros; cbn [months_over]; [lia|]. specialize (IHn y (m + 1)).
  assert (0 <= month_days y m).
  { unfold month_days. repeat match goal with |- context[match ?x with _ => _ end] => destruct x end; lia. }
  lia.
Qed.
Lemma seconds_nonneg c : civil_ok c -> 0 <= seconds_since 1970 c.
Proof.
  intros (H1 & H2 & H3 & H4 & H5 & H6). unfold seconds_since.
  pose proof (days_over_nonneg (Z.to_nat (c_year c - 1970)) 1970).
  pose proof (months_over_nonneg (Z.to_nat (c_month c - 1)) (c_year c) 1). lia.
Qed.

Lemma date_time_exact c usec : civil_ok c -> 0 <= usec < 1000000 ->
  seconds_since 1601 c * 10000000 + usec * 10 <= max_i64 ->
  date_time (seconds_since 1970 c) usec = Some (seconds_since 1601 c * 10000000 + usec * 10).
Proof. intros. apply date_time_calendar; auto. apply seconds_nonneg. Qed.

Lemma date_time_monotone s1 u1 s2 u2 t1 t2 :
  0 <= u1 < 1000000 -> 0 <= u2 < 1000000 ->
  date_time s1 u1 = Some t1 -> date_time s2 u2 = Some t2 ->
  (t1 < t2 <-> s1 < s2 \/ s1 = s2 /\ u1 < u2).
Proof.
  intros H1 H2 E1 E2. unfold date_time in *.
  destruct (_ && _) in E1; [|discriminate E1]. destruct (_ && _) in E2; [|discriminate E2].
  injection E1 as <-. injection E2 as <-. rewrite !Z.rem_small by lia. lia.
Qed.

(** Link addresses. *)
Lemma lor_disjoint a b n : 0 <= n -> 0 <= b < 2 ^ n -> Z.lor (a * 2 ^ n) b = a * 2 ^ n + b.
Proof.
  intros Hn Hb.
  rewrite <- Z.lxor_lor.
  - rewrite <- Z.add_nocarry_lxor; auto.
    apply Z.bits_inj'. intros i Hi. rewrite Z.land_spec, Z.bits_0.
    destruct (Z.ltb_spec i n).
    + rewrite Z.mul_pow2_bits_low by lia. reflexivity.
    + destruct (Z.eq_dec b 0) as [->|]; [now rewrite Z.bits_0, andb_false_r|].
      rewrite (Z.bits_above_log2 b i); [now rewrite andb_false_r|lia|].
      assert (Z.log2 b < n) by (apply Z.log2_lt_pow2; lia). lia.
  - apply Z.bits_inj'. intros i Hi. rewrite Z.land_spec, Z.bits_0.
    destruct (Z.ltb_spec i n).
    + rewrite Z.mul_pow2_bits_low by lia. reflexivity.
    + destruct (Z.eq_dec b 0) as [->|]; [now rewrite Z.bits_0, andb_false_r|].
      rewrite (Z.bits_above_log2 b i); [now rewrite andb_false_r|lia|].
      assert (Z.log2 b < n) by (apply Z.log2_lt_pow2; lia). lia.
Qed.

(** Value with sign extension made explicit: the high part is all ones. *)
Lemma port_low d4 d5 : is_byte d4 -> is_byte d5 -> d5 < 128 -> ipv4port d4 d5 = d4 * 256 + d5.
Proof.
  unfold is_byte, ipv4port. intros H4 H5 Hlt.
  assert (E5 : u16 (schar d5) = d5) by (unfold schar, u16; destruct (Z.ltb_spec d5 128); [apply Z.mod_small|]; lia).
  rewrite E5, Z.shiftl_mul_pow2 by lia. rewrite lor_disjoint by (change (2^8) with 256; lia).
  change (2^8) with 256. unfold u16, schar. destruct (Z.ltb_spec d4 128).
  - rewrite (Z.mod_small d4) by lia. apply Z.mod_small. lia.
  - lia.
Qed.

Lemma port_high d4 d5 : is_byte d4 -> is_byte d5 -> 128 <= d5 -> ipv4port d4 d5 = 255 * 256 + d5.
Proof.
  unfold is_byte, ipv4port. intros H4 H5 Hlt.
  assert (E5 : u16 (schar d5) = 255 * 2 ^ 8 + d5).
  { unfold schar, u16. change (2^8) with 256. destruct (Z.ltb_spec d5 128); lia. }
  rewrite E5. rewrite <- (lor_disjoint 255 d5 8) by (change (2^8) with 256; lia).
  rewrite Z.lor_assoc. rewrite Z.shiftl_mul_pow2 by lia.
  set (a := u16 (schar d4)). assert (Ha : 0 <= a) by (unfold a, u16; lia).
  assert (EL : Z.lor (a * 2 ^ 8) (255 * 2 ^ 8) = Z.lor a 255 * 2 ^ 8).
  { rewrite <- !Z.shiftl_mul_pow2 by lia. now rewrite Z.shiftl_lor. }
  rewrite EL, lor_disjoint by (change (2^8) with 256; lia).
  unfold u16. change (2^8) with 256.
  (* lor a 255 = (a / 256) * 256 + 255 *)
  assert (EA : Z.lor a 255 = (a / 256) * 256 + 255).
  { rewrite (Z.div_mod a 256) at 1 by lia. rewrite (Z.mul_comm 256).
    change 256 with (2 ^ 8) at 2. rewrite <- (lor_disjoint (a / 256) (a mod 256) 8)
      by (change (2^8) with 256; lia).
    rewrite <- Z.lor_assoc.
    assert (EM : Z.lor (a mod 256) 255 = 255).
    { change 255 with (Z.ones 8). rewrite Z.lor_ones_low; [reflexivity|lia|].
      destruct (Z.eq_dec (a mod 256) 0) as [->|]; [cbn; lia|].
      apply Z.log2_lt_pow2; [lia|change (2^8) with 256; lia]. }
    rewrite EM. change 256 with (2^8) at 2. rewrite lor_disjoint by (change (2^8) with 256; lia). reflexivity. }
  rewrite EA. lia.
Qed.

Lemma port_iff d4 d5 : is_byte d4 -> is_byte d5 ->
  (ipv4port d4 d5 = d4 * 256 + d5 <-> d5 < 128 \/ d4 = 255).
Proof.
  intros H4 H5. destruct (Z.ltb_spec d5 128).
  - rewrite port_low by auto. lia.
  - rewrite port_high by auto. lia.
Qed.

(** Byte lanes. *)
Lemma lor_lane a x b y : 0 <= a -> 0 <= b -> is_byte x -> is_byte y ->
  Z.lor (a * 256 + x) (b * 256 + y) = Z.lor a b * 256 + Z.lor x y.
Proof.
  unfold is_byte. intros Ha Hb Hx Hy. change 256 with (2 ^ 8).
  assert (Hxy : 0 <= Z.lor x y < 2 ^ 8).
  { split; [apply Z.lor_nonneg; lia|].
    destruct (Z.eq_dec (Z.lor x y) 0) as [->|]; [reflexivity|].
    assert (0 <= Z.lor x y) by (apply Z.lor_nonneg; lia).
    apply Z.log2_lt_pow2; [lia|]. rewrite Z.log2_lor by lia.
    destruct (Z.eq_dec x 0) as [->|]; destruct (Z.eq_dec y 0) as [->|]; cbn [Z.log2]; try lia.
    - assert (Z.log2 y < 8) by (apply Z.log2_lt_pow2; [lia|change (2^8) with 256; lia]). lia.
    - assert (Z.log2 x < 8) by (apply Z.log2_lt_pow2; [lia|change (2^8) with 256; lia]). lia.
    - assert (Z.log2 y < 8) by (apply Z.log2_lt_pow2; [lia|change (2^8) with 256; lia]).
      assert (Z.log2 x < 8) by (apply Z.log2_lt_pow2; [lia|change (2^8) with 256; lia]). lia. }
  rewrite <- !lor_disjoint by (change (2^8) with 256 in *; lia).
  rewrite <- !Z.shiftl_mul_pow2 by lia. rewrite Z.shiftl_lor.
  rewrite <- !Z.lor_assoc. f_equal. rewrite !Z.lor_assoc. f_equal. apply Z.lor_comm.
Qed.

Lemma lor_255 x : is_byte x -> Z.lor x 255 = 255.
Proof.
  unfold is_byte. intros H. change 255 with (Z.ones 8). apply Z.lor_ones_low; [lia|].
  destruct (Z.eq_dec x 0) as [->|]; [cbn; lia|].
  apply Z.log2_lt_pow2; [lia|change (2^8) with 256; lia].
Qed.

Definition lanes (a b c d : Z) : Z := ((a * 256 + b) * 256 + c) * 256 + d.

Lemma lor_lanes a b c d a' b' c' d' :
  is_byte a -> is_byte b -> is_byte c -> is_byte d ->
  is_byte a' -> is_byte b' -> is_byte c' -> is_byte d' ->
  Z.lor (lanes a b c d) (lanes a' b' c' d') = lanes (Z.lor a a') (Z.lor b b') (Z.lor c c') (Z.lor d d').
Proof.
  unfold lanes, is_byte. intros. rewrite !lor_lane by (unfold is_byte; lia). reflexivity.
Qed.

Definition ext (x : Z) : Z := if x <? 128 then 0 else 255.

Lemma sext_lanes x k : is_byte x ->
  (k = 0 -> u32 (Z.shiftl (u32 (schar x)) k) = lanes (ext x) (ext x) (ext x) x) /\
  (k = 8 -> u32 (Z.shiftl (u32 (schar x)) k) = lanes (ext x) (ext x) x 0) /\
  (k = 16 -> u32 (Z.shiftl (u32 (schar x)) k) = lanes (ext x) x 0 0) /\
  (k = 24 -> u32 (Z.shiftl (u32 (schar x)) k) = lanes x 0 0 0).
Proof.
  unfold is_byte. intros Hx.
  repeat split; intros ->; rewrite Z.shiftl_mul_pow2 by lia; unfold u32, schar, ext, lanes;
    [change (2^0) with 1|change (2^8) with 256|change (2^16) with 65536|change (2^24) with 16777216];
    destruct (Z.ltb_spec x 128); lia.
Qed.

Lemma ext_byte x : is_byte (ext x).
Proof. unfold ext, is_byte. destruct (_ <? _); lia. Qed.

Lemma lor_ext x y : is_byte x -> Z.lor x (ext y) = if y <? 128 then x else 255.
Proof. intros Hx. unfold ext. destruct (_ <? _); [apply Z.lor_0_r|now apply lor_255]. Qed.

Lemma addr_value a b c d : is_byte a -> is_byte b -> is_byte c -> is_byte d ->
  ipv4addr a b c d =
  lanes (if (b <? 128) && (c <? 128) && (d <? 128) then a else 255)
        (if (c <? 128) && (d <? 128) then b else 255)
        (if d <? 128 then c else 255) d.
Proof.
  intros Ha Hb Hc Hd. unfold ipv4addr.
  rewrite (proj2 (proj2 (proj2 (sext_lanes a 24 Ha))) eq_refl).
  rewrite (proj1 (proj2 (proj2 (sext_lanes b 16 Hb))) eq_refl).
  rewrite (proj1 (proj2 (sext_lanes c 8 Hc)) eq_refl).
  assert (Ed : u32 (schar d) = lanes (ext d) (ext d) (ext d) d).
  { rewrite <- (proj1 (sext_lanes d 0 Hd) eq_refl). rewrite Z.shiftl_0_r.
    unfold u32. now rewrite Z.mod_mod by lia. }
  rewrite Ed.
  assert (B0 : is_byte 0) by (unfold is_byte; lia).
  assert (B255 : is_byte 255) by (unfold is_byte; lia).
  assert (BI : forall (t : bool) x, is_byte x -> is_byte (if t then x else 255)) by (intros []; auto).
  rewrite lor_lanes by auto using ext_byte.
  rewrite ?Z.lor_0_l, ?Z.lor_0_r, (lor_ext a b) by auto.
  rewrite lor_lanes by auto using ext_byte.
  rewrite ?Z.lor_0_l, ?Z.lor_0_r, !lor_ext by auto.
  rewrite lor_lanes by auto using ext_byte.
  rewrite ?Z.lor_0_l, ?Z.lor_0_r, !lor_ext by auto.
  destruct (b <? 128), (c <? 128), (d <? 128); reflexivity.
Qed.

Lemma addr_iff a b c d : is_byte a -> is_byte b -> is_byte c -> is_byte d ->
  (ipv4addr a b c d = be_val [a; b; c; d] <->
   (b < 128 \/ a = 255) /\ (c < 128 \/ a = 255 /\ b = 255) /\ (d < 128 \/ a = 255 /\ b = 255 /\ c = 255)).
Proof.
  intros Ha Hb Hc Hd. rewrite addr_value by auto. unfold lanes, is_byte in *.
  assert (E : be_val [a; b; c; d] = ((a * 256 + b) * 256 + c) * 256 + d) by (unfold be_val; cbn [rev app le_val]; lia).
  rewrite E.
  destruct (Z.ltb_spec b 128), (Z.ltb_spec c 128), (Z.ltb_spec d 128); cbn [andb]; lia.
Qed.

Lemma port_iff_be d4 d5 : is_byte d4 -> is_byte d5 ->
  (ipv4port d4 d5 = be_val [d4; d5] <-> d5 < 128 \/ d4 = 255).
Proof.
  intros H4 H5. rewrite <- (port_iff d4 d5) by auto.
  assert (E : be_val [d4; d5] = d4 * 256 + d5) by (unfold be_val; cbn [rev app le_val]; lia).
  now rewrite E.
Qed.
