From Verif Require Import Base ModbusCodecModel ModbusCodecSpec.
Local Open Scope Z_scope.

Lemma u8_byte z : is_byte (u8 z).
Proof. unfold is_byte, u8. apply Z.mod_pos_bound; lia. Qed.
Lemma u8_id z : is_byte z -> u8 z = z.
Proof. unfold is_byte, u8. intros. lia. Qed.
Lemma wrBe_val z : u8 (z / 256) * 256 + u8 z = z mod 65536.
Proof. unfold u8. lia. Qed.
Lemma wrBe_u16 z : is_u16 z -> u8 (z / 256) * 256 + u8 z = z.
Proof. unfold u8, is_u16. lia. Qed.

Lemma wr_pairs_length k : forall i data ps, wr_pairs k i data = Some ps -> length ps = (2 * k)%nat.
Proof.
  induction k as [|k IH]; intros i data ps H; cbn [wr_pairs] in H.
  - now inversion H.
  - destruct (nth_error data (S i)); [|discriminate]. destruct (nth_error data i); [|discriminate].
    destruct (wr_pairs k (S (S i)) data) eqn:E; [|discriminate]. inversion H; subst.
    apply IH in E. cbn. lia.
Qed.

Lemma wr_pairs_bytes k : forall i data ps, wr_pairs k i data = Some ps -> bytes_ok ps.
Proof.
  induction k as [|k IH]; intros i data ps H; cbn [wr_pairs] in H.
  - inversion H. constructor.
  - destruct (nth_error data (S i)); [|discriminate]. destruct (nth_error data i); [|discriminate].
    destruct (wr_pairs k (S (S i)) data) eqn:E; [|discriminate]. inversion H; subst.
    cbn. constructor; [apply u8_byte|]. constructor; [apply u8_byte|]. eapply IH; eauto.
Qed.

Lemma wr_pairs_some k : forall i data, (i + 2 * k <= length data)%nat -> exists ps, wr_pairs k i data = Some ps.
Proof.
  induction k as [|k IH]; intros i data H; cbn [wr_pairs]; [eauto|].
  destruct (nth_error data (S i)) eqn:E1; [|apply nth_error_None in E1; lia].
  destruct (nth_error data i) eqn:E2; [|apply nth_error_None in E2; lia].
  destruct (IH (S (S i)) data) as [ps ->]; [lia|]. eauto.
Qed.

(** Reading back what was written by the swapping loop. *)
Lemma rd_wr_pairs k : forall i src dst ps rest,
  bytes_ok src -> wr_pairs k i src = Some ps -> (i + 2 * k <= length dst)%nat ->
  firstn i dst = firstn i src ->
  exists dst', rd_pairs k i dst (ps ++ rest) = Some (dst', rest) /\
    length dst' = length dst /\ firstn (i + 2 * k) dst' = firstn (i + 2 * k) src.
Proof.
  induction k as [|k IH]; intros i src dst ps rest Hb Hw Hl Hf; cbn [wr_pairs rd_pairs] in *.
  - inversion Hw; subst. exists dst. replace (i + 2 * 0)%nat with i by lia. auto.
  - destruct (nth_error src (S i)) as [hi|] eqn:E1; [|discriminate].
    destruct (nth_error src i) as [lo|] eqn:E2; [|discriminate].
    destruct (wr_pairs k (S (S i)) src) as [r|] eqn:E3; [|discriminate]. inversion Hw; subst ps.
    assert (Hhi : is_byte hi) by (eapply (proj1 (Forall_forall _ _) Hb), nth_error_In; eauto).
    assert (Hlo : is_byte lo) by (eapply (proj1 (Forall_forall _ _) Hb), nth_error_In; eauto).
    unfold wr. rewrite (u8_id _ Hhi), (u8_id _ Hlo). cbn [app].
    destruct (Nat.ltb_spec (S i) (length dst)); [|lia].
    set (dst1 := upd (upd dst (S i) hi) i lo).
    assert (Hl1 : length dst1 = length dst) by (unfold dst1; now rewrite !upd_length).
    destruct (IH (S (S i)) src dst1 r rest Hb E3) as (dst' & P1 & P2 & P3).
    + rewrite Hl1. lia.
    + apply nth_error_ext. intros j.
      destruct (Nat.lt_ge_cases j (S (S i))) as [Hj|Hj].
      2:{ transitivity (@None Z); [|symmetry]; apply nth_error_None; rewrite firstn_length; lia. }
      assert (F : forall l : list Z, nth_error (firstn (S (S i)) l) j = nth_error l j).
      { intros l. rewrite <- (firstn_skipn (S (S i)) l) at 2.
        destruct (Nat.lt_ge_cases j (length (firstn (S (S i)) l))) as [Hk|Hk].
        - now rewrite nth_error_app1.
        - rewrite (proj2 (nth_error_None _ _) Hk). symmetry. apply nth_error_None.
          rewrite firstn_skipn. rewrite firstn_length in Hk. lia. }
      rewrite !F. unfold dst1.
      destruct (Nat.eq_dec j i) as [->|Hji].
      * rewrite nth_error_upd_eq by (rewrite upd_length; lia). auto.
      * rewrite nth_error_upd_neq by auto.
        destruct (Nat.eq_dec j (S i)) as [->|Hjs].
        -- rewrite nth_error_upd_eq by lia. auto.
        -- rewrite nth_error_upd_neq by auto.
           assert (Hj' : (j < i)%nat) by lia.
           assert (G : forall l : list Z, (j < length l)%nat -> nth_error (firstn i l) j = nth_error l j).
           { intros l Hjl. rewrite <- (firstn_skipn i l) at 2. rewrite nth_error_app1; auto.
             rewrite firstn_length. lia. }
           rewrite <- (G dst), <- (G src), Hf; auto.
           ++ assert (nth_error src i <> None) by congruence. apply nth_error_Some in H0. lia.
           ++ lia.
    + exists dst'. replace (i + 2 * S k)%nat with (S (S i) + 2 * k)%nat by lia.
      split; [exact P1|]. split; [lia|auto].
Qed.

Lemma pairs_even n : 0 <= n -> n mod 2 = 0 -> (2 * pairs n)%nat = Z.to_nat n.
Proof. intros. unfold pairs. lia. Qed.

Lemma rd_pairs_rest k : forall i data r d' r', rd_pairs k i data r = Some (d', r') ->
  length r = (2 * k + length r')%nat /\ length d' = length data /\ exists pre, r = pre ++ r'.
Proof.
  induction k as [|k IH]; intros i data r d' r' H; cbn [rd_pairs] in H.
  - inversion H; subst. split; [lia|]. split; auto. now exists [].
  - destruct r as [|a [|b r]]; try discriminate.
    destruct (S i <? length data)%nat; [|discriminate].
    apply IH in H as (H1 & H2 & pre & ->). rewrite !upd_length in H2. cbn [length].
    split; [lia|]. split; auto. now exists (a :: b :: pre).
Qed.

Lemma rd_pairs_some k : forall i data r, (i + 2 * k <= length data)%nat -> (2 * k <= length r)%nat ->
  exists d' r', rd_pairs k i data r = Some (d', r').
Proof.
  induction k as [|k IH]; intros i data r H1 H2; cbn [rd_pairs]; [eauto|].
  destruct r as [|a [|b r]]; cbn [length] in H2; try lia.
  destruct (Nat.ltb_spec (S i) (length data)); [|lia].
  apply IH; [rewrite !upd_length; lia|lia].
Qed.

Ltac funcs := unfold is_read_bits, is_read_regs, is_single, is_multi, readCoilStatus, readDiscreteInputs,
  readHoldingRegisters, readInputRegisters, forceSingleCoil, presetSingleRegister, presetMultipleRegisters,
  modbusErrorFn in *.

Lemma finish_ok o bs : finish o = EncOk bs -> o = Some bs /\ Z.of_nat (length bs) <= 260.
Proof.
  unfold finish. destruct o as [l|]; [|discriminate].
  destruct (Z.ltb_spec bufMaxLen (Z.of_nat (length l))); [discriminate|].
  destruct (Z.ltb_spec maxAduLen (Z.of_nat (length l))); [discriminate|].
  intros H1. inversion H1; subst. unfold maxAduLen in *. split; [auto|lia].
Qed.

(** Case analysis for a successful request encoding. *)
Lemma encode_req_cases q bs : encode_req q = EncOk bs ->
  q_addr q <= 247 /\
  ((In (q_func q) [1; 2; 3; 4] /\ pduLen (q_func q) (q_nitems q) <= 253 /\
    bs = wrBe (q_tid q) ++ wrBe 0 ++ wrBe 6 ++ wr (q_addr q) ++ wr (q_func q) ++ wrBe (q_start q) ++ wrBe (q_nitems q)) \/
   (In (q_func q) [5; 6] /\ q_nbytes q = 2 /\ exists d0 d1 tl, q_data q = d0 :: d1 :: tl /\
    (q_func q = 5 -> d1 = 0 /\ (d0 = 0 \/ d0 = 255)) /\
    bs = wrBe (q_tid q) ++ wrBe 0 ++ wrBe 6 ++ wr (q_addr q) ++ wr (q_func q) ++ wrBe (q_start q) ++ wr d1 ++ wr d0) \/
   (q_func q = 16 /\ q_nbytes q = q_nitems q * 2 /\ exists ps, wr_pairs (pairs (q_nbytes q)) 0 (q_data q) = Some ps /\
    bs = wrBe (q_tid q) ++ wrBe 0 ++ wrBe (7 + q_nbytes q) ++ wr (q_addr q) ++ wr (q_func q) ++ wrBe (q_start q) ++
         wrBe (q_nitems q) ++ wr (q_nbytes q) ++ ps)) /\
  Z.of_nat (length bs) <= 260.
Proof.
  unfold encode_req. destruct (Z.leb_spec (q_addr q) maxAddr) as [Ha|]; cbn [negb]; [|discriminate].
  unfold maxAddr in Ha.
  destruct (is_read_bits (q_func q) || is_read_regs (q_func q)) eqn:E1.
  { destruct (Z.ltb_spec maxPduLen (pduLen (q_func q) (q_nitems q))); [discriminate|].
    intros H1. apply finish_ok in H1 as [H1 H2]. apply (f_equal (fun o => match o with Some x => x | None => [] end)) in H1; cbv beta iota in H1; symmetry in H1. split; auto. split; auto. left.
    split; [cbn; funcs; lia|]. split; [unfold maxPduLen in *; lia|auto]. }
  destruct (is_single (q_func q)) eqn:E2.
  { destruct (q_nitems q =? 0); cbn [negb]; [|discriminate].
    destruct (Z.eqb_spec (q_nbytes q) 2); cbn [negb]; [|discriminate].
    destruct (q_data q) as [|d0 [|d1 tl]] eqn:Ed; cbn [nth_error]; try discriminate.
    destruct (coil_ok (q_func q) d0 d1) eqn:Ec; [|discriminate].
    intros H1. apply finish_ok in H1 as [H1 H2]. apply (f_equal (fun o => match o with Some x => x | None => [] end)) in H1; cbv beta iota in H1; symmetry in H1. split; auto. split; auto. right; left.
    split; [cbn; funcs; lia|]. split; [auto|]. exists d0, d1, tl. split; [auto|]. split; [|auto].
    intros E. unfold coil_ok in Ec. funcs. lia. }
  destruct (is_multi (q_func q)) eqn:E3; [|discriminate].
  destruct (Z.eqb_spec (q_nbytes q) (q_nitems q * 2)); cbn [negb]; [|discriminate].
  intros H1. apply finish_ok in H1 as [H1 H2]. split; auto. split; auto. right; right.
  split; [funcs; lia|]. split; auto.
  destruct (wr_pairs (pairs (q_nbytes q)) 0 (q_data q)) as [ps|] eqn:E4; [|discriminate].
  exists ps. apply (f_equal (fun o => match o with Some x => x | None => [] end)) in H1; cbv beta iota in H1; symmetry in H1. auto.
Qed.

Lemma firstn_upd2 (d : list Z) a b : (1 < length d)%nat -> firstn 2 (upd (upd d 1 b) 0 a) = [a; b].
Proof. destruct d as [|x [|y d]]; cbn; intros; try lia. reflexivity. Qed.

Ltac rdsimp := unfold wrBe, wr, rdBe; cbn [app rd]; rewrite ?wrBe_val.

Lemma req_roundtrip q bs junk q0 :
  req_ok q -> encode_req q = EncOk bs -> (260 <= length (q_data q0))%nat ->
  exists q', decode_req (bs ++ junk) q0 = DOk q' junk /\ req_received q q'.
Proof.
  intros (Ht & Hf & Ha & Hs & Hn & Hb & Hd & Hlen) He Hl.
  apply encode_req_cases in He as (Ha2 & [(Hin & Hp & ->)|[(Hin & Hnb & d0 & d1 & tl & Ed & _ & ->)|(Hfn & Hnb & ps & Ep & ->)]] & Hsz).
  - unfold decode_req. rdsimp. change (0 mod 65536 =? modbusProtocolId) with true. cbn [negb].
    rewrite (u8_id (q_addr q)) by (unfold is_byte, is_u16 in *; lia).
    destruct (Z.leb_spec (q_addr q) maxAddr); [|unfold maxAddr in *; lia]. cbn [negb].
    rewrite (u8_id (q_func q)) by auto.
    replace (is_read_bits (q_func q) || is_read_regs (q_func q)) with true by (cbn in Hin; funcs; lia).
    change (6 mod 65536 =? 6) with true. cbn [negb].
    rewrite (Z.mod_small (q_start q)), (Z.mod_small (q_nitems q)) by (unfold is_u16 in *; lia).
    destruct (Z.ltb_spec maxPduLen (pduLen (q_func q) (q_nitems q))); [unfold maxPduLen in *; lia|].
    eexists. split; [reflexivity|]. unfold req_received; cbn [q_tid q_func q_addr q_start q_nitems q_nbytes q_data].
    do 4 (split; [auto|]). split; [auto|intros HH; cbn in Hin, HH; lia].
  - rewrite Ed in Hd. inversion Hd as [|? ? Hd0 Hd']; subst. inversion Hd' as [|? ? Hd1 Hd'']; subst.
    unfold decode_req. rdsimp. change (0 mod 65536 =? modbusProtocolId) with true. cbn [negb].
    rewrite (u8_id (q_addr q)) by (unfold is_byte, is_u16 in *; lia).
    destruct (Z.leb_spec (q_addr q) maxAddr); [|unfold maxAddr in *; lia]. cbn [negb].
    rewrite (u8_id (q_func q)) by auto.
    replace (is_read_bits (q_func q) || is_read_regs (q_func q)) with false by (cbn in Hin; funcs; lia).
    replace (is_single (q_func q)) with true by (cbn in Hin; funcs; lia).
    change (6 mod 65536 =? 6) with true. cbn [negb].
    rewrite (Z.mod_small (q_start q)) by (unfold is_u16 in *; lia).
    rewrite (u8_id d0), (u8_id d1) by auto.
    destruct (Nat.ltb_spec 1 (length (q_data q0))); [|lia].
    eexists. split; [reflexivity|]. unfold req_received; cbn [q_tid q_func q_addr q_start q_nitems q_nbytes q_data].
    split; auto. split; auto. split; auto. split; auto. split.
    + intros HH; cbn in Hin, HH; lia.
    + intros _. split; [auto|]. unfold same_prefix. rewrite Hnb, Ed. change (Z.to_nat 2) with 2%nat.
      rewrite firstn_upd2 by lia. reflexivity.
  - assert (Hps := wr_pairs_length _ _ _ _ Ep).
    assert (Hev : (2 * pairs (q_nbytes q))%nat = Z.to_nat (q_nbytes q)).
    { apply pairs_even; unfold is_u16 in *; lia. }
    assert (Hnb2 : q_nbytes q <= 247).
    { unfold wrBe, wr in Hsz. rewrite !app_length in Hsz. cbn [length] in Hsz. unfold is_u16 in *. lia. }
    unfold decode_req. rdsimp. change (0 mod 65536 =? modbusProtocolId) with true. cbn [negb].
    rewrite (u8_id (q_addr q)) by (unfold is_byte, is_u16 in *; lia).
    destruct (Z.leb_spec (q_addr q) maxAddr); [|unfold maxAddr in *; lia]. cbn [negb].
    rewrite (u8_id (q_func q)) by auto.
    rewrite Hfn. change (is_read_bits 16 || is_read_regs 16) with false. change (is_single 16) with false.
    change (is_multi 16) with true.
    rewrite (Z.mod_small (q_start q)), (Z.mod_small (q_nitems q)) by (unfold is_u16 in *; lia).
    rewrite (u8_id (q_nbytes q)) by (unfold is_byte, is_u16 in *; lia).
    rewrite (proj2 (Z.eqb_eq _ _) Hnb). cbn [negb].
    replace ((7 + q_nbytes q) mod 65536 =? 7 + q_nbytes q) with true by (unfold is_u16 in *; lia). cbn [negb].
    destruct (rd_wr_pairs (pairs (q_nbytes q)) 0 (q_data q) (q_data q0) ps junk) as (dst' & P1 & P2 & P3); auto.
    { unfold is_u16 in *. lia. }
    rewrite P1. eexists. split; [reflexivity|].
    unfold req_received; cbn [q_tid q_func q_addr q_start q_nitems q_nbytes q_data].
    split; auto. split; auto. split; auto. split; auto. split; auto.
    intros _. split; auto. unfold same_prefix. rewrite <- Hev. exact P3.
Qed.

Lemma encode_rsp_cases a bs : encode_rsp a = EncOk bs ->
  ((a_func a = 143 /\
    bs = wrBe (a_tid a) ++ wrBe 0 ++ wrBe 3 ++ wr (a_addr a) ++ wr (a_func a) ++ wr (error_to_u8 (a_error a))) \/
   (In (a_func a) [3; 4] /\ a_nbytes a mod 2 = 0 /\ exists ps, wr_pairs (pairs (a_nbytes a)) 0 (a_data a) = Some ps /\
    bs = wrBe (a_tid a) ++ wrBe 0 ++ wrBe (3 + a_nbytes a) ++ wr (a_addr a) ++ wr (a_func a) ++ wr (a_nbytes a) ++ ps) \/
   (In (a_func a) [5; 6] /\ a_nbytes a = 2 /\ exists d0 d1 tl, a_data a = d0 :: d1 :: tl /\
    (a_func a = 5 -> d1 = 0 /\ (d0 = 0 \/ d0 = 255)) /\
    bs = wrBe (a_tid a) ++ wrBe 0 ++ wrBe 6 ++ wr (a_addr a) ++ wr (a_func a) ++ wrBe (a_start a) ++ wr d1 ++ wr d0) \/
   (a_func a = 16 /\
    bs = wrBe (a_tid a) ++ wrBe 0 ++ wrBe 6 ++ wr (a_addr a) ++ wr (a_func a) ++ wrBe (a_start a) ++ wrBe (a_nitems a))) /\
  Z.of_nat (length bs) <= 260.
Proof.
  unfold encode_rsp.
  destruct (Z.eqb_spec (a_func a) modbusErrorFn) as [E0|E0].
  { intros H1. apply finish_ok in H1 as [H1 H2]. apply (f_equal (fun o => match o with Some x => x | None => [] end)) in H1; cbv beta iota in H1; symmetry in H1. split; auto. }
  destruct (is_read_regs (a_func a)) eqn:E1.
  { destruct (Z.eqb_spec (a_nbytes a mod 2) 0) as [Hm|]; cbn [negb]; [|discriminate].
    intros H1. apply finish_ok in H1 as [H1 H2].
    destruct (wr_pairs (pairs (a_nbytes a)) 0 (a_data a)) as [ps|] eqn:E4; [|discriminate].
    apply (f_equal (fun o => match o with Some x => x | None => [] end)) in H1; cbv beta iota in H1; symmetry in H1. split; auto. right; left. split; [cbn; funcs; lia|]. split; auto. exists ps. auto. }
  destruct (is_single (a_func a)) eqn:E2.
  { destruct (Z.eqb_spec (a_nbytes a) 2); cbn [negb]; [|discriminate].
    destruct (a_data a) as [|d0 [|d1 tl]] eqn:Ed; cbn [nth_error]; try discriminate.
    destruct (coil_ok (a_func a) d0 d1) eqn:Ec; [|discriminate].
    intros H1. apply finish_ok in H1 as [H1 H2]. apply (f_equal (fun o => match o with Some x => x | None => [] end)) in H1; cbv beta iota in H1; symmetry in H1. split; auto. right; right; left.
    split; [cbn; funcs; lia|]. split; [auto|]. exists d0, d1, tl. split; [auto|]. split; [|auto].
    intros E. unfold coil_ok in Ec. funcs. lia. }
  destruct (is_multi (a_func a)) eqn:E3; [|discriminate].
  intros H1. apply finish_ok in H1 as [H1 H2]. apply (f_equal (fun o => match o with Some x => x | None => [] end)) in H1; cbv beta iota in H1; symmetry in H1. split; auto. right; right; right.
  split; [funcs; lia|]. auto.
Qed.

Lemma rsp_roundtrip a bs junk a0 :
  rsp_ok a -> encode_rsp a = EncOk bs -> (260 <= length (a_data a0))%nat ->
  exists a', decode_rsp (bs ++ junk) a0 = DOk a' junk /\ rsp_received a a'.
Proof.
  intros (Ht & Hf & Ha & He' & Hs & Hn & Hb & Hd & Hlen) He Hl.
  apply encode_rsp_cases in He as ([(Hfn & ->)|[(Hin & Hev2 & ps & Ep & ->)|[(Hin & Hnb & d0 & d1 & tl & Ed & _ & ->)|(Hfn & ->)]]] & Hsz).
  - unfold decode_rsp. rdsimp. change (0 mod 65536 =? modbusProtocolId) with true. cbn [negb].
    rewrite (u8_id (a_func a)) by auto. rewrite Hfn. change (143 =? modbusErrorFn) with true. cbv iota.
    eexists. split; [reflexivity|]. unfold rsp_received; cbn [a_tid a_func a_addr a_error a_start a_nitems a_nbytes a_data].
    rewrite Hfn. do 3 (split; [auto|]). split; [|do 2 (split; [intros HH; cbn in HH; lia|]); intros HH; cbn in HH; lia].
    intros _ HI. unfold error_to_u8, u8. cbn in HI. clear - HI. 
    destruct ((0 <=? a_error a) && (a_error a <=? 8) || (a_error a =? 10) || (a_error a =? 11)) eqn:E; lia.
  - assert (Hps := wr_pairs_length _ _ _ _ Ep).
    assert (Hev : (2 * pairs (a_nbytes a))%nat = Z.to_nat (a_nbytes a)).
    { apply pairs_even; unfold is_u16 in *; lia. }
    assert (Hnb2 : a_nbytes a <= 251).
    { unfold wrBe, wr in Hsz. rewrite !app_length in Hsz. cbn [length] in Hsz. unfold is_u16 in *. lia. }
    unfold decode_rsp. rdsimp. change (0 mod 65536 =? modbusProtocolId) with true. cbn [negb].
    rewrite (u8_id (a_func a)) by auto.
    replace (a_func a =? modbusErrorFn) with false by (cbn in Hin; funcs; lia).
    replace (is_read_regs (a_func a)) with true by (cbn in Hin; funcs; lia).
    rewrite (u8_id (a_nbytes a)) by (unfold is_byte, is_u16 in *; lia).
    replace ((3 + a_nbytes a) mod 65536 =? a_nbytes a + 3) with true by (unfold is_u16 in *; lia). cbn [negb].
    rewrite Hev2. cbn [Z.eqb negb].
    destruct (rd_wr_pairs (pairs (a_nbytes a)) 0 (a_data a) (a_data a0) ps junk) as (dst' & P1 & P2 & P3); auto.
    { unfold is_u16 in *. lia. }
    rewrite P1. eexists. split; [reflexivity|].
    unfold rsp_received; cbn [a_tid a_func a_addr a_error a_start a_nitems a_nbytes a_data].
    split; auto. split; auto. split; auto.
    split; [intros HH; cbn in Hin; lia|].
    split; [intros HH; cbn in Hin, HH; lia|].
    split; [intros HH; cbn in Hin, HH; lia|].
    intros _. split; auto. unfold same_prefix. rewrite <- Hev. exact P3.
  - rewrite Ed in Hd. inversion Hd as [|? ? Hd0 Hd']; subst. inversion Hd' as [|? ? Hd1 Hd'']; subst.
    unfold decode_rsp. rdsimp. change (0 mod 65536 =? modbusProtocolId) with true. cbn [negb].
    rewrite (u8_id (a_func a)) by auto.
    replace (a_func a =? modbusErrorFn) with false by (cbn in Hin; funcs; lia).
    replace (is_read_regs (a_func a)) with false by (cbn in Hin; funcs; lia).
    replace (is_single (a_func a)) with true by (cbn in Hin; funcs; lia).
    change (6 mod 65536 =? 6) with true. cbn [negb].
    rewrite (Z.mod_small (a_start a)) by (unfold is_u16 in *; lia).
    rewrite (u8_id d0), (u8_id d1) by auto.
    destruct (Nat.ltb_spec 1 (length (a_data a0))); [|lia].
    eexists. split; [reflexivity|]. unfold rsp_received; cbn [a_tid a_func a_addr a_error a_start a_nitems a_nbytes a_data].
    split; auto. split; auto. split; auto.
    split; [intros HH; cbn in Hin; lia|].
    split; auto.
    split; [intros HH; cbn in Hin; lia|].
    intros _. split; [auto|]. unfold same_prefix. rewrite Hnb, Ed. change (Z.to_nat 2) with 2%nat.
    rewrite firstn_upd2 by lia. reflexivity.
  - unfold decode_rsp. rdsimp. change (0 mod 65536 =? modbusProtocolId) with true. cbn [negb].
    rewrite (u8_id (a_func a)) by auto. rewrite Hfn. change (16 =? modbusErrorFn) with false.
    change (is_read_regs 16) with false. change (is_single 16) with false. change (is_multi 16) with true.
    change (6 mod 65536 =? 6) with true. cbn [negb].
    rewrite (Z.mod_small (a_start a)), (Z.mod_small (a_nitems a)) by (unfold is_u16 in *; lia).
    eexists. split; [reflexivity|]. unfold rsp_received; cbn [a_tid a_func a_addr a_error a_start a_nitems a_nbytes a_data].
    rewrite Hfn. do 3 (split; [auto|]). split; [intros HH; cbn in HH; lia|].
    do 2 (split; [auto|]). intros HH; cbn in HH; lia.
Qed.

(** Well-formedness of the frames. *)
Lemma wrBe_bytes z : bytes_ok (wrBe z).
Proof. repeat constructor; apply u8_byte. Qed.
Lemma wr_bytes z : bytes_ok (wr z).
Proof. repeat constructor; apply u8_byte. Qed.
Lemma bytes_app a b : bytes_ok a -> bytes_ok b -> bytes_ok (a ++ b).
Proof. intros; apply Forall_app; auto. Qed.
#[export] Hint Resolve wrBe_bytes wr_bytes bytes_app : mb.

Lemma frame_shape tid len body :
  bytes_ok body -> 0 <= len < 65536 -> len = Z.of_nat (length body) ->
  2 <= len -> len <= 254 -> wf_frame (wrBe tid ++ wrBe 0 ++ wrBe len ++ body).
Proof.
  intros Hb Hl He H2 H3. split; [auto with mb|]. split.
  - rewrite !app_length. cbn [wrBe length]. lia.
  - exists (u8 (tid / 256)), (u8 tid), (u8 (len / 256)), (u8 len), body. split; [reflexivity|].
    rewrite wrBe_val. lia.
Qed.

Lemma encode_req_wf q bs : req_ok q -> encode_req q = EncOk bs -> wf_frame bs /\ Z.of_nat (length bs) <= 259.
Proof.
  intros (Ht & Hf & Ha & Hs & Hn & Hb & Hd & Hlen) He.
  apply encode_req_cases in He as (Ha2 & [(Hin & Hp & ->)|[(Hin & Hnb & d0 & d1 & tl & Ed & _ & ->)|(Hfn & Hnb & ps & Ep & ->)]] & Hsz).
  - split; [|cbn; lia]. apply frame_shape; auto 10 with mb; lia.
  - split; [|cbn; lia]. apply frame_shape; auto 10 with mb; lia.
  - assert (Hps := wr_pairs_length _ _ _ _ Ep). assert (Hpb := wr_pairs_bytes _ _ _ _ Ep).
    assert (Hev : (2 * pairs (q_nbytes q))%nat = Z.to_nat (q_nbytes q)).
    { apply pairs_even; unfold is_u16 in *; lia. }
    unfold is_u16 in *.
    assert (Hnb2 : q_nbytes q <= 246).
    { unfold wrBe, wr in Hsz. rewrite !app_length in Hsz. cbn [length] in Hsz. lia. }
    split.
    + apply frame_shape; auto 10 with mb; try lia.
      unfold wrBe, wr. rewrite !app_length. cbn [length]. lia.
    + unfold wrBe, wr. rewrite !app_length. cbn [length]. lia.
Qed.

Lemma encode_rsp_wf a bs : rsp_ok a -> encode_rsp a = EncOk bs -> wf_frame bs /\ Z.of_nat (length bs) <= 259.
Proof.
  intros (Ht & Hf & Ha & He' & Hs & Hn & Hb & Hd & Hlen) He.
  apply encode_rsp_cases in He as ([(Hfn & ->)|[(Hin & Hev2 & ps & Ep & ->)|[(Hin & Hnb & d0 & d1 & tl & Ed & _ & ->)|(Hfn & ->)]]] & Hsz).
  - split; [|cbn; lia]. apply frame_shape; auto 10 with mb; lia.
  - assert (Hps := wr_pairs_length _ _ _ _ Ep). assert (Hpb := wr_pairs_bytes _ _ _ _ Ep).
    assert (Hev : (2 * pairs (a_nbytes a))%nat = Z.to_nat (a_nbytes a)).
    { apply pairs_even; unfold is_u16 in *; lia. }
    unfold is_u16 in *.
    assert (Hnb2 : a_nbytes a <= 250).
    { unfold wrBe, wr in Hsz. rewrite !app_length in Hsz. cbn [length] in Hsz. lia. }
    split.
    + apply frame_shape; auto 10 with mb; try lia.
      unfold wrBe, wr. rewrite !app_length. cbn [length]. lia.
    + unfold wrBe, wr. rewrite !app_length. cbn [length]. lia.
  - split; [|cbn; lia]. apply frame_shape; auto 10 with mb; lia.
  - split; [|cbn; lia]. apply frame_shape; auto 10 with mb; lia.
Qed.

(** Encoding stays inside the buffer and the data record when the payload is at most
    260 octets. *)
Lemma finish_safe bs : Z.of_nat (length bs) <= 512 -> finish (Some bs) <> EncOverflow /\ finish (Some bs) <> EncBadRead.
Proof.
  intros H. unfold finish. destruct (Z.ltb_spec bufMaxLen (Z.of_nat (length bs))) as [H1|H1]; [unfold bufMaxLen in *; lia|].
  destruct (maxAduLen <? Z.of_nat (length bs)); split; discriminate.
Qed.

Lemma encode_req_safe q : req_ok q -> q_nbytes q <= 260 -> encode_req q <> EncOverflow /\ encode_req q <> EncBadRead.
Proof.
  intros (Ht & Hf & Ha & Hs & Hn & Hb & Hd & Hlen) Hmax. unfold is_u16 in *. unfold encode_req.
  destruct (negb (q_addr q <=? maxAddr)); [split; discriminate|].
  destruct (is_read_bits (q_func q) || is_read_regs (q_func q)).
  { destruct (maxPduLen <? pduLen (q_func q) (q_nitems q)); [split; discriminate|]. apply finish_safe. cbn. lia. }
  destruct (is_single (q_func q)).
  { destruct (negb (q_nitems q =? 0)); [split; discriminate|].
    destruct (Z.eqb_spec (q_nbytes q) 2); cbn [negb]; [|split; discriminate].
    destruct (q_data q) as [|d0 [|d1 tl]]; cbn [nth_error length] in *; try lia.
    destruct (coil_ok (q_func q) d0 d1); [|split; discriminate]. apply finish_safe. cbn. lia. }
  destruct (is_multi (q_func q)); [|split; discriminate].
  destruct (Z.eqb_spec (q_nbytes q) (q_nitems q * 2)); cbn [negb]; [|split; discriminate].
  assert (Hev : (2 * pairs (q_nbytes q))%nat = Z.to_nat (q_nbytes q)) by (apply pairs_even; lia).
  destruct (wr_pairs_some (pairs (q_nbytes q)) 0 (q_data q)) as [ps Ep]; [lia|].
  rewrite Ep. apply wr_pairs_length in Ep. apply finish_safe.
  unfold wrBe, wr. rewrite !app_length. cbn [length]. lia.
Qed.

Lemma encode_rsp_safe a : rsp_ok a -> a_nbytes a <= 260 -> encode_rsp a <> EncOverflow /\ encode_rsp a <> EncBadRead.
Proof.
  intros (Ht & Hf & Ha & He' & Hs & Hn & Hb & Hd & Hlen) Hmax. unfold is_u16 in *. unfold encode_rsp.
  destruct (a_func a =? modbusErrorFn). { apply finish_safe. cbn. lia. }
  destruct (is_read_regs (a_func a)).
  { destruct (Z.eqb_spec (a_nbytes a mod 2) 0); cbn [negb]; [|split; discriminate].
    assert (Hev : (2 * pairs (a_nbytes a))%nat = Z.to_nat (a_nbytes a)) by (apply pairs_even; lia).
    destruct (wr_pairs_some (pairs (a_nbytes a)) 0 (a_data a)) as [ps Ep]; [lia|].
    rewrite Ep. apply wr_pairs_length in Ep. apply finish_safe.
    unfold wrBe, wr. rewrite !app_length. cbn [length]. lia. }
  destruct (is_single (a_func a)).
  { destruct (Z.eqb_spec (a_nbytes a) 2); cbn [negb]; [|split; discriminate].
    destruct (a_data a) as [|d0 [|d1 tl]]; cbn [nth_error length] in *; try lia.
    destruct (coil_ok (a_func a) d0 d1); [|split; discriminate]. apply finish_safe. cbn. lia. }
  destruct (is_multi (a_func a)); [|split; discriminate]. apply finish_safe. cbn. lia.
Qed.

(** Frame acceptance: every encoded frame passes the framing checks. *)
Lemma wf_frame_accepted bs junk : wf_frame bs -> Z.of_nat (length bs) <= 259 ->
  frame_check (bs ++ junk) (Z.of_nat (length bs)) = FrComplete.
Proof.
  intros (Hb & Hl & t1 & t2 & l1 & l2 & body & -> & He) Hm. cbn [length] in *.
  unfold frame_check, isAduHdrReceived, isAduDataLenValid, isAduReceived, isAduValid, aduPktLen, aduHdrLen, maxAduLen.
  cbn [app nth]. rewrite He.
  destruct (Z.leb_spec 6 (Z.of_nat (S (S (S (S (S (S (length body))))))))); [|lia]. cbn [negb].
  destruct (Z.ltb_spec (Z.of_nat (length body) + 6) 260); [|lia]. cbn [negb].
  destruct (Z.leb_spec (Z.of_nat (length body)) (Z.of_nat (S (S (S (S (S (S (length body))))))))); [|lia]. cbn [negb].
  destruct (Z.ltb_spec (Z.of_nat (S (S (S (S (S (S (length body)))))))) 260); [|lia].
  destruct (Z.eqb_spec (Z.of_nat (length body) + 6) (Z.of_nat (S (S (S (S (S (S (length body)))))))));  [reflexivity|lia].
Qed.

(** Status of the framing checks after the first [n] octets of a frame. *)
Lemma prefix_status bs junk n : wf_frame bs -> Z.of_nat (length bs) <= 259 -> (n <= length bs)%nat ->
  frame_check (firstn n bs ++ junk) (Z.of_nat n) =
  if (n =? length bs)%nat then FrComplete
  else if (n <? 6)%nat || (n <? length bs - 6)%nat then FrWait
  else FrInvalid.
Proof.
  intros (Hb & Hl & t1 & t2 & l1 & l2 & body & -> & He) Hm Hn. cbn [length] in *.
  unfold frame_check, isAduHdrReceived, isAduDataLenValid, isAduReceived, isAduValid, aduHdrLen, maxAduLen.
  destruct (Nat.ltb_spec n 6) as [H6|H6].
  - destruct (Z.leb_spec 6 (Z.of_nat n)); [lia|]. cbn [negb].
    destruct (Nat.eqb_spec n (S (S (S (S (S (S (length body)))))))); [lia|]. reflexivity.
  - assert (Hp : aduPktLen (firstn n (t1 :: t2 :: 0 :: 0 :: l1 :: l2 :: body) ++ junk) = Z.of_nat (length body)).
    { do 6 (destruct n as [|n]; [lia|]). unfold aduPktLen. cbn [firstn app nth]. exact He. }
    rewrite Hp. destruct (Z.leb_spec 6 (Z.of_nat n)); [|lia]. cbn [negb orb].
    destruct (Z.ltb_spec (Z.of_nat (length body) + 6) 260); [|lia]. cbn [negb].
    destruct (Z.leb_spec (Z.of_nat (length body)) (Z.of_nat n)); cbn [negb];
    destruct (Z.ltb_spec (Z.of_nat n) 260); try lia;
    destruct (Z.eqb_spec (Z.of_nat (length body) + 6) (Z.of_nat n)); cbn [negb andb];
    destruct (Nat.eqb_spec n (S (S (S (S (S (S (length body))))))));
    destruct (Nat.ltb_spec n (S (S (S (S (S (S (length body)))))) - 6)); try lia; reflexivity.
Qed.

(** Memory safety of decoding an arbitrary 512-octet buffer from its start. *)
Lemma rd_safe {A} r (k : Z -> list Z -> dec A) : r <> [] ->
  (forall b r', r = b :: r' -> k b r' <> DUB) -> rd r k <> DUB.
Proof. intros H1 H2. destruct r; [contradiction|]. cbn. auto. Qed.

Ltac unrd buf n :=
  do n (destruct buf as [|? buf]; [cbn [length] in *; lia|]).

Lemma decode_req_safe buf q0 : bytes_ok buf -> length buf = 512%nat -> (260 <= length (q_data q0))%nat ->
  decode_req buf q0 <> DUB.
Proof.
  intros Hb Hl Hd. do 13 (destruct buf as [|? buf]; [discriminate|]).
  unfold decode_req, rdBe. cbn [rd].
  destruct (negb (z1 * 256 + z2 =? modbusProtocolId)); [discriminate|].
  destruct (negb (z5 <=? maxAddr)); [discriminate|].
  destruct (is_read_bits z6 || is_read_regs z6).
  { destruct (negb (z3 * 256 + z4 =? 6)); [discriminate|].
    destruct (maxPduLen <? pduLen z6 (z9 * 256 + z10)); discriminate. }
  destruct (is_single z6).
  { destruct (negb (z3 * 256 + z4 =? 6)); [discriminate|].
    destruct (Nat.ltb_spec 1 (length (q_data q0))); [discriminate|lia]. }
  destruct (is_multi z6); [|discriminate].
  destruct (Z.eqb_spec z11 ((z9 * 256 + z10) * 2)); cbn [negb]; [|discriminate].
  destruct (negb (z3 * 256 + z4 =? 7 + z11)); [discriminate|].
  assert (Hz : is_byte z11).
  { unfold bytes_ok in Hb. rewrite Forall_forall in Hb. apply Hb. cbn. auto 20. }
  unfold is_byte in Hz. cbn [length] in Hl.
  destruct (rd_pairs_some (pairs z11) 0 (q_data q0) buf) as (d' & r' & ->); try (unfold pairs; lia). discriminate.
Qed.

Lemma decode_rsp_safe buf a0 : bytes_ok buf -> length buf = 512%nat -> length (a_data a0) = 260%nat ->
  a_nbytes a0 = 0 ->
  decode_rsp buf a0 <> DUB /\
  forall a' rest, decode_rsp buf a0 = DOk a' rest -> 0 <= a_nbytes a' <= 254 /\ length (a_data a') = 260%nat.
Proof.
  intros Hb Hl Hd Hn. do 13 (destruct buf as [|? buf]; [discriminate|]).
  unfold decode_rsp, rdBe. cbn [rd].
  destruct (negb (z1 * 256 + z2 =? modbusProtocolId)); [split; [|intros]; discriminate|].
  destruct (z6 =? modbusErrorFn).
  { split; [discriminate|]. intros a' rest E. inversion E; subst. cbn. lia. }
  destruct (is_read_regs z6).
  { destruct (negb (z3 * 256 + z4 =? z7 + 3)); [split; [|intros]; discriminate|].
    destruct (Z.eqb_spec (z7 mod 2) 0) as [Hev|]; cbn [negb]; [|split; [|intros]; discriminate].
    assert (Hz : is_byte z7).
    { unfold bytes_ok in Hb. rewrite Forall_forall in Hb. apply Hb. cbn. auto 20. }
    unfold is_byte in Hz. cbn [length] in Hl.
    destruct (rd_pairs_some (pairs z7) 0 (a_data a0) (z8 :: z9 :: z10 :: z11 :: buf)) as (d' & r' & E);
      try (cbn [length]; unfold pairs; lia).
    rewrite E. split; [discriminate|]. intros a' rest E'. inversion E'; subst. cbn [a_nbytes a_data].
    apply rd_pairs_rest in E as (_ & E & _). split; lia. }
  destruct (is_single z6).
  { destruct (negb (z3 * 256 + z4 =? 6)); [split; [|intros]; discriminate|].
    destruct (Nat.ltb_spec 1 (length (a_data a0))); [|lia].
    split; [discriminate|]. intros a' rest E. inversion E; subst. cbn [a_nbytes a_data]. rewrite !upd_length. lia. }
  destruct (is_multi z6); [|split; [|intros]; discriminate].
  destruct (negb (z3 * 256 + z4 =? 6)); [split; [|intros]; discriminate|].
  split; [discriminate|]. intros a' rest E. inversion E; subst. cbn [a_nbytes a_data]. lia.
Qed.

(** An accepted request consumed exactly the framed octets. *)
Lemma decode_req_exact buf q0 q' rest len :
  bytes_ok buf -> length buf = 512%nat ->
  isAduValid buf len = true -> decode_req buf q0 = DOk q' rest ->
  Z.of_nat (length buf) - Z.of_nat (length rest) = len.
Proof.
  intros Hb Hl Hv. do 13 (destruct buf as [|? buf]; [discriminate|]).
  unfold isAduValid, aduPktLen, aduHdrLen in Hv. cbn [nth] in Hv.
  assert (Hz : is_byte z11).
  { unfold bytes_ok in Hb. rewrite Forall_forall in Hb. apply Hb. cbn. auto 20. }
  unfold is_byte in Hz.
  unfold decode_req, rdBe. cbn [rd].
  destruct (negb (z1 * 256 + z2 =? modbusProtocolId)); [discriminate|].
  destruct (negb (z5 <=? maxAddr)); [discriminate|].
  destruct (is_read_bits z6 || is_read_regs z6).
  { destruct (Z.eqb_spec (z3 * 256 + z4) 6); cbn [negb]; [|discriminate].
    destruct (maxPduLen <? pduLen z6 (z9 * 256 + z10)); [discriminate|]. intros E; inversion E; subst.
    cbn [length]. lia. }
  destruct (is_single z6).
  { destruct (Z.eqb_spec (z3 * 256 + z4) 6); cbn [negb]; [|discriminate].
    destruct (1 <? length (q_data q0))%nat; [|discriminate]. intros E; inversion E; subst. cbn [length]. lia. }
  destruct (is_multi z6); [|discriminate].
  destruct (Z.eqb_spec z11 ((z9 * 256 + z10) * 2)); cbn [negb]; [|discriminate].
  destruct (Z.eqb_spec (z3 * 256 + z4) (7 + z11)); cbn [negb]; [|discriminate].
  destruct (rd_pairs (pairs z11) 0 (q_data q0) buf) as [[d' r']|] eqn:E; [|discriminate].
  intros E'; inversion E'; subst. apply rd_pairs_rest in E as (E & _). cbn [length]. unfold pairs in E. lia.
Qed.

(** An accepted response consumed exactly the framed octets, except for error
    frames, whose length field is not checked. *)
Lemma decode_rsp_exact buf a0 a' rest len :
  bytes_ok buf -> length buf = 512%nat ->
  isAduValid buf len = true -> decode_rsp buf a0 = DOk a' rest ->
  Z.of_nat (length buf) - Z.of_nat (length rest) = (if a_func a' =? 143 then 9 else len).
Proof.
  intros Hb Hl Hv. do 13 (destruct buf as [|? buf]; [discriminate|]).
  unfold isAduValid, aduPktLen, aduHdrLen in Hv. cbn [nth] in Hv.
  assert (Hz : is_byte z7).
  { unfold bytes_ok in Hb. rewrite Forall_forall in Hb. apply Hb. cbn. auto 20. }
  unfold is_byte in Hz.
  unfold decode_rsp, rdBe. cbn [rd].
  destruct (negb (z1 * 256 + z2 =? modbusProtocolId)); [discriminate|].
  destruct (Z.eqb_spec z6 modbusErrorFn) as [Ee|Ee].
  { intros E; inversion E; subst. cbn [a_func length]. change (modbusErrorFn =? 143) with true. lia. }
  assert (Ee' : (z6 =? 143) = false) by (unfold modbusErrorFn in *; lia).
  destruct (is_read_regs z6).
  { destruct (Z.eqb_spec (z3 * 256 + z4) (z7 + 3)); cbn [negb]; [|discriminate].
    destruct (Z.eqb_spec (z7 mod 2) 0) as [Hev|]; cbn [negb]; [|discriminate].
    destruct (rd_pairs (pairs z7) 0 (a_data a0) (z8 :: z9 :: z10 :: z11 :: buf)) as [[d' r']|] eqn:E; [|discriminate].
    intros E'; inversion E'; subst. apply rd_pairs_rest in E as (E & _). cbn [a_func]. rewrite Ee'.
    cbn [length] in *. unfold pairs in E. lia. }
  destruct (is_single z6).
  { destruct (Z.eqb_spec (z3 * 256 + z4) 6); cbn [negb]; [|discriminate].
    destruct (1 <? length (a_data a0))%nat; [|discriminate]. intros E; inversion E; subst.
    cbn [a_func]. rewrite Ee'. cbn [length]. lia. }
  destruct (is_multi z6); [|discriminate].
  destruct (Z.eqb_spec (z3 * 256 + z4) 6); cbn [negb]; [|discriminate].
  intros E; inversion E; subst. cbn [a_func]. rewrite Ee'. cbn [length]. lia.
Qed.

(** Rejected input: how far past the received octets decoding may look. *)
Lemma coil_wire q bs : req_ok q -> q_func q = 5 -> encode_req q = EncOk bs ->
  exists pre, bs = pre ++ [0; hd 0 (q_data q)] /\ length pre = 10%nat.
Proof.
  intros (Ht & Hf & Ha & Hs & Hn & Hb & Hd & Hlen) H5 He.
  apply encode_req_cases in He as (Ha2 & [(Hin & Hp & ->)|[(Hin & Hnb & d0 & d1 & tl & Ed & Hc & ->)|(Hfn & Hnb & ps & Ep & ->)]] & Hsz).
  - cbn in Hin. lia.
  - destruct (Hc H5) as [-> Hd0]. rewrite Ed. cbn [hd].
    exists (wrBe (q_tid q) ++ wrBe 0 ++ wrBe 6 ++ wr (q_addr q) ++ wr (q_func q) ++ wrBe (q_start q)).
    split; [|reflexivity]. rewrite Ed in Hd. inversion Hd; subst.
    unfold wr at 3 4. rewrite (u8_id d0) by auto. change (u8 0) with 0. now rewrite <- !app_assoc.
  - lia.
Qed.

(** Segmentation: the frame is recognised as complete iff no proper prefix at a
    segment boundary lies in the last six octets (beyond the header). *)
Lemma feed_iff bs : wf_frame bs -> Z.of_nat (length bs) <= 259 ->
  forall segs acc, acc ++ concat segs = bs -> (length acc < length bs)%nat ->
  (feed acc segs = FrComplete <->
   forall p q, segs = p ++ q -> p <> [] -> (length (acc ++ concat p) < length bs)%nat ->
     (length (acc ++ concat p) < 6 \/ length (acc ++ concat p) < length bs - 6)%nat).
Proof.
  intros Hwf Hm. induction segs as [|s segs IH]; intros acc Hc Hlt.
  - cbn in Hc. rewrite app_nil_r in Hc. subst. lia.
  - cbn [feed concat] in *. rewrite app_assoc in Hc.
    assert (Hpre : acc ++ s = firstn (length (acc ++ s)) bs).
    { rewrite <- Hc. rewrite firstn_app, Nat.sub_diag, firstn_all, firstn_O, app_nil_r. reflexivity. }
    assert (Hle : (length (acc ++ s) <= length bs)%nat).
    { rewrite <- Hc. rewrite (app_length (acc ++ s)). lia. }
    pose proof (prefix_status bs [] (length (acc ++ s)) Hwf Hm Hle) as PS.
    rewrite <- Hpre, app_nil_r in PS. rewrite PS. clear PS Hpre.
    destruct (Nat.eqb_spec (length (acc ++ s)) (length bs)) as [He|He].
    + split; [|reflexivity]. intros _ p q Hpq Hp Hl. exfalso.
      destruct p as [|s' p]; [contradiction|]. cbn in Hpq. injection Hpq as <- ->.
      cbn [concat] in Hl. rewrite app_assoc, app_length in Hl. lia.
    + destruct (Nat.ltb_spec (length (acc ++ s)) 6) as [H6|H6];
      [|destruct (Nat.ltb_spec (length (acc ++ s)) (length bs - 6)) as [H7|H7]]; cbn [orb].
      3:{ split; [discriminate|]. intros H. exfalso.
          specialize (H [s] segs eq_refl ltac:(discriminate)). cbn [concat] in H. rewrite app_nil_r in H. lia. }
      all: rewrite (IH (acc ++ s) Hc ltac:(lia)); split.
      1,3: intros H p q Hpq Hp Hl; destruct p as [|s' p]; [contradiction|]; cbn in Hpq; injection Hpq as <- ->;
           destruct p as [|s2 p];
           [cbn [concat] in *; rewrite app_nil_r in *; lia|];
           cbn [concat] in Hl |- *; rewrite app_assoc in Hl |- *; apply (H (s2 :: p) q eq_refl); [discriminate|exact Hl].
      all: intros H p q Hpq Hp Hl; specialize (H (s :: p) q);
           cbn [concat app] in H; rewrite app_assoc in H; apply H; [now rewrite Hpq|discriminate|exact Hl].
Qed.

Lemma encode_rsp_regs a : rsp_ok a -> In (a_func a) [3; 4] -> a_nbytes a mod 2 = 0 ->
  exists bs, encode_rsp a = finish (Some bs) /\ Z.of_nat (length bs) = 9 + a_nbytes a.
Proof.
  intros (Ht & Hf & Ha & He' & Hs & Hn & Hb & Hd & Hlen) Hin Hev2. unfold is_u16 in *. unfold encode_rsp.
  replace (a_func a =? modbusErrorFn) with false by (cbn in Hin; funcs; lia).
  replace (is_read_regs (a_func a)) with true by (cbn in Hin; funcs; lia).
  rewrite Hev2. cbn [Z.eqb negb].
  assert (Hev : (2 * pairs (a_nbytes a))%nat = Z.to_nat (a_nbytes a)) by (apply pairs_even; lia).
  destruct (wr_pairs_some (pairs (a_nbytes a)) 0 (a_data a)) as [ps Ep]; [lia|].
  rewrite Ep. apply wr_pairs_length in Ep. eexists. split; [reflexivity|].
  unfold wrBe, wr. rewrite !app_length. cbn [length]. lia.
Qed.

Lemma encode_rsp_overflow a : rsp_ok a -> In (a_func a) [3; 4] ->
  a_nbytes a mod 2 = 0 -> 504 <= a_nbytes a -> encode_rsp a = EncOverflow.
Proof.
  intros H1 H2 H3 H4. destruct (encode_rsp_regs a H1 H2 H3) as (bs & -> & L). unfold finish, bufMaxLen.
  destruct (Z.ltb_spec 512 (Z.of_nat (length bs))); [reflexivity|lia].
Qed.

Lemma encode_rsp_refuses a : rsp_ok a -> In (a_func a) [3; 4] ->
  251 < a_nbytes a <= 503 -> exists bs, encode_rsp a = EncFail bs.
Proof.
  intros H1 H2 H3. destruct (Z.eq_dec (a_nbytes a mod 2) 0) as [E|E].
  - destruct (encode_rsp_regs a H1 H2 E) as (bs & -> & L). exists bs. unfold finish, bufMaxLen, maxAduLen.
    destruct (Z.ltb_spec 512 (Z.of_nat (length bs))); [lia|].
    destruct (Z.ltb_spec 260 (Z.of_nat (length bs))); [reflexivity|lia].
  - unfold encode_rsp.
    replace (a_func a =? modbusErrorFn) with false by (cbn in H2; funcs; lia).
    replace (is_read_regs (a_func a)) with true by (cbn in H2; funcs; lia).
    destruct (Z.eqb_spec (a_nbytes a mod 2) 0); [contradiction|]. cbn [negb]. eauto.
Qed.
