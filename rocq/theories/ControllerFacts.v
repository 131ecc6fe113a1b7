(** Consequences of the controller's invariants. *)
From Verif Require Import Base ModbusCodecSpec ModbusClientModel ModbusClientProofs ControllerModel ControllerSpec ControllerProofs.
Local Open Scope Z_scope.

Lemma inv_started g c tr : KInv g c tr -> started tr = match k_modbus c with Some _ => true | None => false end.
Proof.
  unfold KInv, started. destruct (k_modbus c) as [m|]; [intros (_ & (-> & _) & _)|intros (_ & -> & _)]; [now destruct (m_st m)|reflexivity].
Qed.
Lemma inv_some g c tr : KInv g c tr -> started tr = true ->
  exists m, k_modbus c = Some m /\ k_ua c = true /\ MInv g m tr /\ counts_ok (pauses (m_st m)) (polls (m_st m)) (m_count m) true tr.
Proof.
  intros I H. rewrite (inv_started g c tr I) in H. unfold KInv in I. destruct (k_modbus c) as [m|]; [|discriminate H]. exists m. tauto.
Qed.
Lemma inv_poll g c tr : KInv g c tr -> stage_of tr = GPoll ->
  exists m, k_modbus c = Some m /\ k_ua c = true /\ MInv g m tr /\ m_st m = MRun.
Proof.
  intros I H. destruct (inv_some g c tr I) as (m & A & B & C & _); [unfold started; now rewrite H|]. exists m. do 3 (split; [assumption|]).
  destruct C as (C & _). rewrite H in C. destruct (m_st m); discriminate || reflexivity.
Qed.

(** ** Definedness *)
Lemma step_defined g c tr e : octets2048 g -> kreach g c tr -> msg_ok e ->
  (k_step g c e = None <->
   match e with
   | KStop => started tr = false
   | KModbus (TvReq q) => stage_of tr = GPoll /\ ~ fits q
   | KModbus (TvRsp r) => stage_of tr = GPoll /\ 16 <= r_tid r
   | _ => False
   end).
Proof.
  intros Hg Hr (Hk & He). pose proof (kreach_inv g c tr Hg Hr) as I. destruct e as [tok| |e|l|]; cbn [k_step].
  - destruct tok; cbn; split; (discriminate || tauto).
  - rewrite (inv_started g c tr I). unfold KInv in I. destruct (k_modbus c) as [m|]; [|tauto]. destruct I as (-> & _).
    split; [|discriminate]. intros H. exfalso. revert H. destruct (m_st m) eqn:Es; cbn [m_step]; rewrite Es; try discriminate;
      rewrite transit_spec by (rewrite Es; discriminate); discriminate.
  - pose proof (inv_started g c tr I) as Is. unfold KInv in I. destruct (k_modbus c) as [m|].
    2:{ destruct I as (_ & I2 & _). destruct e; rewrite ?I2; (split; [discriminate|]); try tauto; intros [D _]; discriminate D. }
    destruct I as (_ & (I1 & I2 & I3 & I4 & I5) & _).
    assert (M : (match m_step m e with Some (m', o) => Some (mkK (Some m') (k_ua c), o) | None => None end = None) <-> m_step m e = None).
    { destruct (m_step m e) as [[m' o]|]; split; try discriminate; reflexivity. }
    rewrite M. clear M. destruct e; cbn [m_step]; try tauto.
    + destruct (m_st m); split; try discriminate; tauto.
    + destruct (m_st m); split; try discriminate; tauto.
    + destruct (m_st m); split; try discriminate; tauto.
    + destruct (m_st m) eqn:Es; cbn [stage_st] in I1; rewrite I1; try (split; [discriminate|intros [D _]; discriminate D]).
      destruct (process_spec g tr m r Hg He I5 (conj (proj1 I3) (I4 eq_refl))) as (P & _). split.
      * intros H. split; [reflexivity|]. apply P. destruct (m_process m r) as [[m1 []]|]; (discriminate || reflexivity).
      * intros [_ H]. apply P in H. now rewrite H.
    + destruct (m_st m) eqn:Es; cbn [stage_st] in I1; rewrite I1; try (split; [discriminate|intros [D _]; discriminate D]).
      rewrite (serve_defined g tr m q I5 He). tauto.
    + destruct (m_st m); split; try discriminate; tauto.
  - split; [discriminate|tauto].
  - split; [discriminate|tauto].
Qed.

(** ** Cells under the round's own requests *)
Lemma cells_ext g tr tr' i off n : (forall k, off <= k < off + n -> cell g tr i k = cell g tr' i k) -> cells g tr i off n = cells g tr' i off n.
Proof. intros H. unfold cells. apply map_ext_in. intros j Hj. apply in_seq in Hj. apply H. lia. Qed.
Lemma firstn_cells g tr i off n : 0 <= n -> n <= 2048 -> octets2048 g -> (forall k, 0 <= k < n -> cell g tr i (off + k) = nth (Z.to_nat k) g 0) ->
  cells g tr i off n = firstn (Z.to_nat n) g.
Proof.
  intros Hn Hn2 Hg H. unfold octets2048 in Hg. unfold cells. apply nth_ext with (d := cell g tr i (off + Z.of_nat 0)) (d' := 0).
  - rewrite map_length, seq_length, firstn_length. lia.
  - rewrite map_length, seq_length. intros j Hj. rewrite map_nth with (f := fun j => cell g tr i (off + Z.of_nat j)). rewrite seq_nth by lia.
    cbn [Nat.add]. rewrite nth_first by lia. rewrite H by lia. f_equal. lia.
Qed.
Lemma asked_range i x : asked i = Some x -> i < 16.
Proof. intros H. destruct (Z_lt_ge_dec i 16) as [|G]; [assumption|]. exfalso. unfold asked in H. rewrite nth_overflow in H; [discriminate H|]. cbn [length]. lia. Qed.
(** Own requests read, or write the octets of [g] at the place of their transaction. *)
Lemma own_cell g q os tr i k f s n b : own g q -> 0 <= a_tid q -> asked i = Some (f, s, n, b) -> 0 <= i -> 0 <= b -> 
  (is_read f \/ (is_write f -> s * 2 <= k < s * 2 + b)) -> 0 <= k ->
  cell_next g i k (cell g tr i k) (KModbus (TvReq q), os) = cell g tr i k \/
  (is_write f /\ s * 2 <= k < s * 2 + b /\ cell_next g i k (cell g tr i k) (KModbus (TvReq q), os) = nth (Z.to_nat (k - s * 2)) g 0).
Proof.
  intros (f' & s' & n' & b' & A1 & A2 & A3 & A4 & A5) Hq Ha Hi Hb Hk Hk0. destruct os as [|o os]; [left; reflexivity|]. cbn [cell_next].
  destruct (is_writeb (a_func q)) eqn:Ew; cbn [andb]; [|left; reflexivity].
  destruct (a_tid q =? i) eqn:Et; cbn [andb]; [|left; reflexivity]. apply Z.eqb_eq in Et. rewrite Et, Ha in A1. injection A1 as <- <- <- <-.
  apply is_write_b in Ew. rewrite A2 in Ew. destruct (A5 Ew) as [B1 B2]. rewrite A3, B1.
  destruct ((s * 2 <=? k) && (k <? s * 2 + b)) eqn:Ek; [|left; reflexivity]. right. split; [exact Ew|]. split; [lia|].
  transitivity (nth (Z.to_nat (k - s * 2)) (firstn (Z.to_nat b) (a_data q)) 0); [rewrite nth_first by lia; reflexivity|].
  rewrite B2. apply nth_first. lia.
Qed.
Lemma asked_shape i f s n b : asked i = Some (f, s, n, b) -> 0 <= i ->
  0 <= b <= 240 /\ 0 <= s /\ (f = 4 /\ b = 0 /\ 0 <= n <= 125 \/ is_write f /\ 0 < b) /\ (f = 6 -> b = 2).
Proof.
  intros H Hi. pose proof (asked_range _ _ H).
  assert (C : i = 0 \/ i = 1 \/ i = 2 \/ i = 3 \/ i = 4 \/ i = 5 \/ i = 6 \/ i = 7 \/ i = 8 \/ i = 9 \/ i = 10 \/ i = 11 \/ i = 12 \/ i = 13 \/ i = 14 \/ i = 15) by lia.
  repeat (destruct C as [C|C]); subst i; cbn in H; try discriminate H; injection H as <- <- <- <-; unfold is_write; lia.
Qed.

Lemma reach_msgs g c tr : kreach g c tr -> forall e os, In (e, os) tr -> msg_ok e.
Proof.
  induction 1 as [|c tr e c' os' H IH He En Hs]; intros e0 os Hin; [destruct Hin|]. apply in_app_or in Hin as [Hin|[E|[]]]; [eauto|congruence].
Qed.
(** What the registers of a transaction hold once its request has been served. *)
Lemma own_stays g tr2 : forall tr1 i k f s n b, (forall q os, In (KModbus (TvReq q), os) tr2 -> own g q /\ 0 <= a_tid q) -> no_start tr2 ->
  asked i = Some (f, s, n, b) -> 0 <= i -> 0 <= k ->
  (is_read f -> cell g (tr1 ++ tr2) i k = cell g tr1 i k) /\
  (is_write f -> s * 2 <= k < s * 2 + b -> cell g tr1 i k = nth (Z.to_nat (k - s * 2)) g 0 -> cell g (tr1 ++ tr2) i k = nth (Z.to_nat (k - s * 2)) g 0).
Proof.
  induction tr2 as [|[e os] tr2 IH] using rev_ind; intros tr1 i k f s n b Ho Hs Ha Hi Hk; [rewrite app_nil_r; tauto|].
  rewrite app_assoc, cell_snoc. destruct (IH tr1 i k f s n b) as (A & B); try assumption.
  { intros q os' Hin. apply (Ho q os'). apply in_or_app. now left. }
  { intros tok os' Hin. apply (Hs tok os'). apply in_or_app. now left. }
  destruct (asked_shape _ _ _ _ _ Ha Hi) as (S1 & S2 & S3 & _).
  destruct e as [tok| |v|l|]; try (cbn [cell_next]; tauto).
  { exfalso. apply (Hs tok os). apply in_or_app. right. now left. }
  destruct v; try (cbn [cell_next]; tauto).
  destruct (Ho q os) as (O1 & O2); [apply in_or_app; right; now left|].
  split.
  - intros R. destruct (own_cell g q os (tr1 ++ tr2) i k f s n b O1 O2 Ha Hi (proj1 S1) (or_introl R) Hk) as [E|(W & _)]; [rewrite E; auto|].
    exfalso. unfold is_read, is_write in *. lia.
  - intros W Hr E0. destruct (own_cell g q os (tr1 ++ tr2) i k f s n b O1 O2 Ha Hi (proj1 S1) (or_intror (fun _ => Hr)) Hk) as [E|(_ & _ & E)]; [rewrite E; auto|exact E].
Qed.
