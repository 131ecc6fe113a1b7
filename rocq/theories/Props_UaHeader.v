(** Theorems about reading and patching a message header in place, C148. *)
From Verif Require Import Base ModbusCodecSpec UaCodecModel UaCodecSpec UaCodecProofs UaTcpProofs.
Local Open Scope Z_scope.

Lemma le32_enc w r : is_u32 w -> le32_at (le_bytes 4 w ++ r) 0 = Some w.
Proof.
  intros H. cbn [le_bytes app]. unfold le32_at. cbn [nth_error Nat.add]. f_equal.
  rewrite or32_val by (unfold is_byte; lia). unfold is_u32 in H. unfold u32. cbn [le_val]. lia.
Qed.

Lemma uhdr_in_place v r w : wf_uhdr v ->
  getMsgSizeFromHdr (s_uhdr v ++ r) = Some (uh_size v) /\ getSecureChannelIdFromHdr (s_uhdr v ++ r) = Some (uh_chan v) /\
  setPayloadSizeToHdr (s_uhdr v ++ r) w = s_uhdr (mkUh (uh_type v) (uh_final v) w (uh_chan v)) ++ r.
Proof.
  intros ((Hb & L) & Hf & Hs & Hc). destruct v as [t f n c]. cbn [uh_type uh_final uh_size uh_chan] in *.
  do 3 (destruct t as [|? t]; [discriminate L|]). destruct t; [|discriminate L].
  split; [exact (le32_enc n (le_bytes 4 c ++ r) Hs)|]. split; [exact (le32_enc c r Hc)|].
  rewrite set_size_app by (unfold s_uhdr, s_1, s_4; cbn; lia). rewrite le4_bytes. reflexivity.
Qed.

(** A header the codec has written at the start of an array [p] (anything may follow it):
    its size and channel are read in place as they were written; after the size was patched to [w], the codec reads the
    same header with size [w] and stops behind it, and no octet behind the header has changed. *)
Theorem C148_in_place v w p b : wf_uhdr v -> is_u32 w -> enc_uhdr v (mkSdu 0 0 p) = Some b ->
  getMsgSizeFromHdr (k_pkt b) = Some (uh_size v) /\ getSecureChannelIdFromHdr (k_pkt b) = Some (uh_chan v) /\
  (let q := setPayloadSizeToHdr (k_pkt b) w in
   getMsgSizeFromHdr q = Some w /\ getSecureChannelIdFromHdr q = Some (uh_chan v) /\
   dec_uhdr uhdr0 (mkSdu 0 (k_head b) q) = DOk (mkUh (uh_type v) (uh_final v) w (uh_chan v)) (mkSdu 12 (k_head b) q) /\
   length q = length p /\ skipn 12 q = skipn 12 p).
Proof.
  intros V Hw E. assert (L : length (s_uhdr v) = 12%nat).
  { destruct V as ((_ & L) & _). unfold s_uhdr, s_1, s_4. rewrite !app_length, L. reflexivity. }
  rewrite (W_uhdr v V) in E by (unfold hok; cbn [k_head k_pkt]; lia). destruct (fits _ _) eqn:F; [|discriminate E]. injection E as <-.
  unfold fits in F. cbn [k_head k_pkt] in F. apply Nat.leb_le in F. rewrite L in F.
  unfold put. cbn [k_head k_pkt k_tail firstn app]. rewrite L. cbn [Nat.add].
  set (r := skipn 12 p). destruct (uhdr_in_place v r w V) as (A & B & C). split; [exact A|]. split; [exact B|].
  cbv zeta. rewrite C. set (v' := mkUh _ _ w _).
  assert (V' : wf_uhdr v') by (unfold wf_uhdr, v' in *; cbn [uh_type uh_final uh_size uh_chan]; intuition).
  assert (L' : length (s_uhdr v') = 12%nat) by (destruct V' as ((_ & L') & _); unfold s_uhdr, s_1, s_4; rewrite !app_length, L'; reflexivity).
  destruct (uhdr_in_place v' r 0 V') as (A' & B' & _). split; [exact A'|]. split; [exact B'|]. split.
  - pose proof (R_uhdr v' V' (mkSdu 0 12 (s_uhdr v' ++ r))) as R. cbn [k_tail k_head k_pkt] in R. rewrite L' in R. apply R.
    apply holds_iff. exists r. reflexivity.
  - split; [rewrite app_length, L'; unfold r; rewrite skipn_length; lia|].
    replace 12%nat with (length (s_uhdr v') + 0)%nat at 1 by lia. rewrite skipn_plus, skipn_app, skipn_all, Nat.sub_diag. cbn [skipn app]. reflexivity.
Qed.
(** Too few octets for a size or a channel: both readers are outside. *)
Theorem C148_short m : (getMsgSizeFromHdr m = None <-> (length m < 8)%nat) /\ (getSecureChannelIdFromHdr m = None <-> (length m < 12)%nat).
Proof.
  assert (G : forall i, le32_at m i = None <-> (length m < i + 4)%nat).
  { intros i. unfold le32_at. pose proof (nth_error_None m i) as N0. pose proof (nth_error_None m (i + 1)) as N1.
    pose proof (nth_error_None m (i + 2)) as N2. pose proof (nth_error_None m (i + 3)) as N3.
    destruct (nth_error m i), (nth_error m (i + 1)), (nth_error m (i + 2)), (nth_error m (i + 3)); split; intros H; try reflexivity; try discriminate H;
      repeat match goal with N : None = None <-> _ |- _ => destruct N as [N _]; specialize (N eq_refl) | N : Some _ = None <-> _ |- _ => destruct N as [_ N] end;
      try lia; exfalso; enough (length m <= i + 3)%nat as Q by (specialize (N3 Q); discriminate N3); lia. }
  split; apply G.
Qed.
(** "MSGF", size 0, channel 7, patched to 24, in an array of 16. *)
Definition hdr7 : uhdr := mkUh [77; 83; 71] 70 0 7.
Example C148_case : exists b, enc_uhdr hdr7 (mkSdu 0 0 (repeat 9 16)) = Some b /\ wf_uhdr hdr7 /\ getSecureChannelIdFromHdr (k_pkt b) = Some 7 /\
  setPayloadSizeToHdr (k_pkt b) 24 = [77; 83; 71; 70; 24; 0; 0; 0; 7; 0; 0; 0; 9; 9; 9; 9].
Proof.
  eexists. split; [vm_compute; reflexivity|]. split; [|split; vm_compute; reflexivity].
  unfold wf_uhdr, hdr7, bytes_ok, is_byte, is_u32. cbn [uh_type uh_final uh_size uh_chan]. repeat split; try lia. repeat constructor; lia.
Qed.

Print Assumptions C148_in_place.
Print Assumptions C148_short.
