(** C18 - C24, C59: the Modbus/TCP codec. *)
From Verif Require Import Base ModbusCodecModel ModbusCodecSpec ModbusCodecProofs.
Local Open Scope Z_scope.

(** C18.  [junk] is whatever follows the frame in the receive buffer and [q0]
    the receiver's record before the call. *)
Theorem C18_request_roundtrip : forall q bs junk q0,
  req_ok q -> encode_req q = EncOk bs -> (260 <= length (q_data q0))%nat ->
  exists q', decode_req (bs ++ junk) q0 = DOk q' junk /\ req_received q q'.
Proof. exact req_roundtrip. Qed.
Print Assumptions C18_request_roundtrip.

Example C18_case :
  let q := mkReq 70001 16 17 300 2 4 [1; 2; 3; 4] in
  req_ok q /\ encode_req q = EncOk [17; 113; 0; 0; 0; 11; 17; 16; 1; 44; 0; 2; 4; 2; 1; 4; 3].
Proof.
  cbn zeta. split; [|vm_compute; reflexivity].
  unfold req_ok, is_u32, is_u16, is_byte; cbn. repeat split; try lia. repeat constructor; lia.
Qed.

(** C19. *)
Theorem C19_response_roundtrip : forall a bs junk a0,
  rsp_ok a -> encode_rsp a = EncOk bs -> (260 <= length (a_data a0))%nat ->
  exists a', decode_rsp (bs ++ junk) a0 = DOk a' junk /\ rsp_received a a'.
Proof. exact rsp_roundtrip. Qed.
Print Assumptions C19_response_roundtrip.

Example C19_case :
  let a := mkRsp 7 3 17 0 0 0 4 [1; 2; 3; 4] in
  rsp_ok a /\ encode_rsp a = EncOk [0; 7; 0; 0; 0; 7; 17; 3; 4; 2; 1; 4; 3] /\
  encode_rsp (mkRsp 7 143 17 2 0 0 0 []) = EncOk [0; 7; 0; 0; 0; 3; 17; 143; 2].
Proof.
  cbn zeta. split; [|split; vm_compute; reflexivity].
  unfold rsp_ok, is_u32, is_u16, is_byte; cbn. repeat split; try lia. repeat constructor; lia.
Qed.

(** C20. *)
Theorem C20_request_frames_wf : forall q bs, req_ok q -> encode_req q = EncOk bs ->
  wf_frame bs /\ Z.of_nat (length bs) <= 259.
Proof. exact encode_req_wf. Qed.
Print Assumptions C20_request_frames_wf.

Theorem C20_response_frames_wf : forall a bs, rsp_ok a -> encode_rsp a = EncOk bs ->
  wf_frame bs /\ Z.of_nat (length bs) <= 259.
Proof. exact encode_rsp_wf. Qed.
Print Assumptions C20_response_frames_wf.

Theorem C20_request_encoding_in_bounds : forall q, req_ok q -> q_nbytes q <= 260 ->
  encode_req q <> EncOverflow /\ encode_req q <> EncBadRead.
Proof. exact encode_req_safe. Qed.
Print Assumptions C20_request_encoding_in_bounds.

Theorem C20_response_encoding_in_bounds : forall a, rsp_ok a -> a_nbytes a <= 260 ->
  encode_rsp a <> EncOverflow /\ encode_rsp a <> EncBadRead.
Proof. exact encode_rsp_safe. Qed.
Print Assumptions C20_response_encoding_in_bounds.

(** C21: no access outside the 512-octet buffer or the destination record,
    whatever the buffer holds. *)
Theorem C21_decode_request_in_bounds : forall buf q0,
  bytes_ok buf -> length buf = 512%nat -> (260 <= length (q_data q0))%nat -> decode_req buf q0 <> DUB.
Proof. exact decode_req_safe. Qed.
Print Assumptions C21_decode_request_in_bounds.

Theorem C21_decode_response_in_bounds : forall buf a0,
  bytes_ok buf -> length buf = 512%nat -> length (a_data a0) = 260%nat -> a_nbytes a0 = 0 ->
  decode_rsp buf a0 <> DUB /\
  forall a' rest, decode_rsp buf a0 = DOk a' rest -> 0 <= a_nbytes a' <= 254 /\ length (a_data a') = 260%nat.
Proof. exact decode_rsp_safe. Qed.
Print Assumptions C21_decode_response_in_bounds.

(** What was consumed, for accepted input. *)
Theorem C21_accepted_request_reads_frame : forall buf q0 q' rest len,
  bytes_ok buf -> length buf = 512%nat -> isAduValid buf len = true -> decode_req buf q0 = DOk q' rest ->
  Z.of_nat (length buf) - Z.of_nat (length rest) = len.
Proof. exact decode_req_exact. Qed.
Print Assumptions C21_accepted_request_reads_frame.

Theorem C21_accepted_response_reads_partial : forall buf a0 a' rest len,
  bytes_ok buf -> length buf = 512%nat -> isAduValid buf len = true -> decode_rsp buf a0 = DOk a' rest ->
  Z.of_nat (length buf) - Z.of_nat (length rest) = (if a_func a' =? 143 then 9 else len).
Proof. exact decode_rsp_exact. Qed.
Print Assumptions C21_accepted_response_reads_partial.

(** "Reads only received octets" is false: an 8-octet error frame passes the
    framing checks and is accepted with an error code taken from the octet after
    the received ones, whatever stale value [s] that octet has. *)
Theorem C21_reads_stale_octets_refuted : forall s tail a0, exists a',
  frame_check (([0; 1; 0; 0; 0; 2; 17; 143] ++ s :: tail)) 8 = FrComplete /\
  decode_rsp ([0; 1; 0; 0; 0; 2; 17; 143] ++ s :: tail) a0 = DOk a' tail /\ a_error a' = s.
Proof. intros s tail a0. eexists. repeat split; reflexivity. Qed.
Print Assumptions C21_reads_stale_octets_refuted.

Example C21_case : isAduValid ([0; 1; 0; 0; 0; 6; 17; 3; 0; 0; 0; 1] ++ repeat 0 500) 12 = true /\
  exists q', decode_req ([0; 1; 0; 0; 0; 6; 17; 3; 0; 0; 0; 1] ++ repeat 0 500) (mkReq 0 0 0 0 0 0 []) = DOk q' (repeat 0 500).
Proof. split; [vm_compute; reflexivity|]. eexists. vm_compute. reflexivity. Qed.

(** C22: exactly which segmentations are harmless. *)
Theorem C22_segmentation_partial : forall bs, wf_frame bs -> Z.of_nat (length bs) <= 259 ->
  forall segs, concat segs = bs ->
  (feed [] segs = FrComplete <->
   forall p q, segs = p ++ q -> p <> [] -> (length (concat p) < length bs)%nat ->
     (length (concat p) < 6 \/ length (concat p) < length bs - 6)%nat).
Proof.
  intros bs H1 H2 segs H3. apply (feed_iff bs H1 H2 segs [] H3).
  destruct H1 as (_ & H & _). cbn. lia.
Qed.
Print Assumptions C22_segmentation_partial.

(** ... so every frame of at least 8 octets has a segmentation that breaks it: any
    cut within the last six octets (and after the header). *)
Theorem C22_segmentation_refuted : forall bs n, wf_frame bs -> Z.of_nat (length bs) <= 259 ->
  (6 <= n)%nat -> (length bs - 6 <= n)%nat -> (n < length bs)%nat ->
  feed [] [firstn n bs; skipn n bs] = FrInvalid /\ feed [] [bs] = FrComplete.
Proof.
  intros bs n Hwf Hm H6 Hn Hl.
  assert (Hln : length (firstn n bs) = n) by (apply firstn_length_le; lia).
  split.
  - cbn [feed app]. rewrite Hln. pose proof (prefix_status bs [] n Hwf Hm ltac:(lia)) as P.
    rewrite app_nil_r in P. rewrite P.
    destruct (Nat.eqb_spec n (length bs)); [lia|]. destruct (Nat.ltb_spec n 6); [lia|].
    destruct (Nat.ltb_spec n (length bs - 6)); [lia|]. reflexivity.
  - cbn [feed app]. pose proof (wf_frame_accepted bs [] Hwf Hm) as P. rewrite app_nil_r in P. now rewrite P.
Qed.
Print Assumptions C22_segmentation_refuted.

Example C22_case : wf_frame [0; 7; 0; 0; 0; 7; 17; 3; 4; 2; 1; 4; 3] /\
  feed [] [[0; 7; 0; 0; 0; 7; 17]; [3; 4; 2; 1; 4; 3]] = FrInvalid /\
  feed [] [[0; 7; 0; 0; 0; 7]; [17; 3; 4; 2; 1; 4; 3]] = FrComplete /\
  feed [] [[0; 7]; [0; 0; 0]; [7; 17; 3; 4; 2; 1; 4; 3]] = FrComplete.
Proof.
  split; [|repeat split; vm_compute; reflexivity].
  split; [repeat constructor; unfold is_byte; lia|]. split; [cbn; lia|].
  exists 0, 7, 0, 7, [17; 3; 4; 2; 1; 4; 3]. split; reflexivity.
Qed.

(** C23. *)
Theorem C23_encoded_frames_accepted : forall q bs a bs' junk,
  (req_ok q -> encode_req q = EncOk bs -> frame_check (bs ++ junk) (Z.of_nat (length bs)) = FrComplete) /\
  (rsp_ok a -> encode_rsp a = EncOk bs' -> frame_check (bs' ++ junk) (Z.of_nat (length bs')) = FrComplete).
Proof.
  intros q bs a bs' junk. split; intros H1 H2.
  - destruct (encode_req_wf q bs H1 H2). now apply wf_frame_accepted.
  - destruct (encode_rsp_wf a bs' H1 H2). now apply wf_frame_accepted.
Qed.
Print Assumptions C23_encoded_frames_accepted.

(** The largest request and response the encoder accepts. *)
Example C23_case :
  (exists bs, encode_req (mkReq 1 16 1 0 123 246 (repeat 7 246)) = EncOk bs /\ length bs = 259%nat) /\
  (exists bs, encode_rsp (mkRsp 1 3 1 0 0 0 250 (repeat 7 250)) = EncOk bs /\ length bs = 259%nat).
Proof. split; eexists; (split; [vm_compute; reflexivity|reflexivity]). Qed.

(** C24 is false: force-single-coil always ends in 00 xx, so ON (FF 00) is
    never produced. *)
Theorem C24_coil_on_refuted : forall q bs, req_ok q -> q_func q = 5 -> encode_req q = EncOk bs ->
  (exists pre, bs = pre ++ [0; hd 0 (q_data q)] /\ length pre = 10%nat) /\
  ~ (exists pre, bs = pre ++ [255; 0]).
Proof.
  intros q bs H1 H2 H3. destruct (coil_wire q bs H1 H2 H3) as (pre & E & L). split; [eauto|].
  intros [pre' E']. rewrite E in E'.
  assert (X := f_equal (fun l => nth 1 (rev l) 7) E'). cbv beta in X. rewrite !rev_app_distr in X. cbn in X. discriminate.
Qed.
Print Assumptions C24_coil_on_refuted.

(** ... and two requests whose ids differ by a multiple of 65536 are the
    same on the wire. *)
Theorem C24_transaction_id_refuted : forall q k,
  encode_req q = encode_req (mkReq (q_tid q + k * 65536) (q_func q) (q_addr q) (q_start q) (q_nitems q) (q_nbytes q) (q_data q)).
Proof.
  intros q k. unfold encode_req. cbn [q_tid q_func q_addr q_start q_nitems q_nbytes q_data].
  assert (E : wrBe (q_tid q + k * 65536) = wrBe (q_tid q)).
  { unfold wrBe, u8. f_equal; [|f_equal]; lia. }
  rewrite E. reflexivity.
Qed.
Print Assumptions C24_transaction_id_refuted.

(** What holds: ids below 65536 survive. *)
Theorem C24_transaction_id_partial : forall q bs junk q0,
  req_ok q -> q_tid q < 65536 -> encode_req q = EncOk bs -> (260 <= length (q_data q0))%nat ->
  exists q', decode_req (bs ++ junk) q0 = DOk q' junk /\ q_tid q' = q_tid q.
Proof.
  intros q bs junk q0 H1 H2 H3 H4. destruct (req_roundtrip q bs junk q0 H1 H3 H4) as (q' & E & (T & _)).
  exists q'. split; [exact E|]. rewrite T. destruct H1 as (H1 & _). unfold is_u32 in H1. apply Z.mod_small. lia.
Qed.
Print Assumptions C24_transaction_id_partial.

Example C24_case : encode_req (mkReq 1 5 1 0 0 2 [255; 0]) = EncOk [0; 1; 0; 0; 0; 6; 1; 5; 0; 0; 0; 255].
Proof. vm_compute. reflexivity. Qed.

(** C59 is false: an application reply with an oversized payload overruns the 512-octet
    encode buffer before the size check. *)
Theorem C59_oversized_reply_refuted : forall a, rsp_ok a -> In (a_func a) [3; 4] ->
  a_nbytes a mod 2 = 0 -> 504 <= a_nbytes a -> encode_rsp a = EncOverflow.
Proof. exact encode_rsp_overflow. Qed.
Print Assumptions C59_oversized_reply_refuted.

(** Payloads of up to 503 octets are handled inside the buffer and refused above
    251. *)
Theorem C59_oversized_reply_partial : forall a, rsp_ok a -> In (a_func a) [3; 4] ->
  251 < a_nbytes a <= 503 -> exists bs, encode_rsp a = EncFail bs.
Proof. exact encode_rsp_refuses. Qed.
Print Assumptions C59_oversized_reply_partial.

Example C59_case : rsp_ok (mkRsp 1 3 1 0 0 0 504 (repeat 0 504)).
Proof.
  unfold rsp_ok, is_u32, is_u16, is_byte; cbn [a_tid a_func a_addr a_error a_start a_nitems a_nbytes a_data].
  repeat split; try lia.
  - apply Forall_forall. intros x Hx. apply repeat_spec in Hx. subst. unfold is_byte. lia.
  - rewrite repeat_length. lia.
Qed.
