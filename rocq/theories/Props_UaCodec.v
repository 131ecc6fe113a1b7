(** C35 - C40, C67 - C70: the OPC UA binary codec. *)
From Verif Require Import Base ModbusCodecSpec UaCodecModel UaCodecSpec UaCodecProofs UaCodecLocal.
Local Open Scope Z_scope.
Ltac split_all := repeat match goal with |- (_ /\ _) => split end.

(** C35.  One line per built-in type.  A string is its list of octets (absent and empty are the same value); optional strings
    inside localized texts and extension objects are absent or not empty; see [C35_empty_optional_refuted].  Variants
    have their own property, C38: data values are covered as far as their variant is. *)
Theorem C35_builtin_roundtrip_partial :
  (forall v, roundtrips (enc_bool v) dec_bool v) /\
  (forall v, is_i8 v -> roundtrips (enc_sbyte v) dec_sbyte v) /\
  (forall v, is_byte v -> roundtrips (enc_byte v) dec_byte v) /\
  (forall v, is_i16 v -> roundtrips (enc_16 v) dec_i16 v) /\
  (forall v, is_u16 v -> roundtrips (enc_16 v) dec_u16 v) /\
  (forall v, is_i32 v -> roundtrips (enc_32 v) dec_i32 v) /\
  (forall v, is_u32 v -> roundtrips (enc_32 v) dec_u32 v) /\
  (forall v, is_i64 v -> roundtrips (enc_64 v) dec_i64 v) /\
  (forall v, is_u64 v -> roundtrips (enc_64 v) dec_u64 v) /\
  (forall v, is_u32 v -> roundtrips (enc_float v) dec_float v) /\
  (forall v, is_u64 v -> roundtrips (enc_double v) dec_double v) /\
  (forall v, wf_str v -> roundtrips (enc_string v) (dec_string []) v) /\
  (forall v, is_i64 v -> roundtrips (enc_datetime v) dec_datetime v) /\
  (forall v, wf_guid v -> roundtrips (enc_guid v) (dec_guid guid0) v) /\
  (forall v, wf_str v -> roundtrips (enc_bstring v) (dec_bstring []) v) /\
  (forall v, wf_nodeid v -> roundtrips (enc_nodeid v) (dec_nodeid nodeid0) v) /\
  (forall v, is_u32 v -> roundtrips (enc_status v) dec_status v) /\
  (forall v, wf_qname v -> roundtrips (enc_qname v) (dec_qname qname0) v) /\
  (forall v, wf_ltext v -> roundtrips (enc_ltext v) (dec_ltext ltext0) v) /\
  (forall v, wf_extobj v -> roundtrips (enc_extobj v) (dec_extobj extobj0) v) /\
  (forall v, wf_diag v -> roundtrips (enc_diag v) (dec_diag diag0) v) /\
  (forall v, wf_dvalue v -> roundtrips (enc_dvalue v) (dec_dvalue dvalue0) v).
Proof.
  split_all.
  - intros v. exact (wr_rd _ _ (s_bool v) v (W_bool v) (R_bool v)).
  - intros v H. exact (wr_rd _ _ (s_1 v) v (W_1 v) (R_sbyte v H)).
  - intros v H. exact (wr_rd _ _ (s_1 v) v (W_1 v) (R_byte v H)).
  - intros v H. exact (wr_rd _ _ (s_2 v) v (W_16 v) (R_i16 v H)).
  - intros v H. exact (wr_rd _ _ (s_2 v) v (W_16 v) (R_u16 v H)).
  - intros v H. exact (wr_rd _ _ (s_4 v) v (W_32 v) (R_i32 v H)).
  - intros v H. exact (wr_rd _ _ (s_4 v) v (W_32 v) (R_u32 v H)).
  - intros v H. exact (wr_rd _ _ (s_8 v) v (W_64 v) (R_i64 v H)).
  - intros v H. exact (wr_rd _ _ (s_8 v) v (W_64 v) (R_u64 v H)).
  - intros v H. exact (wr_rd _ _ (s_4 v) v (W_32 v) (R_float v H)).
  - intros v H. exact (wr_rd _ _ (s_8 v) v (W_64 v) (R_double v H)).
  - intros v H. exact (wr_rd _ _ (s_str v) v (W_str v H) (R_str v H)).
  - intros v H. exact (wr_rd _ _ (s_8 v) v (W_64 v) (R_datetime v H)).
  - intros v H. exact (wr_rd _ _ (s_guid v) v (W_guid v H) (R_guid v H)).
  - intros v H. exact (wr_rd _ _ (s_str v) v (W_bstr v H) (R_bstr [] v H)).
  - intros v H. exact (wr_rd _ _ (s_nodeid v) v (W_nodeid v H) (R_nodeid v H)).
  - intros v H. exact (wr_rd _ _ (s_4 v) v (W_32 v) (R_status v H)).
  - intros v H. exact (wr_rd _ _ (s_qname v) v (W_qname v H) (R_qname v H)).
  - intros v H. exact (wr_rd _ _ (s_ltext v) v (W_ltext v H) (R_ltext v H)).
  - intros v H. exact (wr_rd _ _ (s_extobj v) v (W_extobj v H) (R_extobj v H)).
  - intros v H. exact (wr_rd _ _ (s_diag v) v (W_diag v H) (R_diag v H)).
  - intros v H. exact (wr_rd _ _ (s_dvalue v) v (W_dvalue v H) (R_dvalue v H)).
Qed.
Print Assumptions C35_builtin_roundtrip_partial.

Example C35_case :
  let b := mkSdu 3 5 (repeat 7 (Z.to_nat 4096)) in
  let g := mkGuid 1 2 3 [1; 2; 3; 4; 5; 6; 7; 8] in
  sdu_ok b /\ wf_nodeid (mkNid 300 (IdGuid g)) /\
  wf_diag (mkDiag (Some (-5)) None None None (Some [65; 66]) None (Some (mkDiag None (Some 1) None None None (Some 9) None))) /\
  option_map k_head (enc_diag (mkDiag (Some (-5)) None None None (Some [65; 66]) None (Some (mkDiag None (Some 1) None None None (Some 9) None))) b) = Some 25%nat.
Proof.
  cbn zeta. split; [|split; [|split]].
  - split; [reflexivity|split; [apply Forall_forall; intros x Hx; apply repeat_spec in Hx as ->; unfold is_byte; lia|]].
    cbn [k_tail k_head k_pkt]. rewrite repeat_length. lia.
  - split; [unfold is_u16; cbn; lia|]. cbn [n_val]. unfold wf_guid, is_u32, is_u16. cbn. repeat split; try lia.
    repeat (apply Forall_cons; [unfold is_byte; lia|]); constructor.
  - cbn [wf_diag]. unfold wf_opt, is_i32, is_u32, wf_str. cbn [length]. repeat split; try lia.
    repeat (apply Forall_cons; [unfold is_byte; lia|]); constructor.
  - vm_compute. reflexivity.
Qed.

(** An optional string that is present and empty is encoded as absent and comes back absent. *)
Theorem C35_empty_optional_refuted :
  (forall t, wf_ostr t -> roundtrips (enc_ltext (mkLt (Some []) t)) (dec_ltext ltext0) (mkLt None t)) /\
  (forall n, wf_nodeid n -> roundtrips (enc_extobj (mkXo n (Some []))) (dec_extobj extobj0) (mkXo n None)).
Proof.
  split.
  - intros t H. assert (L : wf_ltext (mkLt None t)) by (split; cbn; auto).
    assert (E : enc_ltext (mkLt (Some []) t) = enc_ltext (mkLt None t)).
    { unfold enc_ltext, ltext_mask. cbn [lt_locale lt_text nonempty]. rewrite !andb_false_r. reflexivity. }
    rewrite E.
    exact (wr_rd _ _ _ _ (W_ltext _ L) (R_ltext _ L)).
  - intros n H. assert (L : wf_extobj (mkXo n None)) by (split; cbn; auto).
    change (enc_extobj (mkXo n (Some []))) with (enc_extobj (mkXo n None)).
    exact (wr_rd _ _ _ _ (W_extobj _ L) (R_extobj _ L)).
Qed.
Print Assumptions C35_empty_optional_refuted.

(** C36.  Every message with its type id in front; [id] is the number the receiver's container was built with.  The
    type id has neither namespace URI nor server index, as for all messages in use; see C37. *)
Theorem C36_message_roundtrip :
  (forall v, wf_mhdr v -> roundtrips (enc_mhdr v) (dec_mhdr mhdr0) v) /\
  (forall v, wf_hello v -> roundtrips (enc_hello v) (dec_hello hello0) v) /\
  (forall v, wf_ack v -> roundtrips (enc_ack v) dec_ack v) /\
  (forall v, wf_errmsg v -> roundtrips (enc_errmsg v) (dec_errmsg errmsg0) v) /\
  (forall v, wf_rhello v -> roundtrips (enc_rhello v) (dec_rhello rhello0) v) /\
  (forall v, wf_uhdr v -> roundtrips (enc_uhdr v) (dec_uhdr uhdr0) v) /\
  (forall v, wf_sechdr v -> roundtrips (enc_sechdr v) (dec_sechdr sechdr0) v) /\
  (forall v, wf_tokhdr v -> roundtrips (enc_tokhdr v) dec_tokhdr v) /\
  (forall v, wf_seqhdr v -> roundtrips (enc_seqhdr v) dec_seqhdr v) /\
  (forall id v, wf_cont wf_openreq v -> roundtrips (enc_cont enc_openreq v) (dec_cont dec_openreq (cont_new id openreq0)) v) /\
  (forall id v, wf_cont wf_openrsp v -> roundtrips (enc_cont enc_openrsp v) (dec_cont dec_openrsp (cont_new id openrsp0)) v) /\
  (forall id v, wf_cont wf_closereq v -> roundtrips (enc_cont enc_closereq v) (dec_cont dec_closereq (cont_new id closereq0)) v) /\
  (forall id v, wf_cont wf_closersp v -> roundtrips (enc_cont enc_closersp v) (dec_cont dec_closersp (cont_new id closersp0)) v) /\
  (forall id v, wf_cont wf_epreq v -> roundtrips (enc_cont enc_epreq v) (dec_cont dec_epreq (cont_new id epreq0)) v) /\
  (forall id v, wf_cont wf_eprsp v -> roundtrips (enc_cont enc_eprsp v) (dec_cont dec_eprsp (cont_new id eprsp0)) v) /\
  (forall id v, wf_cont wf_csreq v -> roundtrips (enc_cont enc_csreq v) (dec_cont dec_csreq (cont_new id csreq0)) v) /\
  (forall id v, wf_cont wf_csrsp v -> roundtrips (enc_cont enc_csrsp v) (dec_cont dec_csrsp (cont_new id csrsp0)) v) /\
  (forall id v, wf_cont wf_asreq v -> roundtrips (enc_cont enc_asreq v) (dec_cont dec_asreq (cont_new id asreq0)) v) /\
  (forall id v, wf_cont wf_asrsp v -> roundtrips (enc_cont enc_asrsp v) (dec_cont dec_asrsp (cont_new id asrsp0)) v) /\
  (forall id v, wf_cont wf_clsreq v -> roundtrips (enc_cont enc_clsreq v) (dec_cont dec_clsreq (cont_new id clsreq0)) v) /\
  (forall id v, wf_cont wf_clsrsp v -> roundtrips (enc_cont enc_clsrsp v) (dec_cont dec_clsrsp (cont_new id clsrsp0)) v) /\
  (forall id v, wf_cont wf_rdreq v -> roundtrips (enc_cont enc_rdreq v) (dec_cont dec_rdreq (cont_new id rdreq0)) v) /\
  (forall id v, wf_cont wf_rdrsp v -> roundtrips (enc_cont enc_rdrsp v) (dec_cont dec_rdrsp (cont_new id rdrsp0)) v).
Proof.
  split_all.
  - intros v H. exact (wr_rd _ _ (s_mhdr v) v (W_mhdr v H) (R_mhdr v H)).
  - intros v H. exact (wr_rd _ _ (s_hello v) v (W_hello v H) (R_hello v H)).
  - intros v H. exact (wr_rd _ _ (s_ack v) v (W_ack v H) (R_ack v H)).
  - intros v H. exact (wr_rd _ _ (s_errmsg v) v (W_errmsg v H) (R_errmsg v H)).
  - intros v H. exact (wr_rd _ _ (s_rhello v) v (W_rhello v H) (R_rhello v H)).
  - intros v H. exact (wr_rd _ _ (s_uhdr v) v (W_uhdr v H) (R_uhdr v H)).
  - intros v H. exact (wr_rd _ _ (s_sechdr v) v (W_sechdr v H) (R_sechdr v H)).
  - intros v H. exact (wr_rd _ _ (s_tokhdr v) v (W_tokhdr v H) (R_tokhdr v H)).
  - intros v H. exact (wr_rd _ _ (s_seqhdr v) v (W_seqhdr v H) (R_seqhdr v H)).
  - intros id v H. exact (wr_rd _ _ (s_cont s_openreq v) v (W_cont _ _ _ v W_openreq H) (R_cont _ _ _ id _ v R_openreq H)).
  - intros id v H. exact (wr_rd _ _ (s_cont s_openrsp v) v (W_cont _ _ _ v W_openrsp H) (R_cont _ _ _ id _ v R_openrsp H)).
  - intros id v H. exact (wr_rd _ _ (s_cont s_closereq v) v (W_cont _ _ _ v W_closereq H) (R_cont _ _ _ id _ v R_closereq H)).
  - intros id v H. exact (wr_rd _ _ (s_cont s_closersp v) v (W_cont _ _ _ v W_closersp H) (R_cont _ _ _ id _ v R_closersp H)).
  - intros id v H. exact (wr_rd _ _ (s_cont s_epreq v) v (W_cont _ _ _ v W_epreq H) (R_cont _ _ _ id _ v R_epreq H)).
  - intros id v H. exact (wr_rd _ _ (s_cont s_eprsp v) v (W_cont _ _ _ v W_eprsp H) (R_cont _ _ _ id _ v R_eprsp H)).
  - intros id v H. exact (wr_rd _ _ (s_cont s_csreq v) v (W_cont _ _ _ v W_csreq H) (R_cont _ _ _ id _ v R_csreq H)).
  - intros id v H. exact (wr_rd _ _ (s_cont s_csrsp v) v (W_cont _ _ _ v W_csrsp H) (R_cont _ _ _ id _ v R_csrsp H)).
  - intros id v H. exact (wr_rd _ _ (s_cont s_asreq v) v (W_cont _ _ _ v W_asreq H) (R_cont _ _ _ id _ v R_asreq H)).
  - intros id v H. exact (wr_rd _ _ (s_cont s_asrsp v) v (W_cont _ _ _ v W_asrsp H) (R_cont _ _ _ id _ v R_asrsp H)).
  - intros id v H. exact (wr_rd _ _ (s_cont s_clsreq v) v (W_cont _ _ _ v W_clsreq H) (R_cont _ _ _ id _ v R_clsreq H)).
  - intros id v H. exact (wr_rd _ _ (s_cont s_clsrsp v) v (W_cont _ _ _ v W_clsrsp H) (R_cont _ _ _ id _ v R_clsrsp H)).
  - intros id v H. exact (wr_rd _ _ (s_cont s_rdreq v) v (W_cont _ _ _ v W_rdreq H) (R_cont _ _ _ id _ v R_rdreq H)).
  - intros id v H. exact (wr_rd _ _ (s_cont s_rdrsp v) v (W_cont _ _ _ v W_rdrsp H) (R_cont _ _ _ id _ v R_rdrsp H)).
Qed.
Print Assumptions C36_message_roundtrip.

Example C36_case :
  let v := cont_new 631 (mkRd (mkRq (mkNid 0 (IdNum 5)) 1 2 0 [] 1000 extobj0) 0 3 [mkRv (mkNid 2 (IdStr [65])) 13 [] qname0]) in
  wf_cont wf_rdreq v /\
  option_map (fun b => firstn (k_head b) (k_pkt b)) (enc_cont enc_rdreq v (mkSdu 0 0 (repeat 0 (Z.to_nat 4096)))) =
  Some ([1; 0; 119; 2] ++ [0; 5] ++ [1; 0; 0; 0; 0; 0; 0; 0] ++ [2; 0; 0; 0] ++ [0; 0; 0; 0] ++ [255; 255; 255; 255] ++ [232; 3; 0; 0] ++ [0; 0] ++ [0] ++
        [0; 0; 0; 0; 0; 0; 0; 0] ++ [3; 0; 0; 0] ++ [1; 0; 0; 0] ++ [3; 2; 0; 1; 0; 0; 0; 65] ++ [13; 0; 0; 0] ++ [255; 255; 255; 255] ++
        [0; 0] ++ [255; 255; 255; 255]).
Proof.
  cbn zeta. split; [|vm_compute; reflexivity].
  split; [split; [split; cbn; unfold is_u16, is_u32; lia|auto]|]. cbn [cont_new co_msg].
  unfold wf_rdreq, wf_reqhdr, wf_extobj, wf_nodeid, wf_arr, wf_str, is_u16, is_u32, is_i32, is_i64, is_u64. cbn. repeat split; try lia; auto.
  all: try (apply Forall_nil).
  apply Forall_cons; [|apply Forall_nil]. unfold wf_rvid, wf_nodeid, wf_qname, wf_str, is_u16, is_u32. cbn. repeat split; try lia; auto.
  all: repeat (apply Forall_cons; [unfold is_byte; lia|]); apply Forall_nil.
Qed.

(** C37.  Decoding is right everywhere; encoding is right when the read cursor is at the write cursor, or when
    neither namespace URI nor server index is present. *)
Theorem C37_expanded_nodeid_partial :
  (forall v, wf_xnodeid v -> reads (dec_xnodeid xnodeid0) (s_xnodeid v) v) /\
  (forall v, wf_plain v -> roundtrips (enc_xnodeid v) (dec_xnodeid xnodeid0) v) /\
  (forall v b b', wf_xnodeid v -> sdu_ok b -> k_tail b = k_head b -> enc_xnodeid v b = Some b' ->
     appended b b' (s_xnodeid v) /\
     dec_xnodeid xnodeid0 (mkSdu (k_head b) (k_head b') (k_pkt b')) = DOk v (mkSdu (k_head b') (k_head b') (k_pkt b'))).
Proof.
  split; [exact R_xnodeid|]. split; [intros v H; exact (wr_rd _ _ _ _ (W_plain v H) (R_plain v H))|].
  intros v b b' H (H1 & H2 & H3) T E. rewrite enc_xnodeid_front in E by (auto; unfold hok; lia). unfold St in E.
  destruct (fits b (s_xnodeid v)) eqn:F; [|discriminate]. injection E as <-. split; [repeat split|].
  rewrite (R_xnodeid v H (mkSdu (k_head b) (k_head (put b (s_xnodeid v))) (k_pkt (put b (s_xnodeid v))))); [reflexivity|].
  cbn [k_tail]. eapply holds_indep; [|apply put_holds; [unfold hok; lia|exact F]]. reflexivity.
Qed.
Print Assumptions C37_expanded_nodeid_partial.

(** After anything else in the same packet, every expanded node id with a namespace URI or server index is encoded wrongly: the flags go
    into the packet's first octet not yet read, and the id read back has neither. *)
Theorem C37_expanded_nodeid_refuted : forall v b b',
  wf_xnodeid v -> xn_uri v <> None \/ xn_srv v <> None -> sdu_ok b -> (k_tail b < k_head b)%nat -> enc_xnodeid v b = Some b' ->
  nth (k_tail b) (k_pkt b') 0 =
    Z.lor (nth (k_tail b) (k_pkt b) 0) ((if is_some (xn_uri v) then 128 else 0) + (if is_some (xn_srv v) then 64 else 0)) /\
  exists b'', dec_xnodeid xnodeid0 (mkSdu (k_head b) (k_head b') (k_pkt b')) = DOk (mkXn (xn_id v) None None) b'' /\
    (k_tail b'' < k_head b')%nat.
Proof. exact xnodeid_wrong. Qed.
Print Assumptions C37_expanded_nodeid_refuted.

Example C37_case :
  let v := mkXn (mkNid 0 (IdNum 5)) (Some [65]) (Some 3) in
  let b := mkSdu 0 4 (repeat 1 (Z.to_nat 4096)) in
  wf_xnodeid v /\ option_map (fun b => firstn (k_head b) (k_pkt b)) (enc_xnodeid v b) =
    Some ([193; 1; 1; 1] ++ [0; 5] ++ [1; 0; 0; 0; 65] ++ [3; 0; 0; 0]).
Proof.
  cbn zeta. split; [|vm_compute; reflexivity]. unfold wf_xnodeid, wf_nodeid, wf_ostr, wf_opt, wf_str, is_u16, is_u32. cbn.
  repeat split; try lia; try discriminate. repeat (apply Forall_cons; [unfold is_byte; lia|]); apply Forall_nil.
Qed.

(** C38.  [recoverable]: scalars of all types (the empty XML element only) and arrays of the first seven types. *)
Theorem C38_variant_roundtrip_partial : forall v, wf_variant v -> roundtrips (enc_variant v) (dec_variant variant0) v.
Proof.
  intros v H. apply (wr_rd _ _ (s_variant v)); [|now apply R_variant]. apply W_variant. destruct v as [[x|] d]; [|exact I]. apply H.
Qed.
Print Assumptions C38_variant_roundtrip_partial.

(** Every other variant the encoder accepts: an array of any other type ends in the bare [throw]; an XML element and array dimensions
    are lost. *)
Theorem C38_variant_refuted :
  (forall x d b b', wf_vval x -> recoverable x = false -> (forall e, x <> VXml e) -> sdu_ok b -> enc_variant (mkVar (Some x) d) b = Some b' ->
     dec_variant variant0 (mkSdu (k_head b) (k_head b') (k_pkt b')) = DAbort) /\
  (forall e, roundtrips (enc_variant (mkVar (Some (VXml e)) None)) (dec_variant variant0) (mkVar (Some (VXml 0)) None)) /\
  (forall x d, wf_vval x -> recoverable x = true -> roundtrips (enc_variant (mkVar (Some x) d)) (dec_variant variant0) (mkVar (Some x) None)).
Proof. exact variant_lost. Qed.
Print Assumptions C38_variant_refuted.

Example C38_case :
  wf_variant (mkVar (Some (AInt32 [-1; 70000])) None) /\ wf_vval (AString [[65]]) /\ recoverable (AString [[65]]) = false /\
  option_map (fun b => firstn (k_head b) (k_pkt b)) (enc_variant (mkVar (Some (AString [[65]])) None) (mkSdu 0 0 (repeat 0 (Z.to_nat 4096)))) =
    Some [140; 1; 0; 0; 0; 1; 0; 0; 0; 65].
Proof.
  split; [|split; [|split; [reflexivity|vm_compute; reflexivity]]].
  - split; [|reflexivity]. cbn. split; [|reflexivity]. split; [|cbn; lia]. repeat (apply Forall_cons; [unfold is_i32; lia|]); apply Forall_nil.
  - cbn. split; [|cbn; lia]. repeat constructor; cbn; try lia.
Qed.

(** C39.  The service messages a server or client decodes, and the headers. *)
Theorem C39_reads_received_octets_partial :
  (forall v, inside (dec_xnodeid v)) /\
  (forall v, inside (dec_mhdr v)) /\
  (forall v, inside (dec_hello v)) /\
  inside dec_ack /\
  (forall v, inside (dec_errmsg v)) /\
  (forall v, inside (dec_rhello v)) /\
  (forall v, inside (dec_uhdr v)) /\
  (forall v, inside (dec_sechdr v)) /\
  inside dec_tokhdr /\
  inside dec_seqhdr /\
  (forall v, inside (dec_cont dec_openreq v)) /\
  (forall v, inside (dec_cont dec_openrsp v)) /\
  (forall v, inside (dec_cont dec_closereq v)) /\
  (forall v, inside (dec_cont dec_closersp v)) /\
  (forall v, inside (dec_cont dec_epreq v)) /\
  (forall v, inside (dec_cont dec_eprsp v)) /\
  (forall v, inside (dec_cont dec_csreq v)) /\
  (forall v, inside (dec_cont dec_csrsp v)) /\
  (forall v, inside (dec_cont dec_asreq v)) /\
  (forall v, inside (dec_cont dec_asrsp v)) /\
  (forall v, inside (dec_cont dec_clsreq v)) /\
  (forall v, inside (dec_cont dec_clsrsp v)) /\
  (forall v, inside (dec_cont dec_rdreq v)) /\
  (forall v, inside (dec_cont dec_rdrsp v)).
Proof. split_all; intros; apply Loc_inside; auto with loc. Qed.
Print Assumptions C39_reads_received_octets_partial.

(** A hello whose URL length exceeds what has been received is decoded from the octets that follow in the buffer. *)
Theorem C39_reads_received_octets_refuted : exists b1 b2 x1 x2 b1' b2',
  sdu_ok b1 /\ sdu_ok b2 /\ k_tail b1 = k_tail b2 /\ k_head b1 = k_head b2 /\
  firstn (k_head b1) (k_pkt b1) = firstn (k_head b2) (k_pkt b2) /\
  dec_hello hello0 b1 = DOk x1 b1' /\ dec_hello hello0 b2 = DOk x2 b2' /\ x1 <> x2 /\ (k_head b1 < k_tail b1')%nat.
Proof.
  exists (mkSdu 0 24 (repeat 0 20 ++ [3; 0; 0; 0] ++ repeat 65 (Z.to_nat 4072))),
         (mkSdu 0 24 (repeat 0 20 ++ [3; 0; 0; 0] ++ repeat 66 (Z.to_nat 4072))),
         (mkHello 0 0 0 0 0 [65; 65; 65]), (mkHello 0 0 0 0 0 [66; 66; 66]),
         (mkSdu 27 24 (repeat 0 20 ++ [3; 0; 0; 0] ++ repeat 65 (Z.to_nat 4072))),
         (mkSdu 27 24 (repeat 0 20 ++ [3; 0; 0; 0] ++ repeat 66 (Z.to_nat 4072))).
  assert (B : forall z, is_byte z -> bytes_ok (repeat 0 20 ++ [3; 0; 0; 0] ++ repeat z (Z.to_nat 4072))).
  { intros z Hz. unfold bytes_ok. rewrite !Forall_app. split; [|split].
    - apply Forall_forall. intros x Hx. apply repeat_spec in Hx as ->. unfold is_byte. lia.
    - repeat (apply Forall_cons; [unfold is_byte; lia|]); apply Forall_nil.
    - apply Forall_forall. intros x Hx. apply repeat_spec in Hx as ->. exact Hz. }
  assert (L : forall z, length (repeat 0 20 ++ [3; 0; 0; 0] ++ repeat z (Z.to_nat 4072)) = Z.to_nat 4096).
  { intros z. rewrite !app_length, !repeat_length. cbn [length]. lia. }
  split. { split; [apply L|]. split; [apply B; unfold is_byte; lia|]. cbn [k_tail k_head k_pkt]. rewrite L. lia. }
  split. { split; [apply L|]. split; [apply B; unfold is_byte; lia|]. cbn [k_tail k_head k_pkt]. rewrite L. lia. }
  repeat split; try (vm_compute; reflexivity); try discriminate; cbn; lia.
Qed.
Print Assumptions C39_reads_received_octets_refuted.

Example C39_case : exists x b', dec_hello hello0 (mkSdu 0 27 (repeat 0 20 ++ [3; 0; 0; 0] ++ repeat 65 (Z.to_nat 4072))) = DOk x b' /\ (k_tail b' <= 27)%nat.
Proof. eexists _, _. split; [vm_compute; reflexivity|cbn; lia]. Qed.

(** C40.  Handshake messages, channel headers and diagnostic infos never reach the bare [throw]. *)
Theorem C40_handshake_cannot_terminate_partial :
  (forall v b, dec_mhdr v b <> DAbort) /\
  (forall v b, dec_hello v b <> DAbort) /\
  (forall b, dec_ack b <> DAbort) /\
  (forall v b, dec_errmsg v b <> DAbort) /\
  (forall v b, dec_rhello v b <> DAbort) /\
  (forall v b, dec_uhdr v b <> DAbort) /\
  (forall v b, dec_sechdr v b <> DAbort) /\
  (forall b, dec_tokhdr b <> DAbort) /\
  (forall b, dec_seqhdr b <> DAbort) /\
  (forall v b, dec_diag v b <> DAbort).
Proof.
  split_all; intros.
  - apply NoAb_mhdr.
  - apply NoAb_hello.
  - apply NoAb_ack.
  - apply NoAb_errmsg.
  - apply NoAb_rhello.
  - apply NoAb_uhdr.
  - apply NoAb_sechdr.
  - apply NoAb_tokhdr.
  - apply NoAb_seqhdr.
  - apply NoAb_diag.
Qed.
Print Assumptions C40_handshake_cannot_terminate_partial.

(** A node id terminates the process exactly if the low four bits of its first octet are not one of the six known forms; every service message starts
    with one (its type id), so any peer with an open channel can do it. *)
Theorem C40_nodeid_terminates_refuted :
  (forall v b, dec_nodeid v b = DAbort <-> exists e, nth_error (k_pkt b) (k_tail b) = Some e /\ (Z.land e 15 < 0 \/ 5 < Z.land e 15)) /\
  (forall A (d : A -> rd A) v b e, nth_error (k_pkt b) (k_tail b) = Some e -> 5 < Z.land e 15 -> dec_cont d v b = DAbort).
Proof.
  split; [exact nodeid_abort|]. intros A d v b e N H. unfold dec_cont, bind at 1. unfold dec_xnodeid, bind at 1, peek. rewrite N.
  unfold bind at 1. assert (E : dec_nodeid (xn_id (co_id v)) b = DAbort) by (apply nodeid_abort; eauto). now rewrite E.
Qed.
Print Assumptions C40_nodeid_terminates_refuted.

(** And a string length beyond the buffer reads outside the array, already in the very first message of a connection. *)
Theorem C40_oversized_length_refuted : exists b, sdu_ok b /\ dec_hello hello0 b = DOob.
Proof.
  exists (mkSdu 0 24 (repeat 0 20 ++ [255; 255; 0; 0] ++ repeat 0 (Z.to_nat 4072))). split; [|vm_compute; reflexivity].
  split; [reflexivity|]. split.
  - unfold bytes_ok. cbn [k_pkt]. rewrite !Forall_app. repeat split; try (apply Forall_forall; intros x Hx; apply repeat_spec in Hx as ->; unfold is_byte; lia).
    repeat (apply Forall_cons; [unfold is_byte; lia|]); apply Forall_nil.
  - cbn [k_tail k_head k_pkt]. rewrite !app_length, !repeat_length. cbn [length]. lia.
Qed.
Print Assumptions C40_oversized_length_refuted.

Example C40_case : dec_cont dec_rdreq (cont_new 631 rdreq0) (mkSdu 0 4 ([6; 0; 0; 0] ++ repeat 0 (Z.to_nat 4092))) = DAbort.
Proof. vm_compute. reflexivity. Qed.

(** C67.  The octets of the standard's binary encoding, for all values: appended exactly, and read back from wherever they stand. *)
Theorem C67_wire_format :
  (forall v, writes (enc_bool v) (s_bool v) /\ reads dec_bool (s_bool v) v) /\
  (forall v, is_i8 v -> writes (enc_sbyte v) (s_1 v) /\ reads dec_sbyte (s_1 v) v) /\
  (forall v, is_byte v -> writes (enc_byte v) (s_1 v) /\ reads dec_byte (s_1 v) v) /\
  (forall v, is_i16 v -> writes (enc_16 v) (s_2 v) /\ reads dec_i16 (s_2 v) v) /\
  (forall v, is_u16 v -> writes (enc_16 v) (s_2 v) /\ reads dec_u16 (s_2 v) v) /\
  (forall v, is_i32 v -> writes (enc_32 v) (s_4 v) /\ reads dec_i32 (s_4 v) v) /\
  (forall v, is_u32 v -> writes (enc_32 v) (s_4 v) /\ reads dec_u32 (s_4 v) v) /\
  (forall v, is_i64 v -> writes (enc_64 v) (s_8 v) /\ reads dec_i64 (s_8 v) v) /\
  (forall v, is_u64 v -> writes (enc_64 v) (s_8 v) /\ reads dec_u64 (s_8 v) v) /\
  (forall v, is_u32 v -> writes (enc_float v) (s_4 v) /\ reads dec_float (s_4 v) v) /\
  (forall v, is_u64 v -> writes (enc_double v) (s_8 v) /\ reads dec_double (s_8 v) v) /\
  (forall v, wf_str v -> writes (enc_string v) (s_str v) /\ reads (dec_string []) (s_str v) v) /\
  (forall v, is_i64 v -> writes (enc_datetime v) (s_8 v) /\ reads dec_datetime (s_8 v) v) /\
  (forall v, wf_guid v -> writes (enc_guid v) (s_guid v) /\ reads (dec_guid guid0) (s_guid v) v) /\
  (forall v, wf_str v -> writes (enc_bstring v) (s_str v) /\ reads (dec_bstring []) (s_str v) v) /\
  (forall v, wf_nodeid v -> writes (enc_nodeid v) (s_nodeid v) /\ reads (dec_nodeid nodeid0) (s_nodeid v) v) /\
  (forall v, is_u32 v -> writes (enc_status v) (s_4 v) /\ reads dec_status (s_4 v) v) /\
  (forall v, wf_qname v -> writes (enc_qname v) (s_qname v) /\ reads (dec_qname qname0) (s_qname v) v) /\
  (forall v, wf_ltext v -> writes (enc_ltext v) (s_ltext v) /\ reads (dec_ltext ltext0) (s_ltext v) v) /\
  (forall v, wf_extobj v -> writes (enc_extobj v) (s_extobj v) /\ reads (dec_extobj extobj0) (s_extobj v) v) /\
  (forall v, wf_diag v -> writes (enc_diag v) (s_diag v) /\ reads (dec_diag diag0) (s_diag v) v) /\
  (forall v, wf_dvalue v -> writes (enc_dvalue v) (s_dvalue v) /\ reads (dec_dvalue dvalue0) (s_dvalue v) v) /\
  (forall v, wf_variant v -> writes (enc_variant v) (s_variant v) /\ reads (dec_variant variant0) (s_variant v) v) /\
  (forall v, wf_mhdr v -> writes (enc_mhdr v) (s_mhdr v) /\ reads (dec_mhdr mhdr0) (s_mhdr v) v) /\
  (forall v, wf_hello v -> writes (enc_hello v) (s_hello v) /\ reads (dec_hello hello0) (s_hello v) v) /\
  (forall v, wf_ack v -> writes (enc_ack v) (s_ack v) /\ reads dec_ack (s_ack v) v) /\
  (forall v, wf_errmsg v -> writes (enc_errmsg v) (s_errmsg v) /\ reads (dec_errmsg errmsg0) (s_errmsg v) v) /\
  (forall v, wf_rhello v -> writes (enc_rhello v) (s_rhello v) /\ reads (dec_rhello rhello0) (s_rhello v) v) /\
  (forall v, wf_uhdr v -> writes (enc_uhdr v) (s_uhdr v) /\ reads (dec_uhdr uhdr0) (s_uhdr v) v) /\
  (forall v, wf_sechdr v -> writes (enc_sechdr v) (s_sechdr v) /\ reads (dec_sechdr sechdr0) (s_sechdr v) v) /\
  (forall v, wf_tokhdr v -> writes (enc_tokhdr v) (s_tokhdr v) /\ reads dec_tokhdr (s_tokhdr v) v) /\
  (forall v, wf_seqhdr v -> writes (enc_seqhdr v) (s_seqhdr v) /\ reads dec_seqhdr (s_seqhdr v) v) /\
  (forall id v, wf_cont wf_openreq v -> writes (enc_cont enc_openreq v) (s_cont s_openreq v) /\ reads (dec_cont dec_openreq (cont_new id openreq0)) (s_cont s_openreq v) v) /\
  (forall id v, wf_cont wf_openrsp v -> writes (enc_cont enc_openrsp v) (s_cont s_openrsp v) /\ reads (dec_cont dec_openrsp (cont_new id openrsp0)) (s_cont s_openrsp v) v) /\
  (forall id v, wf_cont wf_closereq v -> writes (enc_cont enc_closereq v) (s_cont s_closereq v) /\ reads (dec_cont dec_closereq (cont_new id closereq0)) (s_cont s_closereq v) v) /\
  (forall id v, wf_cont wf_closersp v -> writes (enc_cont enc_closersp v) (s_cont s_closersp v) /\ reads (dec_cont dec_closersp (cont_new id closersp0)) (s_cont s_closersp v) v) /\
  (forall id v, wf_cont wf_epreq v -> writes (enc_cont enc_epreq v) (s_cont s_epreq v) /\ reads (dec_cont dec_epreq (cont_new id epreq0)) (s_cont s_epreq v) v) /\
  (forall id v, wf_cont wf_eprsp v -> writes (enc_cont enc_eprsp v) (s_cont s_eprsp v) /\ reads (dec_cont dec_eprsp (cont_new id eprsp0)) (s_cont s_eprsp v) v) /\
  (forall id v, wf_cont wf_csreq v -> writes (enc_cont enc_csreq v) (s_cont s_csreq v) /\ reads (dec_cont dec_csreq (cont_new id csreq0)) (s_cont s_csreq v) v) /\
  (forall id v, wf_cont wf_csrsp v -> writes (enc_cont enc_csrsp v) (s_cont s_csrsp v) /\ reads (dec_cont dec_csrsp (cont_new id csrsp0)) (s_cont s_csrsp v) v) /\
  (forall id v, wf_cont wf_asreq v -> writes (enc_cont enc_asreq v) (s_cont s_asreq v) /\ reads (dec_cont dec_asreq (cont_new id asreq0)) (s_cont s_asreq v) v) /\
  (forall id v, wf_cont wf_asrsp v -> writes (enc_cont enc_asrsp v) (s_cont s_asrsp v) /\ reads (dec_cont dec_asrsp (cont_new id asrsp0)) (s_cont s_asrsp v) v) /\
  (forall id v, wf_cont wf_clsreq v -> writes (enc_cont enc_clsreq v) (s_cont s_clsreq v) /\ reads (dec_cont dec_clsreq (cont_new id clsreq0)) (s_cont s_clsreq v) v) /\
  (forall id v, wf_cont wf_clsrsp v -> writes (enc_cont enc_clsrsp v) (s_cont s_clsrsp v) /\ reads (dec_cont dec_clsrsp (cont_new id clsrsp0)) (s_cont s_clsrsp v) v) /\
  (forall id v, wf_cont wf_rdreq v -> writes (enc_cont enc_rdreq v) (s_cont s_rdreq v) /\ reads (dec_cont dec_rdreq (cont_new id rdreq0)) (s_cont s_rdreq v) v) /\
  (forall id v, wf_cont wf_rdrsp v -> writes (enc_cont enc_rdrsp v) (s_cont s_rdrsp v) /\ reads (dec_cont dec_rdrsp (cont_new id rdrsp0)) (s_cont s_rdrsp v) v).
Proof.
  split_all.
  - intros v. exact (conj (Wr_writes _ _ (W_bool v)) (R_bool v)).
  - intros v H. exact (conj (Wr_writes _ _ (W_1 v)) (R_sbyte v H)).
  - intros v H. exact (conj (Wr_writes _ _ (W_1 v)) (R_byte v H)).
  - intros v H. exact (conj (Wr_writes _ _ (W_16 v)) (R_i16 v H)).
  - intros v H. exact (conj (Wr_writes _ _ (W_16 v)) (R_u16 v H)).
  - intros v H. exact (conj (Wr_writes _ _ (W_32 v)) (R_i32 v H)).
  - intros v H. exact (conj (Wr_writes _ _ (W_32 v)) (R_u32 v H)).
  - intros v H. exact (conj (Wr_writes _ _ (W_64 v)) (R_i64 v H)).
  - intros v H. exact (conj (Wr_writes _ _ (W_64 v)) (R_u64 v H)).
  - intros v H. exact (conj (Wr_writes _ _ (W_32 v)) (R_float v H)).
  - intros v H. exact (conj (Wr_writes _ _ (W_64 v)) (R_double v H)).
  - intros v H. exact (conj (Wr_writes _ _ (W_str v H)) (R_str v H)).
  - intros v H. exact (conj (Wr_writes _ _ (W_64 v)) (R_datetime v H)).
  - intros v H. exact (conj (Wr_writes _ _ (W_guid v H)) (R_guid v H)).
  - intros v H. exact (conj (Wr_writes _ _ (W_bstr v H)) (R_bstr [] v H)).
  - intros v H. exact (conj (Wr_writes _ _ (W_nodeid v H)) (R_nodeid v H)).
  - intros v H. exact (conj (Wr_writes _ _ (W_32 v)) (R_status v H)).
  - intros v H. exact (conj (Wr_writes _ _ (W_qname v H)) (R_qname v H)).
  - intros v H. exact (conj (Wr_writes _ _ (W_ltext v H)) (R_ltext v H)).
  - intros v H. exact (conj (Wr_writes _ _ (W_extobj v H)) (R_extobj v H)).
  - intros v H. exact (conj (Wr_writes _ _ (W_diag v H)) (R_diag v H)).
  - intros v H. exact (conj (Wr_writes _ _ (W_dvalue v H)) (R_dvalue v H)).
  - intros v H. refine (conj (Wr_writes _ _ (W_variant v _)) (R_variant v H)). destruct v as [[x|] d]; [|exact I]. apply H.
  - intros v H. exact (conj (Wr_writes _ _ (W_mhdr v H)) (R_mhdr v H)).
  - intros v H. exact (conj (Wr_writes _ _ (W_hello v H)) (R_hello v H)).
  - intros v H. exact (conj (Wr_writes _ _ (W_ack v H)) (R_ack v H)).
  - intros v H. exact (conj (Wr_writes _ _ (W_errmsg v H)) (R_errmsg v H)).
  - intros v H. exact (conj (Wr_writes _ _ (W_rhello v H)) (R_rhello v H)).
  - intros v H. exact (conj (Wr_writes _ _ (W_uhdr v H)) (R_uhdr v H)).
  - intros v H. exact (conj (Wr_writes _ _ (W_sechdr v H)) (R_sechdr v H)).
  - intros v H. exact (conj (Wr_writes _ _ (W_tokhdr v H)) (R_tokhdr v H)).
  - intros v H. exact (conj (Wr_writes _ _ (W_seqhdr v H)) (R_seqhdr v H)).
  - intros id v H. exact (conj (Wr_writes _ _ (W_cont _ _ _ v W_openreq H)) (R_cont _ _ _ id _ v R_openreq H)).
  - intros id v H. exact (conj (Wr_writes _ _ (W_cont _ _ _ v W_openrsp H)) (R_cont _ _ _ id _ v R_openrsp H)).
  - intros id v H. exact (conj (Wr_writes _ _ (W_cont _ _ _ v W_closereq H)) (R_cont _ _ _ id _ v R_closereq H)).
  - intros id v H. exact (conj (Wr_writes _ _ (W_cont _ _ _ v W_closersp H)) (R_cont _ _ _ id _ v R_closersp H)).
  - intros id v H. exact (conj (Wr_writes _ _ (W_cont _ _ _ v W_epreq H)) (R_cont _ _ _ id _ v R_epreq H)).
  - intros id v H. exact (conj (Wr_writes _ _ (W_cont _ _ _ v W_eprsp H)) (R_cont _ _ _ id _ v R_eprsp H)).
  - intros id v H. exact (conj (Wr_writes _ _ (W_cont _ _ _ v W_csreq H)) (R_cont _ _ _ id _ v R_csreq H)).
  - intros id v H. exact (conj (Wr_writes _ _ (W_cont _ _ _ v W_csrsp H)) (R_cont _ _ _ id _ v R_csrsp H)).
  - intros id v H. exact (conj (Wr_writes _ _ (W_cont _ _ _ v W_asreq H)) (R_cont _ _ _ id _ v R_asreq H)).
  - intros id v H. exact (conj (Wr_writes _ _ (W_cont _ _ _ v W_asrsp H)) (R_cont _ _ _ id _ v R_asrsp H)).
  - intros id v H. exact (conj (Wr_writes _ _ (W_cont _ _ _ v W_clsreq H)) (R_cont _ _ _ id _ v R_clsreq H)).
  - intros id v H. exact (conj (Wr_writes _ _ (W_cont _ _ _ v W_clsrsp H)) (R_cont _ _ _ id _ v R_clsrsp H)).
  - intros id v H. exact (conj (Wr_writes _ _ (W_cont _ _ _ v W_rdreq H)) (R_cont _ _ _ id _ v R_rdreq H)).
  - intros id v H. exact (conj (Wr_writes _ _ (W_cont _ _ _ v W_rdrsp H)) (R_cont _ _ _ id _ v R_rdrsp H)).
Qed.
Print Assumptions C67_wire_format.

Example C67_case :
  s_str [117; 97] = [2; 0; 0; 0; 117; 97] /\ s_str [] = [255; 255; 255; 255] /\ s_nodeid (mkNid 0 (IdNum 255)) = [0; 255] /\
  s_nodeid (mkNid 0 (IdNum 446)) = [1; 0; 190; 1] /\ s_nodeid (mkNid 256 (IdNum 1)) = [2; 0; 1; 1; 0; 0; 0] /\
  s_ltext (mkLt None (Some [72])) = [2; 1; 0; 0; 0; 72] /\ s_dvalue (mkDv (mkVar (Some (VInt16 (-2))) None) (Some 0) None None None None) = [3; 4; 254; 255; 0; 0; 0; 0].
Proof. vm_compute. repeat split. Qed.

(** C68.  A message is encoded as long as it fits; one octet more and the encoder writes outside the packet. *)
Theorem C68_encoder_bound_partial :
  (forall v, wf_cont wf_openreq v -> needs (enc_cont enc_openreq v) (length (s_cont s_openreq v))) /\
  (forall v, wf_cont wf_openrsp v -> needs (enc_cont enc_openrsp v) (length (s_cont s_openrsp v))) /\
  (forall v, wf_cont wf_closereq v -> needs (enc_cont enc_closereq v) (length (s_cont s_closereq v))) /\
  (forall v, wf_cont wf_closersp v -> needs (enc_cont enc_closersp v) (length (s_cont s_closersp v))) /\
  (forall v, wf_cont wf_epreq v -> needs (enc_cont enc_epreq v) (length (s_cont s_epreq v))) /\
  (forall v, wf_cont wf_eprsp v -> needs (enc_cont enc_eprsp v) (length (s_cont s_eprsp v))) /\
  (forall v, wf_cont wf_csreq v -> needs (enc_cont enc_csreq v) (length (s_cont s_csreq v))) /\
  (forall v, wf_cont wf_csrsp v -> needs (enc_cont enc_csrsp v) (length (s_cont s_csrsp v))) /\
  (forall v, wf_cont wf_asreq v -> needs (enc_cont enc_asreq v) (length (s_cont s_asreq v))) /\
  (forall v, wf_cont wf_asrsp v -> needs (enc_cont enc_asrsp v) (length (s_cont s_asrsp v))) /\
  (forall v, wf_cont wf_clsreq v -> needs (enc_cont enc_clsreq v) (length (s_cont s_clsreq v))) /\
  (forall v, wf_cont wf_clsrsp v -> needs (enc_cont enc_clsrsp v) (length (s_cont s_clsrsp v))) /\
  (forall v, wf_cont wf_rdreq v -> needs (enc_cont enc_rdreq v) (length (s_cont s_rdreq v))) /\
  (forall v, wf_cont wf_rdrsp v -> needs (enc_cont enc_rdrsp v) (length (s_cont s_rdrsp v))).
Proof.
  split_all.
  - intros v H. exact (Wr_needs _ _ (W_cont _ _ _ v W_openreq H)).
  - intros v H. exact (Wr_needs _ _ (W_cont _ _ _ v W_openrsp H)).
  - intros v H. exact (Wr_needs _ _ (W_cont _ _ _ v W_closereq H)).
  - intros v H. exact (Wr_needs _ _ (W_cont _ _ _ v W_closersp H)).
  - intros v H. exact (Wr_needs _ _ (W_cont _ _ _ v W_epreq H)).
  - intros v H. exact (Wr_needs _ _ (W_cont _ _ _ v W_eprsp H)).
  - intros v H. exact (Wr_needs _ _ (W_cont _ _ _ v W_csreq H)).
  - intros v H. exact (Wr_needs _ _ (W_cont _ _ _ v W_csrsp H)).
  - intros v H. exact (Wr_needs _ _ (W_cont _ _ _ v W_asreq H)).
  - intros v H. exact (Wr_needs _ _ (W_cont _ _ _ v W_asrsp H)).
  - intros v H. exact (Wr_needs _ _ (W_cont _ _ _ v W_clsreq H)).
  - intros v H. exact (Wr_needs _ _ (W_cont _ _ _ v W_clsrsp H)).
  - intros v H. exact (Wr_needs _ _ (W_cont _ _ _ v W_rdreq H)).
  - intros v H. exact (Wr_needs _ _ (W_cont _ _ _ v W_rdrsp H)).
Qed.
Print Assumptions C68_encoder_bound_partial.

Theorem C68_encoder_bound_refuted : exists v b, wf_rdrsp v /\ sdu_ok b /\ enc_rdrsp v b = None.
Proof.
  exists (mkRs rsphdr0 (repeat dvalue0 (Z.to_nat 4096)) []), (mkSdu 0 0 (repeat 0 (Z.to_nat 4096))).
  assert (W : wf_rdrsp (mkRs rsphdr0 (repeat dvalue0 (Z.to_nat 4096)) [])).
  { split; [|split].
    - unfold wf_rsphdr, is_i64, is_u32, wf_arr, wf_extobj, wf_nodeid, is_u16, is_u32, wf_diag, wf_opt. cbn. repeat split; try lia; auto.
    - split; [|cbn [rs_res]; rewrite repeat_length; lia]. apply Forall_forall. intros x Hx. apply repeat_spec in Hx as ->. repeat split; cbn; auto.
    - split; [apply Forall_nil|cbn; lia]. }
  assert (S : sdu_ok (mkSdu 0 0 (repeat 0 (Z.to_nat 4096)))).
  { split; [reflexivity|]. split; [apply Forall_forall; intros x Hx; apply repeat_spec in Hx as ->; unfold is_byte; lia|]. cbn [k_tail k_head]. lia. }
  split; [exact W|]. split; [exact S|].
  destruct (Wr_needs _ _ (W_rdrsp _ W) _ S) as [N _]. destruct (enc_rdrsp _ _) as [b'|]; [|reflexivity].
  exfalso. assert (X : Some b' <> None) by discriminate. apply N in X. revert X. vm_compute. lia.
Qed.
Print Assumptions C68_encoder_bound_refuted.

Example C68_case : length (s_cont s_clsrsp (cont_new 476 (mkClr rsphdr0))) = 28%nat.
Proof. vm_compute. reflexivity. Qed.

(** C69.  Decoding into an object that already has a value: byte strings are replaced, but a null string leaves the old text, and a two-octet node id
    keeps the old namespace. *)
Theorem C69_decode_into_used_partial : forall old s, wf_str s -> reads (dec_bstring old) (s_str s) s.
Proof. exact R_bstr. Qed.
Print Assumptions C69_decode_into_used_partial.

Theorem C69_decode_into_used_refuted :
  (forall old, reads (dec_string old) (s_str []) old) /\
  (forall old i, is_byte i -> reads (dec_nodeid old) (s_nodeid (mkNid 0 (IdNum i))) (mkNid (n_ns old) (IdNum i))).
Proof.
  split.
  - intros old. unfold s_str, dec_string. rewrite <- (app_nil_r (s_4 (-1))). eapply Rd_bind; [apply R_i32; unfold is_i32; lia|]. apply Rd_ret.
  - intros old i H. unfold is_byte in H. unfold s_nodeid. cbn [n_ns n_val Z.eqb andb]. destruct (Z.ltb_spec i 256); [|lia].
    unfold dec_nodeid. apply Rd_cons. cbn [Z.land]. apply (Rd_last _ (fun i => mkNid (n_ns old) (IdNum i))). apply Rd_read.
Qed.
Print Assumptions C69_decode_into_used_refuted.

Example C69_case : dec_string [83; 69; 67] (mkSdu 0 4 [255; 255; 255; 255]) = DOk [83; 69; 67] (mkSdu 4 4 [255; 255; 255; 255]).
Proof. vm_compute. reflexivity. Qed.

(** C70.  The standard's null array (length -1) is rejected with an exception, for every element type; non-negative lengths are accepted. *)
Theorem C70_null_array_refuted : forall A (x0 : A) (d : A -> rd A) old b n, -2147483648 <= n < 0 -> holds b (k_tail b) (s_4 n) ->
  dec_arr x0 d old b = DThrow.
Proof.
  intros A x0 d old b n Hn H. unfold dec_arr, bind. rewrite (R_i32 n) by (auto; unfold is_i32; lia).
  destruct (Z.ltb_spec n 0); [reflexivity|lia].
Qed.
Print Assumptions C70_null_array_refuted.

(** The form of an empty array that is accepted: length 0, whatever the target held before.  (Longer arrays: C36, C67.) *)
Theorem C70_empty_array_partial : forall A (x0 : A) (d : A -> rd A) old b, holds b (k_tail b) (s_4 0) ->
  dec_arr x0 d old b = DOk [] (mkSdu (k_tail b + 4) (k_head b) (k_pkt b)).
Proof.
  intros A x0 d old b H. unfold dec_arr, bind. rewrite (R_i32 0) by (auto; unfold is_i32; lia). reflexivity.
Qed.
Print Assumptions C70_empty_array_partial.

Example C70_case : dec_cont dec_epreq (cont_new 428 epreq0)
  (mkSdu 0 45 ([1; 0; 172; 1] ++ [0; 0] ++ repeat 0 8 ++ repeat 0 4 ++ repeat 0 4 ++ [255; 255; 255; 255] ++ repeat 0 4 ++ [0; 0; 0] ++
     [255; 255; 255; 255] ++ [255; 255; 255; 255] ++ [255; 255; 255; 255] ++ repeat 0 4)) = DThrow.
Proof. vm_compute. reflexivity. Qed.
