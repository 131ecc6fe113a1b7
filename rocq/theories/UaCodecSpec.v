(** Specification of the OPC UA binary encoding (OPC UA Part 6, 5.2), independent of the codec: the octets
    [s_x v] that represent a value [v], and the values [wf_x] that have a representation from which they can be recovered. *)
From Verif Require Import Base ModbusCodecSpec UaCodecModel.
Local Open Scope Z_scope.

Definition is_i8 (z : Z) : Prop := -128 <= z < 128.
Definition is_i16 (z : Z) : Prop := -32768 <= z < 32768.
Definition is_i32 (z : Z) : Prop := -2147483648 <= z < 2147483648.
Definition is_u64 (z : Z) : Prop := 0 <= z < 18446744073709551616.
Definition is_i64 (z : Z) : Prop := -9223372036854775808 <= z < 9223372036854775808.

(** Little-endian integers (two's complement for negative numbers). *)
Definition s_1 (z : Z) : list Z := le_bytes 1 z.
Definition s_2 (z : Z) : list Z := le_bytes 2 z.
Definition s_4 (z : Z) : list Z := le_bytes 4 z.
Definition s_8 (z : Z) : list Z := le_bytes 8 z.
Definition s_bool (b : bool) : list Z := [if b then 1 else 0].
(** Strings: length and octets; no octets is the null string, length -1. *)
Definition s_str (s : ustr) : list Z := match s with [] => s_4 (-1) | _ => s_4 (Z.of_nat (length s)) ++ s end.
Definition wf_str (s : ustr) : Prop := bytes_ok s /\ Z.of_nat (length s) < 2147483648.
Definition s_opt {A} (f : A -> list Z) (o : option A) : list Z := match o with Some x => f x | None => [] end.
Definition wf_opt {A} (P : A -> Prop) (o : option A) : Prop := match o with Some x => P x | None => True end.
(** An optional string that is absent or not empty. *)
Definition wf_ostr (o : option ustr) : Prop := match o with Some s => wf_str s /\ s <> [] | None => True end.
Definition s_arr {A} (f : A -> list Z) (l : list A) : list Z := s_4 (Z.of_nat (length l)) ++ concat (map f l).
Definition wf_arr {A} (P : A -> Prop) (l : list A) : Prop := Forall P l /\ Z.of_nat (length l) < 2147483648.
Fixpoint bits (l : list bool) : Z := match l with [] => 0 | b :: r => (if b then 1 else 0) + 2 * bits r end.

Definition s_guid (g : guid) : list Z := s_4 (g1 g) ++ s_2 (g2 g) ++ s_2 (g3 g) ++ g4 g.
Definition wf_guid (g : guid) : Prop := is_u32 (g1 g) /\ is_u16 (g2 g) /\ is_u16 (g3 g) /\ bytes_ok (g4 g) /\ length (g4 g) = 8%nat.

(** Node ids: two-octet and four-octet forms when the identifier fits. *)
Definition s_nodeid (n : nodeid) : list Z :=
  match n_val n with
  | IdNum i =>
      if (n_ns n =? 0) && (i <? 256) then [0; i]
      else if (n_ns n <? 256) && (i <? 65536) then [1; n_ns n] ++ s_2 i
      else [2] ++ s_2 (n_ns n) ++ s_4 i
  | IdStr s => [3] ++ s_2 (n_ns n) ++ s_str s
  | IdGuid g => [4] ++ s_2 (n_ns n) ++ s_guid g
  | IdOpq s => [5] ++ s_2 (n_ns n) ++ s_str s
  end.
Definition wf_nodeid (n : nodeid) : Prop :=
  is_u16 (n_ns n) /\ match n_val n with IdNum i => is_u32 i | IdStr s => wf_str s | IdGuid g => wf_guid g | IdOpq s => wf_str s end.

Fixpoint s_diag (v : diag) : list Z :=
  let 'mkDiag a b c d e f g := v in
  [bits [is_some a; is_some b; is_some c; is_some d; is_some e; is_some f; is_some g]] ++ s_opt s_4 a ++ s_opt s_4 b ++
  s_opt s_4 c ++ s_opt s_4 d ++ s_opt s_str e ++ s_opt s_4 f ++ match g with Some x => s_diag x | None => [] end.
Fixpoint wf_diag (v : diag) : Prop :=
  let 'mkDiag a b c d e f g := v in
  wf_opt is_i32 a /\ wf_opt is_i32 b /\ wf_opt is_i32 c /\ wf_opt is_i32 d /\ wf_opt wf_str e /\ wf_opt is_u32 f /\
  match g with Some x => wf_diag x | None => True end.

Definition s_qname (v : qname) : list Z := s_2 (qn_ns v) ++ s_str (qn_name v).
Definition wf_qname (v : qname) : Prop := is_u16 (qn_ns v) /\ wf_str (qn_name v).
Definition s_ltext (v : ltext) : list Z :=
  [bits [is_some (lt_locale v); is_some (lt_text v)]] ++ s_opt s_str (lt_locale v) ++ s_opt s_str (lt_text v).
Definition wf_ltext (v : ltext) : Prop := wf_ostr (lt_locale v) /\ wf_ostr (lt_text v).
(** Expanded node ids: flags 0x80 and 0x40 in the first octet of the node id. *)
Definition s_xnodeid (v : xnodeid) : list Z :=
  match s_nodeid (xn_id v) with
  | m :: r => (m + (if is_some (xn_uri v) then 128 else 0) + (if is_some (xn_srv v) then 64 else 0)) :: r
  | [] => []
  end ++ s_opt s_str (xn_uri v) ++ s_opt s_4 (xn_srv v).
Definition wf_xnodeid (v : xnodeid) : Prop := wf_nodeid (xn_id v) /\ wf_ostr (xn_uri v) /\ wf_opt is_u32 (xn_srv v).
(** Expanded node ids without namespace URI and server index. *)
Definition wf_plain (v : xnodeid) : Prop := wf_nodeid (xn_id v) /\ xn_uri v = None /\ xn_srv v = None.
Definition s_extobj (v : extobj) : list Z :=
  s_nodeid (xo_id v) ++ match xo_body v with Some s => [1] ++ s_str s | None => [0] end.
Definition wf_extobj (v : extobj) : Prop := wf_nodeid (xo_id v) /\ wf_ostr (xo_body v).

(** Variants: type number (bit 0x80 for arrays) and value. *)
Definition s_vval (v : vval) : list Z :=
  match v with
  | VBool x => [1] ++ s_bool x | VSByte x => [2] ++ s_1 x | VByte x => [3] ++ s_1 x | VInt16 x => [4] ++ s_2 x
  | VUInt16 x => [5] ++ s_2 x | VInt32 x => [6] ++ s_4 x | VUInt32 x => [7] ++ s_4 x | VInt64 x => [8] ++ s_8 x
  | VUInt64 x => [9] ++ s_8 x | VFloat x => [10] ++ s_4 x | VDouble x => [11] ++ s_8 x | VString x => [12] ++ s_str x
  | VDateTime x => [13] ++ s_8 x | VGuid x => [14] ++ s_guid x | VBString x => [15] ++ s_str x | VXml x => [16]
  | VNodeId x => [17] ++ s_nodeid x | VXNodeId x => [18] ++ s_xnodeid x | VStatus x => [19] ++ s_4 x
  | VQName x => [20] ++ s_qname x | VLText x => [21] ++ s_ltext x | VExtObj x => [22] ++ s_extobj x
  | ABool x => [129] ++ s_arr s_bool x | ASByte x => [130] ++ s_arr s_1 x | AByte x => [131] ++ s_arr s_1 x
  | AInt16 x => [132] ++ s_arr s_2 x | AUInt16 x => [133] ++ s_arr s_2 x | AInt32 x => [134] ++ s_arr s_4 x
  | AUInt32 x => [135] ++ s_arr s_4 x | AInt64 x => [136] ++ s_arr s_8 x | AUInt64 x => [137] ++ s_arr s_8 x
  | AFloat x => [138] ++ s_arr s_4 x | ADouble x => [139] ++ s_arr s_8 x | AString x => [140] ++ s_arr s_str x
  | ADateTime x => [141] ++ s_arr s_8 x | AGuid x => [142] ++ s_arr s_guid x | ABString x => [143] ++ s_arr s_str x
  | AXml x => [144] ++ s_arr (fun _ => []) x | ANodeId x => [145] ++ s_arr s_nodeid x | AXNodeId x => [146] ++ s_arr s_xnodeid x
  | AStatus x => [147] ++ s_arr s_4 x | AQName x => [148] ++ s_arr s_qname x | ALText x => [149] ++ s_arr s_ltext x
  | AExtObj x => [150] ++ s_arr s_extobj x
  end.
(** Well-formed contents of every alternative. *)
Definition wf_vval (v : vval) : Prop :=
  match v with
  | VBool x => True | VSByte x => is_i8 x | VByte x => is_byte x | VInt16 x => is_i16 x
  | VUInt16 x => is_u16 x | VInt32 x => is_i32 x | VUInt32 x => is_u32 x | VInt64 x => is_i64 x
  | VUInt64 x => is_u64 x | VFloat x => is_u32 x | VDouble x => is_u64 x | VString x => wf_str x
  | VDateTime x => is_i64 x | VGuid x => wf_guid x | VBString x => wf_str x | VXml x => is_byte x
  | VNodeId x => wf_nodeid x | VXNodeId x => wf_plain x | VStatus x => is_u32 x
  | VQName x => wf_qname x | VLText x => wf_ltext x | VExtObj x => wf_extobj x
  | ABool x => wf_arr (fun _ => True) x | ASByte x => wf_arr is_i8 x | AByte x => wf_arr is_byte x
  | AInt16 x => wf_arr is_i16 x | AUInt16 x => wf_arr is_u16 x | AInt32 x => wf_arr is_i32 x
  | AUInt32 x => wf_arr is_u32 x | AInt64 x => wf_arr is_i64 x | AUInt64 x => wf_arr is_u64 x
  | AFloat x => wf_arr is_u32 x | ADouble x => wf_arr is_u64 x | AString x => wf_arr wf_str x
  | ADateTime x => wf_arr is_i64 x | AGuid x => wf_arr wf_guid x | ABString x => wf_arr wf_str x
  | AXml x => wf_arr is_byte x | ANodeId x => wf_arr wf_nodeid x | AXNodeId x => wf_arr wf_plain x
  | AStatus x => wf_arr is_u32 x | AQName x => wf_arr wf_qname x | ALText x => wf_arr wf_ltext x
  | AExtObj x => wf_arr wf_extobj x
  end.
(** The alternatives that survive: not an XML element other than the empty one, and arrays of the
    first seven types only. *)
Definition recoverable (v : vval) : bool :=
  match v with
  | VXml x => x =? 0
  | AInt64 _ | AUInt64 _ | AFloat _ | ADouble _ | AString _ | ADateTime _ | AGuid _ | ABString _ | AXml _ | ANodeId _ | AXNodeId _
  | AStatus _ | AQName _ | ALText _ | AExtObj _ => false
  | _ => true
  end.
Definition s_variant (v : variant) : list Z := match vr_val v with Some x => s_vval x | None => [0] end.
Definition wf_variant (v : variant) : Prop :=
  wf_opt (fun x => wf_vval x /\ recoverable x = true) (vr_val v) /\ vr_dims v = None.

Definition s_dvalue (v : dvalue) : list Z :=
  [bits [is_some (vr_val (dv_val v)); is_some (dv_st v); is_some (dv_sts v); is_some (dv_spico v); is_some (dv_vts v); is_some (dv_vpico v)]] ++
  s_opt s_vval (vr_val (dv_val v)) ++ s_opt s_4 (dv_st v) ++ s_opt s_8 (dv_sts v) ++ s_opt s_2 (dv_spico v) ++
  s_opt s_8 (dv_vts v) ++ s_opt s_2 (dv_vpico v).
Definition wf_dvalue (v : dvalue) : Prop :=
  wf_variant (dv_val v) /\ wf_opt is_u32 (dv_st v) /\ wf_opt is_i64 (dv_sts v) /\ wf_opt is_u16 (dv_spico v) /\
  wf_opt is_i64 (dv_vts v) /\ wf_opt is_u16 (dv_vpico v).

(** Messages: the fields one after the other, in the order of the standard. *)
Definition s_mhdr (v : mhdr) : list Z := mh_type v ++ s_1 (mh_final v) ++ s_4 (mh_size v).
Definition wf_mhdr (v : mhdr) : Prop := (bytes_ok (mh_type v) /\ length (mh_type v) = 3%nat) /\ is_byte (mh_final v) /\ is_u32 (mh_size v).
Definition s_hello (v : hello) : list Z :=
  s_4 (he_ver v) ++ s_4 (he_rcv v) ++ s_4 (he_snd v) ++ s_4 (he_max v) ++ s_4 (he_chunk v) ++ s_str (he_url v).
Definition wf_hello (v : hello) : Prop :=
  is_u32 (he_ver v) /\ is_u32 (he_rcv v) /\ is_u32 (he_snd v) /\ is_u32 (he_max v) /\ is_u32 (he_chunk v) /\ wf_str (he_url v).
Definition s_ack (v : ack) : list Z := s_4 (ak_ver v) ++ s_4 (ak_rcv v) ++ s_4 (ak_snd v) ++ s_4 (ak_max v) ++ s_4 (ak_chunk v).
Definition wf_ack (v : ack) : Prop := is_u32 (ak_ver v) /\ is_u32 (ak_rcv v) /\ is_u32 (ak_snd v) /\ is_u32 (ak_max v) /\ is_u32 (ak_chunk v).
Definition s_errmsg (v : errmsg) : list Z := s_4 (er_code v) ++ s_str (er_reason v).
Definition wf_errmsg (v : errmsg) : Prop := is_u32 (er_code v) /\ wf_str (er_reason v).
Definition s_rhello (v : rhello) : list Z := s_str (rh_srv v) ++ s_str (rh_url v).
Definition wf_rhello (v : rhello) : Prop := wf_str (rh_srv v) /\ wf_str (rh_url v).
Definition s_uhdr (v : uhdr) : list Z := uh_type v ++ s_1 (uh_final v) ++ s_4 (uh_size v) ++ s_4 (uh_chan v).
Definition wf_uhdr (v : uhdr) : Prop :=
  (bytes_ok (uh_type v) /\ length (uh_type v) = 3%nat) /\ is_byte (uh_final v) /\ is_u32 (uh_size v) /\ is_u32 (uh_chan v).
Definition s_sechdr (v : sechdr) : list Z := s_str (sh_policy v) ++ s_str (sh_cert v) ++ s_str (sh_thumb v).
Definition wf_sechdr (v : sechdr) : Prop := wf_str (sh_policy v) /\ wf_str (sh_cert v) /\ wf_str (sh_thumb v).
Definition s_tokhdr (v : tokhdr) : list Z := s_4 (th_token v).
Definition wf_tokhdr (v : tokhdr) : Prop := is_u32 (th_token v).
Definition s_seqhdr (v : seqhdr) : list Z := s_4 (sq_num v) ++ s_4 (sq_req v).
Definition wf_seqhdr (v : seqhdr) : Prop := is_u32 (sq_num v) /\ is_u32 (sq_req v).
Definition s_reqhdr (v : reqhdr) : list Z :=
  s_nodeid (rq_token v) ++ s_8 (rq_time v) ++ s_4 (rq_handle v) ++ s_4 (rq_diag v) ++ s_str (rq_audit v) ++ s_4 (rq_hint v) ++ s_extobj (rq_add v).
Definition wf_reqhdr (v : reqhdr) : Prop :=
  wf_nodeid (rq_token v) /\ is_i64 (rq_time v) /\ is_u32 (rq_handle v) /\ is_u32 (rq_diag v) /\ wf_str (rq_audit v) /\ is_u32 (rq_hint v) /\
  wf_extobj (rq_add v).
Definition s_rsphdr (v : rsphdr) : list Z :=
  s_8 (rp_time v) ++ s_4 (rp_handle v) ++ s_4 (rp_result v) ++ s_diag (rp_diag v) ++ s_arr s_str (rp_strs v) ++ s_extobj (rp_add v).
Definition wf_rsphdr (v : rsphdr) : Prop :=
  is_i64 (rp_time v) /\ is_u32 (rp_handle v) /\ is_u32 (rp_result v) /\ wf_diag (rp_diag v) /\ wf_arr wf_str (rp_strs v) /\ wf_extobj (rp_add v).
Definition s_openreq (v : openreq) : list Z :=
  s_reqhdr (oq_hdr v) ++ s_4 (oq_ver v) ++ s_4 (oq_type v) ++ s_4 (oq_mode v) ++ s_str (oq_nonce v) ++ s_4 (oq_life v).
Definition wf_openreq (v : openreq) : Prop :=
  wf_reqhdr (oq_hdr v) /\ is_u32 (oq_ver v) /\ is_i32 (oq_type v) /\ is_i32 (oq_mode v) /\ wf_str (oq_nonce v) /\ is_u32 (oq_life v).
Definition s_closereq (v : closereq) : list Z := s_reqhdr (cq_hdr v).
Definition wf_closereq (v : closereq) : Prop := wf_reqhdr (cq_hdr v).
Definition s_closersp (v : closersp) : list Z := s_rsphdr (cr_hdr v).
Definition wf_closersp (v : closersp) : Prop := wf_rsphdr (cr_hdr v).
Definition s_chtoken (v : chtoken) : list Z := s_4 (ct_chan v) ++ s_4 (ct_token v) ++ s_8 (ct_at v) ++ s_4 (ct_life v).
Definition wf_chtoken (v : chtoken) : Prop := is_u32 (ct_chan v) /\ is_u32 (ct_token v) /\ is_i64 (ct_at v) /\ is_u32 (ct_life v).
Definition s_openrsp (v : openrsp) : list Z := s_rsphdr (or_hdr v) ++ s_4 (or_ver v) ++ s_chtoken (or_tok v) ++ s_str (or_nonce v).
Definition wf_openrsp (v : openrsp) : Prop := wf_rsphdr (or_hdr v) /\ is_u32 (or_ver v) /\ wf_chtoken (or_tok v) /\ wf_str (or_nonce v).
Definition s_appdesc (v : appdesc) : list Z :=
  s_str (ad_uri v) ++ s_str (ad_prod v) ++ s_ltext (ad_name v) ++ s_4 (ad_type v) ++ s_str (ad_gw v) ++ s_str (ad_prof v) ++ s_arr s_str (ad_urls v).
Definition wf_appdesc (v : appdesc) : Prop :=
  wf_str (ad_uri v) /\ wf_str (ad_prod v) /\ wf_ltext (ad_name v) /\ is_i32 (ad_type v) /\ wf_str (ad_gw v) /\ wf_str (ad_prof v) /\
  wf_arr wf_str (ad_urls v).
Definition s_utpolicy (v : utpolicy) : list Z := s_str (up_id v) ++ s_4 (up_type v) ++ s_str (up_iss v) ++ s_str (up_url v) ++ s_str (up_pol v).
Definition wf_utpolicy (v : utpolicy) : Prop :=
  wf_str (up_id v) /\ is_i32 (up_type v) /\ wf_str (up_iss v) /\ wf_str (up_url v) /\ wf_str (up_pol v).
Definition s_epdesc (v : epdesc) : list Z :=
  s_str (ed_url v) ++ s_appdesc (ed_srv v) ++ s_str (ed_cert v) ++ s_4 (ed_mode v) ++ s_str (ed_pol v) ++ s_arr s_utpolicy (ed_toks v) ++
  s_str (ed_trans v) ++ s_1 (ed_level v).
Definition wf_epdesc (v : epdesc) : Prop :=
  wf_str (ed_url v) /\ wf_appdesc (ed_srv v) /\ wf_str (ed_cert v) /\ is_i32 (ed_mode v) /\ wf_str (ed_pol v) /\ wf_arr wf_utpolicy (ed_toks v) /\
  wf_str (ed_trans v) /\ is_byte (ed_level v).
Definition s_epreq (v : epreq) : list Z := s_reqhdr (eq_hdr v) ++ s_str (eq_url v) ++ s_arr s_str (eq_loc v) ++ s_arr s_str (eq_prof v).
Definition wf_epreq (v : epreq) : Prop := wf_reqhdr (eq_hdr v) /\ wf_str (eq_url v) /\ wf_arr wf_str (eq_loc v) /\ wf_arr wf_str (eq_prof v).
Definition s_eprsp (v : eprsp) : list Z := s_rsphdr (ep_hdr v) ++ s_arr s_epdesc (ep_list v).
Definition wf_eprsp (v : eprsp) : Prop := wf_rsphdr (ep_hdr v) /\ wf_arr wf_epdesc (ep_list v).
Definition s_sigdata (v : sigdata) : list Z := s_str (sg_alg v) ++ s_str (sg_sig v).
Definition wf_sigdata (v : sigdata) : Prop := wf_str (sg_alg v) /\ wf_str (sg_sig v).
Definition s_csreq (v : csreq) : list Z :=
  s_reqhdr (cs_hdr v) ++ s_appdesc (cs_desc v) ++ s_str (cs_uri v) ++ s_str (cs_url v) ++ s_str (cs_name v) ++ s_str (cs_nonce v) ++
  s_str (cs_cert v) ++ s_8 (cs_tmo v) ++ s_4 (cs_max v).
Definition wf_csreq (v : csreq) : Prop :=
  wf_reqhdr (cs_hdr v) /\ wf_appdesc (cs_desc v) /\ wf_str (cs_uri v) /\ wf_str (cs_url v) /\ wf_str (cs_name v) /\ wf_str (cs_nonce v) /\
  wf_str (cs_cert v) /\ is_u64 (cs_tmo v) /\ is_u32 (cs_max v).
Definition s_csrsp (v : csrsp) : list Z :=
  s_rsphdr (ch_hdr v) ++ s_nodeid (ch_sid v) ++ s_nodeid (ch_tok v) ++ s_8 (ch_tmo v) ++ s_str (ch_nonce v) ++ s_str (ch_cert v) ++
  s_arr s_epdesc (ch_eps v) ++ s_arr s_1 (ch_soft v) ++ s_sigdata (ch_sig v) ++ s_4 (ch_max v).
Definition wf_csrsp (v : csrsp) : Prop :=
  wf_rsphdr (ch_hdr v) /\ wf_nodeid (ch_sid v) /\ wf_nodeid (ch_tok v) /\ is_u64 (ch_tmo v) /\ wf_str (ch_nonce v) /\ wf_str (ch_cert v) /\
  wf_arr wf_epdesc (ch_eps v) /\ wf_arr is_byte (ch_soft v) /\ wf_sigdata (ch_sig v) /\ is_u32 (ch_max v).
Definition s_clsreq (v : clsreq) : list Z := s_reqhdr (cl_hdr v) ++ s_bool (cl_del v).
Definition wf_clsreq (v : clsreq) : Prop := wf_reqhdr (cl_hdr v).
Definition s_clsrsp (v : clsrsp) : list Z := s_rsphdr (cz_hdr v).
Definition wf_clsrsp (v : clsrsp) : Prop := wf_rsphdr (cz_hdr v).
Definition s_asreq (v : asreq) : list Z :=
  s_reqhdr (as_hdr v) ++ s_sigdata (as_sig v) ++ s_arr s_1 (as_soft v) ++ s_arr s_str (as_loc v) ++ s_extobj (as_tok v) ++ s_sigdata (as_tsig v).
Definition wf_asreq (v : asreq) : Prop :=
  wf_reqhdr (as_hdr v) /\ wf_sigdata (as_sig v) /\ wf_arr is_byte (as_soft v) /\ wf_arr wf_str (as_loc v) /\ wf_extobj (as_tok v) /\
  wf_sigdata (as_tsig v).
Definition s_asrsp (v : asrsp) : list Z := s_rsphdr (ar_hdr v) ++ s_str (ar_nonce v) ++ s_arr s_4 (ar_res v) ++ s_arr s_diag (ar_diag v).
Definition wf_asrsp (v : asrsp) : Prop := wf_rsphdr (ar_hdr v) /\ wf_str (ar_nonce v) /\ wf_arr is_u32 (ar_res v) /\ wf_arr wf_diag (ar_diag v).
Definition s_rvid (v : rvid) : list Z := s_nodeid (rv_id v) ++ s_4 (rv_attr v) ++ s_str (rv_range v) ++ s_qname (rv_enc v).
Definition wf_rvid (v : rvid) : Prop := wf_nodeid (rv_id v) /\ is_u32 (rv_attr v) /\ wf_str (rv_range v) /\ wf_qname (rv_enc v).
Definition s_rdreq (v : rdreq) : list Z := s_reqhdr (rr_hdr v) ++ s_8 (rr_age v) ++ s_4 (rr_ts v) ++ s_arr s_rvid (rr_nodes v).
Definition wf_rdreq (v : rdreq) : Prop := wf_reqhdr (rr_hdr v) /\ is_u64 (rr_age v) /\ is_i32 (rr_ts v) /\ wf_arr wf_rvid (rr_nodes v).
Definition s_rdrsp (v : rdrsp) : list Z := s_rsphdr (rs_hdr v) ++ s_arr s_dvalue (rs_res v) ++ s_arr s_diag (rs_diag v).
Definition wf_rdrsp (v : rdrsp) : Prop := wf_rsphdr (rs_hdr v) /\ wf_arr wf_dvalue (rs_res v) /\ wf_arr wf_diag (rs_diag v).
Definition s_cont {A} (f : A -> list Z) (v : cont A) : list Z := s_xnodeid (co_id v) ++ f (co_msg v).
Definition wf_cont {A} (P : A -> Prop) (v : cont A) : Prop := wf_plain (co_id v) /\ P (co_msg v).

(** ** What a buffer holds *)
Definition sdu_ok (b : sdu) : Prop :=
  length (k_pkt b) = Z.to_nat 4096 /\ bytes_ok (k_pkt b) /\ (k_tail b <= k_head b <= length (k_pkt b))%nat.
(** The octets from position [i] on are [l]. *)
Definition holds (b : sdu) (i : nat) (l : list Z) : Prop := firstn (length l) (skipn i (k_pkt b)) = l.
(** [b'] is [b] with [l] appended at the write cursor, and nothing else changed. *)
Definition appended (b b' : sdu) (l : list Z) : Prop :=
  k_tail b' = k_tail b /\ k_head b' = (k_head b + length l)%nat /\
  k_pkt b' = firstn (k_head b) (k_pkt b) ++ l ++ skipn (k_head b + length l) (k_pkt b).
(** Encoding [e] appends exactly [l] if there is room, and runs over the end otherwise. *)
Definition writes (e : sdu -> option sdu) (l : list Z) : Prop :=
  forall b, sdu_ok b ->
    if (k_head b + length l <=? length (k_pkt b))%nat then exists b', e b = Some b' /\ appended b b' l else e b = None.
(** Decoding [d] turns the octets [l] at the read cursor into [x] and consumes just these. *)
Definition reads {A} (d : rd A) (l : list Z) (x : A) : Prop :=
  forall b, holds b (k_tail b) l -> d b = DOk x (mkSdu (k_tail b + length l) (k_head b) (k_pkt b)).
(** Whatever [e] has written at the write cursor of a buffer, [d] started there returns [x] and stops where the writing
    stopped; the read cursor and the octets before the write cursor are not touched. *)
Definition roundtrips {A} (e : sdu -> option sdu) (d : rd A) (x : A) : Prop :=
  forall b, sdu_ok b -> forall b', e b = Some b' ->
    d (mkSdu (k_head b) (k_head b') (k_pkt b')) = DOk x (mkSdu (k_head b') (k_head b') (k_pkt b')) /\
    k_tail b' = k_tail b /\ firstn (k_head b) (k_pkt b') = firstn (k_head b) (k_pkt b).
(** Encoding succeeds exactly if [n] octets are free. *)
Definition needs (e : sdu -> option sdu) (n : nat) : Prop :=
  forall b, sdu_ok b -> (e b <> None <-> (k_head b + n <= length (k_pkt b))%nat).
(** A successful decoding changes nothing but the read cursor; if the cursor stays inside the received octets, the result is a
    function of these: any other content of the rest of the array gives the same. *)
Definition inside {A} (d : rd A) : Prop :=
  forall b x b', d b = DOk x b' ->
    (k_tail b <= k_tail b')%nat /\ k_head b' = k_head b /\ k_pkt b' = k_pkt b /\
    ((k_tail b' <= k_head b)%nat -> forall b2, k_tail b2 = k_tail b -> k_head b2 = k_head b ->
       firstn (k_head b) (k_pkt b2) = firstn (k_head b) (k_pkt b) ->
       d b2 = DOk x (mkSdu (k_tail b') (k_head b) (k_pkt b2))).
