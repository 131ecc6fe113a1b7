(** Session-level facts about the service layer. *)
From Verif Require Import Base QueueModel QueueSpec QueueProofs PoolModel PoolSpec PoolProofs EntProofs ModbusCodecModel ModbusCodecSpec ModbusCodecProofs
  ModbusClientModel ModbusClientProofs
  UaCodecModel UaCodecSpec UaCodecProofs UaCodecLocal UaTcpModel UaTcpSpec UaTcpProofs UaTcpRuns UaChanModel UaChanSpec UaChanProofs UaChanRuns
  UaServiceModel UaServiceSpec.
Local Open Scope Z_scope.

(** * Responses *)
Lemma esend_eq h e l : Wr e l -> Z.of_nat (length l) <= 4064 -> esend h e = Some (SSend (reply h l)).
Proof.
  intros He Hl. unfold esend, maxPacketLen, emsgRoom.
  assert (Hz : Z.of_nat (length (repeat 0 (Z.to_nat 4096))) = 4096) by (rewrite repeat_length; lia).
  set (z := repeat 0 (Z.to_nat 4096)) in *. clearbody z.
  rewrite He by (unfold hok; cbn [k_head k_pkt]; lia).
  assert (F : fits (mkSdu 0 0 z) l = true) by (unfold fits; cbn [k_head k_pkt]; apply Nat.leb_le; lia).
  rewrite F. unfold put. cbn [k_head k_pkt k_tail firstn app]. rewrite Nat.add_0_l.
  destruct (Z.ltb_spec 4064 (Z.of_nat (length l))); [lia|]. unfold reply.
  rewrite firstn_app, Nat.sub_diag, firstn_O, app_nil_r, firstn_all. reflexivity.
Qed.

Lemma W_str_of s n : bytes_ok s -> length s = S n -> Z.of_nat (S n) < 2147483648 -> Wr (enc_string s) (le_bytes 4 (Z.of_nat (S n)) ++ s).
Proof.
  intros Hb Hl Hs. assert (X : wf_str s) by (split; [auto|rewrite Hl; auto]). pose proof (W_str s X) as W.
  unfold s_str in W. destruct s as [|a s]; [discriminate|]. rewrite Hl in W. exact W.
Qed.
Lemma W_str_nil : Wr (enc_string []) (le_bytes 4 (-1)).
Proof. apply (W_str []). split; [constructor|cbn; lia]. Qed.
Lemma W_arr0 {A} (e : A -> wr) : Wr (enc_arr e []) (le_bytes 4 0).
Proof.
  unfold enc_arr. cbn [length Z.of_nat enc_each]. rewrite <- (app_nil_r (le_bytes 4 0)). apply Wr_seq; [apply W_32|apply Wr_nop].
Qed.
Lemma bytes_dec l : forallb (fun z => (0 <=? z) && (z <? 256)) l = true -> bytes_ok l.
Proof.
  intros H. apply Forall_forall. intros x Hx. rewrite forallb_forall in H. specialize (H x Hx). apply andb_prop in H as [A B].
  apply Z.leb_le in A. apply Z.ltb_lt in B. split; assumption.
Qed.
Lemma W_endpoint : Wr (enc_epdesc ourEndpoint) endpoint.
Proof.
  unfold enc_epdesc, ourEndpoint, endpoint. cbn [ed_url ed_srv ed_cert ed_mode ed_pol ed_toks ed_trans ed_level].
  apply Wr_seq; [apply (W_str_of endpointUrl 23); [apply bytes_dec; reflexivity|reflexivity|lia]|]. apply Wr_seq.
  - unfold enc_appdesc. cbn [ad_uri ad_prod ad_name ad_type ad_gw ad_prof ad_urls].
    apply Wr_seq; [apply (W_str_of applicationUri 54); [apply bytes_dec; reflexivity|reflexivity|lia]|].
    apply Wr_seq; [apply (W_str_of productUri 9); [apply bytes_dec; reflexivity|reflexivity|lia]|].
    apply Wr_seq; [apply (W_ltext ltext0); split; cbn; auto|]. apply Wr_seq; [apply W_32|].
    apply Wr_seq; [apply W_str_nil|]. apply Wr_seq; [apply W_str_nil|apply W_arr0].
  - apply Wr_seq; [apply W_empty_bstr|]. apply Wr_seq; [apply W_32|].
    apply Wr_seq; [apply (W_str_of policyNone 46); [apply bytes_dec; reflexivity|reflexivity|lia]|].
    apply Wr_seq; [apply W_arr0|]. apply Wr_seq; [apply W_str_nil|]. apply (W_byte 0).
Qed.
Lemma W_arr1 {A} (e : A -> wr) x l : Wr (e x) l -> Wr (enc_arr e [x]) (le_bytes 4 1 ++ l).
Proof.
  intros H. unfold enc_arr. cbn [length Z.of_nat Pos.of_succ_nat enc_each]. apply Wr_seq; [apply W_32|].
  rewrite <- (app_nil_r l). apply Wr_seq; [exact H|apply Wr_nop].
Qed.
Lemma W_sid sid : 1 <= sid <= 32 -> Wr (enc_nodeid (mkNid 0 (IdNum sid))) [0; sid].
Proof.
  intros H. pose proof (W_nodeid (mkNid 0 (IdNum sid))) as W. unfold s_nodeid in W. cbn [n_val n_ns] in W.
  destruct (Z.ltb_spec sid 256); [|lia]. apply W. split; cbn; unfold is_u16, is_u32; lia.
Qed.

Definition eprsp_of (now handle : Z) : wr := enc_cont enc_eprsp (cont_new 431 (mkEr (rsphdr_of now handle) [ourEndpoint])).
Definition csrsp_of (sid now handle tmo max : Z) : wr :=
  enc_cont enc_csrsp (cont_new 464 (mkCsr (rsphdr_of now handle) (mkNid 0 (IdNum sid)) (mkNid 0 (IdNum sid)) tmo [] [] [ourEndpoint] [] sigdata0 max)).
Definition asrsp_of (now handle : Z) : wr := enc_cont enc_asrsp (cont_new 470 (mkAsr (rsphdr_of now handle) [] [] [])).
Definition clsrsp_of (now handle : Z) : wr := enc_cont enc_clsrsp (cont_new 476 (mkClr (rsphdr_of now handle))).
Definition rdrsp_of (now handle : Z) : wr := enc_cont enc_rdrsp (cont_new 634 (mkRs (rsphdr_of now handle) [] [])).

Lemma W_ep now handle : Wr (eprsp_of now handle) (endpoints_rsp now handle).
Proof.
  unfold eprsp_of, endpoints_rsp, enc_cont, cont_new. cbn [co_id co_msg]. apply Wr_seq; [apply (W_type 431); lia|].
  unfold enc_eprsp. cbn [ep_hdr ep_list]. apply Wr_seq; [apply W_rsphead|]. apply W_arr1, W_endpoint.
Qed.
Lemma W_cs sid now handle tmo max : 1 <= sid <= 32 -> Wr (csrsp_of sid now handle tmo max) (create_rsp sid now handle tmo max).
Proof.
  intros Hs. unfold csrsp_of, create_rsp, enc_cont, cont_new. cbn [co_id co_msg]. apply Wr_seq; [apply (W_type 464); lia|].
  unfold enc_csrsp. cbn [ch_hdr ch_sid ch_tok ch_tmo ch_nonce ch_cert ch_eps ch_soft ch_sig ch_max]. apply Wr_seq; [apply W_rsphead|].
  apply Wr_seq; [now apply W_sid|]. apply Wr_seq; [now apply W_sid|]. apply Wr_seq; [apply W_64|]. apply Wr_seq; [apply W_empty_bstr|].
  apply Wr_seq; [apply W_empty_bstr|]. apply Wr_seq; [apply W_arr1, W_endpoint|]. apply Wr_seq; [apply W_arr0|].
  apply Wr_seq; [|apply W_32]. unfold enc_sigdata. cbn [sigdata0 sg_alg sg_sig]. apply Wr_seq; [apply W_str_nil|apply W_empty_bstr].
Qed.
Lemma W_as now handle : Wr (asrsp_of now handle) (activate_rsp now handle).
Proof.
  unfold asrsp_of, activate_rsp, enc_cont, cont_new. cbn [co_id co_msg]. apply Wr_seq; [apply (W_type 470); lia|].
  unfold enc_asrsp. cbn [ar_hdr ar_nonce ar_res ar_diag]. apply Wr_seq; [apply W_rsphead|]. apply Wr_seq; [apply W_empty_bstr|].
  apply Wr_seq; apply W_arr0.
Qed.
Lemma W_cls now handle : Wr (clsrsp_of now handle) (close_session_rsp now handle).
Proof.
  unfold clsrsp_of, close_session_rsp, enc_cont, cont_new. cbn [co_id co_msg]. apply Wr_seq; [apply (W_type 476); lia|apply W_rsphead].
Qed.
Lemma W_rd now handle : Wr (rdrsp_of now handle) (read_rsp now handle).
Proof.
  unfold rdrsp_of, read_rsp, enc_cont, cont_new. cbn [co_id co_msg]. apply Wr_seq; [apply (W_type 634); lia|].
  unfold enc_rdrsp. cbn [rs_hdr rs_res rs_diag]. apply Wr_seq; [apply W_rsphead|]. apply Wr_seq; apply W_arr0.
Qed.

Lemma endpoints_len now handle : length (endpoints_rsp now handle) = 218%nat.
Proof. unfold endpoints_rsp, endpoint, rsp_head. rewrite !app_length, !le_bytes_length. reflexivity. Qed.
Lemma create_len sid now handle tmo max : length (create_rsp sid now handle tmo max) = 254%nat.
Proof. unfold create_rsp, endpoint, rsp_head. rewrite !app_length, !le_bytes_length. reflexivity. Qed.
Lemma activate_len now handle : length (activate_rsp now handle) = 40%nat.
Proof. unfold activate_rsp, rsp_head. rewrite !app_length, !le_bytes_length. reflexivity. Qed.
Lemma close_s_len now handle : length (close_session_rsp now handle) = 28%nat.
Proof. unfold close_session_rsp, rsp_head. rewrite !app_length, !le_bytes_length. reflexivity. Qed.
Lemma read_len now handle : length (read_rsp now handle) = 36%nat.
Proof. unfold read_rsp, rsp_head. rewrite !app_length, !le_bytes_length. reflexivity. Qed.

Lemma send_ep h now handle : esend h (eprsp_of now handle) = Some (SSend (reply h (endpoints_rsp now handle))).
Proof. apply esend_eq; [apply W_ep|]. rewrite endpoints_len. lia. Qed.
Lemma send_cs h sid now handle tmo max : 1 <= sid <= 32 ->
  esend h (csrsp_of sid now handle tmo max) = Some (SSend (reply h (create_rsp sid now handle tmo max))).
Proof. intros. apply esend_eq; [now apply W_cs|]. rewrite create_len. lia. Qed.
Lemma send_as h now handle : esend h (asrsp_of now handle) = Some (SSend (reply h (activate_rsp now handle))).
Proof. apply esend_eq; [apply W_as|]. rewrite activate_len. lia. Qed.
Lemma send_cls h now handle : esend h (clsrsp_of now handle) = Some (SSend (reply h (close_session_rsp now handle))).
Proof. apply esend_eq; [apply W_cls|]. rewrite close_s_len. lia. Qed.
Lemma send_rd h now handle : esend h (rdrsp_of now handle) = Some (SSend (reply h (read_rsp now handle))).
Proof. apply esend_eq; [apply W_rd|]. rewrite read_len. lia. Qed.

(** * Dispatch *)
Definition handle_q (v : svc) (h : ehdr) (q : request) (now : Z) : option (svc * list sout) :=
  match q with
  | QEnd r => match esend h (eprsp_of now (rq_handle (eq_hdr r))) with Some o => Some (v, [o]) | None => None end
  | QCre r =>
      match pool_alloc (v_pool v) with
      | None => None
      | Some (p, None) => Some (mkSv p (v_ss v), [])
      | Some (p, Some sid) => svc_on (mkSv p (v_ss v)) sid (fun s => s_create sid s h r now)
      end
  | QAct r => on_token v (rq_token (as_hdr r)) (fun sid s => s_activate sid s h r now)
  | QClo r => on_token v (rq_token (cl_hdr r)) (fun sid s => s_close sid s h r now)
  | QRead r => if e_sess h =? invalidSuid then Some (v, []) else svc_on v (e_sess h) (fun s => s_read s h r now)
  end.

Lemma eoctets_len m j : emsg_ok m -> umem_ok j -> length (eoctets m j) = pktLen.
Proof.
  intros (_ & Hl & _ & Hd) [Hj _]. pose proof pktLen_Z. unfold eoctets. rewrite app_length, firstn_length, skipn_length. lia.
Qed.
Lemma eoctets_ok m j : emsg_ok m -> umem_ok j -> bytes_ok (eoctets m j).
Proof. intros (_ & Hl & Hb & Hd) [_ Hj]. unfold eoctets. apply Forall_app. split; [now apply bytes_firstn|now apply bytes_skipn]. Qed.
Lemma erx_load m j : emsg_ok m -> umem_ok j -> rx_load (em_len m) (em_data m) j = Some (mkSdu 0 (Z.to_nat (em_len m)) (eoctets m j)).
Proof.
  intros (_ & Hl & Hb & Hd) [Hj _]. pose proof pktLen_Z. unfold rx_load.
  destruct (Z.leb_spec 0 (em_len m)), (Z.leb_spec (em_len m) (Z.of_nat (length (em_data m)))), (Z.leb_spec (em_len m) (Z.of_nat (length j))); try lia.
  reflexivity.
Qed.

Lemma ind_eq v m j now : emsg_ok m -> umem_ok j ->
  svc_ind v m j now = match parse m j with
                      | PReq q => handle_q v (em_hdr m) q now
                      | POther => Some (v, [])
                      | PThrow => Some (v, [SThrow])
                      | PBad => None
                      end.
Proof.
  intros Hm Hj. unfold svc_ind, parse. rewrite erx_load by auto.
  destruct (dec_xnodeid xnodeid0 _) as [x b| | |]; try reflexivity. destruct (n_val (xn_id x)) as [id| | |]; try reflexivity.
  unfold svc_dispatch, handle_q, eprsp_of, u16.
  destruct (id mod 65536 =? 428); [destruct (dec_epreq epreq0 b); cbn [with_req got]; reflexivity|].
  destruct (id mod 65536 =? 461); [destruct (dec_csreq csreq0 b); cbn [with_req got]; reflexivity|].
  destruct (id mod 65536 =? 467); [destruct (dec_asreq asreq0 b); cbn [with_req got]; reflexivity|].
  destruct (id mod 65536 =? 473); [destruct (dec_clsreq clsreq0 b); cbn [with_req got]; reflexivity|].
  destruct (id mod 65536 =? 631); [destruct (dec_rdreq rdreq0 b); cbn [with_req got]; reflexivity|]. reflexivity.
Qed.

(** * Bounds on decoded values *)
Lemma bind_ok {A B} (m : rd A) (k : A -> rd B) b x b' : bind m k b = DOk x b' -> exists a b1, m b = DOk a b1 /\ k a b1 = DOk x b'.
Proof. unfold bind. destruct (m b) as [a b1| | |]; try discriminate. eauto. Qed.
Lemma ret_ok {A} (a x : A) b b' : ret a b = DOk x b' -> x = a /\ b' = b.
Proof. unfold ret. intros H. injection H as -> ->. auto. Qed.
Lemma u32_range z : is_u32 (u32 z).
Proof. unfold is_u32, u32. apply Z.mod_pos_bound. lia. Qed.
Lemma rd32_u32 b v b' : rd32 b = DOk v b' -> is_u32 v.
Proof.
  unfold rd32. intros H. do 4 (apply bind_ok in H as (? & ? & _ & H)). apply ret_ok in H as [-> _]. apply u32_range.
Qed.
Lemma nodeid_u32 old b n b' : bytes_ok (k_pkt b) -> dec_nodeid old b = DOk n b' -> match n_val n with IdNum i => is_u32 i | _ => True end.
Proof.
  intros Hb H. unfold dec_nodeid in H. apply bind_ok in H as (e & b1 & E1 & H).
  apply read_some in E1 as [_ E1].
  assert (Hb1 : bytes_ok (k_pkt b1)) by (subst b1; exact Hb). clear E1 Hb b.
  set (z := Z.land e 15) in H. clearbody z.
  destruct z as [|z|z]; [|do 3 (try destruct z as [z|z|])|]; try discriminate H.
  all: repeat (apply bind_ok in H as (? & ? & ? & H)); apply ret_ok in H as [-> _]; cbn [n_val]; auto.
  all: try (match goal with X : dec_u32 _ = DOk ?v _ |- is_u32 ?v => eapply rd32_u32; exact X end).
  all: match goal with
       | X : dec_byte _ = DOk ?v _ |- is_u32 ?v => apply read_some in X as [X _]; apply nth_error_In in X;
           unfold bytes_ok in Hb1; rewrite Forall_forall in Hb1; specialize (Hb1 _ X); unfold is_byte, is_u32 in *; lia
       | X : dec_u16 _ = DOk ?v _ |- is_u32 ?v => unfold dec_u16 in X; do 2 (apply bind_ok in X as (? & ? & _ & X)); apply ret_ok in X as [-> _];
           match goal with |- is_u32 (u16 ?y) => pose proof (Z.mod_pos_bound y 65536); unfold is_u32, u16; lia end
       end.
Qed.

Definition hdr_ok (h : reqhdr) : Prop := is_u32 (rq_handle h) /\ match n_val (rq_token h) with IdNum i => is_u32 i | _ => True end.
Lemma reqhdr_any old b h b' : bytes_ok (k_pkt b) -> dec_reqhdr old b = DOk h b' -> hdr_ok h.
Proof.
  intros Hb H. unfold dec_reqhdr in H. apply bind_ok in H as (t & b1 & E1 & H). apply bind_ok in H as (? & ? & _ & H).
  apply bind_ok in H as (c & ? & E2 & H). do 4 (apply bind_ok in H as (? & ? & _ & H)). apply ret_ok in H as [-> _].
  split; cbn [rq_handle rq_token]; [eapply rd32_u32; exact E2|eapply nodeid_u32; eauto].
Qed.
Lemma parse_hdr m j q : emsg_ok m -> umem_ok j -> parse m j = PReq q -> hdr_ok (q_hdr q).
Proof.
  intros Hm Hj H. unfold parse in H. destruct (dec_xnodeid xnodeid0 _) as [x b| | |] eqn:Ex; try discriminate.
  assert (Hb : bytes_ok (k_pkt b)).
  { apply Adv_xnodeid in Ex as (E1 & E2 & E3). cbn [k_pkt] in *. replace (k_pkt b) with (eoctets m j) by congruence. now apply eoctets_ok. }
  clear Ex. destruct (n_val (xn_id x)) as [id| | |]; try discriminate.
  destruct (id mod 65536 =? 428); [|destruct (id mod 65536 =? 461); [|destruct (id mod 65536 =? 467); [|destruct (id mod 65536 =? 473); [|destruct (id mod 65536 =? 631); [|discriminate]]]]].
  - destruct (dec_epreq epreq0 b) as [r b'| | |] eqn:E; try discriminate. injection H as <-. cbn [q_hdr].
    unfold dec_epreq in E. apply bind_ok in E as (h & b1 & E1 & E). do 3 (apply bind_ok in E as (? & ? & _ & E)). apply ret_ok in E as [-> _].
    eapply reqhdr_any; eauto.
  - destruct (dec_csreq csreq0 b) as [r b'| | |] eqn:E; try discriminate. injection H as <-. cbn [q_hdr].
    unfold dec_csreq in E. apply bind_ok in E as (h & b1 & E1 & E). do 8 (apply bind_ok in E as (? & ? & _ & E)). apply ret_ok in E as [-> _].
    eapply reqhdr_any; eauto.
  - destruct (dec_asreq asreq0 b) as [r b'| | |] eqn:E; try discriminate. injection H as <-. cbn [q_hdr].
    unfold dec_asreq in E. apply bind_ok in E as (h & b1 & E1 & E). do 5 (apply bind_ok in E as (? & ? & _ & E)). apply ret_ok in E as [-> _].
    eapply reqhdr_any; eauto.
  - destruct (dec_clsreq clsreq0 b) as [r b'| | |] eqn:E; try discriminate. injection H as <-. cbn [q_hdr].
    unfold dec_clsreq in E. apply bind_ok in E as (h & b1 & E1 & E). do 1 (apply bind_ok in E as (? & ? & _ & E)). apply ret_ok in E as [-> _].
    eapply reqhdr_any; eauto.
  - destruct (dec_rdreq rdreq0 b) as [r b'| | |] eqn:E; try discriminate. injection H as <-. cbn [q_hdr].
    unfold dec_rdreq in E. apply bind_ok in E as (h & b1 & E1 & E). do 3 (apply bind_ok in E as (? & ? & _ & E)). apply ret_ok in E as [-> _].
    eapply reqhdr_any; eauto.
Qed.

(** * Fields of responses *)
Lemma head_at (ty : list Z) now handle r : length ty = 4%nat -> is_u32 handle -> le_at 12 (ty ++ rsp_head now handle ++ r) = handle.
Proof.
  intros Ht Hh. unfold rsp_head. rewrite <- !app_assoc. rewrite (app_assoc ty). apply le_at_app; auto.
  rewrite app_length, le_bytes_length. lia.
Qed.
Lemma create_sid h sid now handle tmo max : rsession (reply h (create_rsp sid now handle tmo max)) = sid.
Proof.
  unfold rsession, reply, create_rsp. cbn [em_data]. rewrite app_nth2 by (cbn; lia). cbn [length].
  assert (L : length (rsp_head now handle) = 24%nat) by reflexivity.
  rewrite app_nth2 by lia. rewrite L. reflexivity.
Qed.
