(** Channel-level facts about the secure channel layer. *)
From Verif Require Import Base QueueModel PoolModel ModbusCodecModel ModbusCodecSpec ModbusCodecProofs ModbusClientModel ModbusClientProofs
  UaCodecModel UaCodecSpec UaCodecProofs UaCodecLocal UaTcpModel UaTcpSpec UaTcpProofs UaChanModel UaChanSpec.
Local Open Scope Z_scope.

Ltac hcbn := cbn [h_est h_tx h_rx h_tok h_conn h_sess].
Ltac hcbn_in H := cbn [h_est h_tx h_rx h_tok h_conn h_sess] in H.

(** * Octets *)
Lemma bytes_firstn n l : bytes_ok l -> bytes_ok (firstn n l).
Proof. unfold bytes_ok. rewrite !Forall_forall. intros H x Hx. apply H. rewrite <- (firstn_skipn n l). apply in_or_app. auto. Qed.
Lemma bytes_skipn n l : bytes_ok l -> bytes_ok (skipn n l).
Proof. unfold bytes_ok. rewrite !Forall_forall. intros H x Hx. apply H. rewrite <- (firstn_skipn n l). apply in_or_app. auto. Qed.
Lemma le_at_bound i p : bytes_ok p -> is_u32 (le_at i p).
Proof.
  intros Hp. unfold le_at. pose proof (le_val_bound _ (bytes_firstn 4 _ (bytes_skipn i _ Hp))) as H.
  assert (256 ^ Z.of_nat (length (firstn 4 (skipn i p))) <= 256 ^ 4).
  { apply Z.pow_le_mono_r; [lia|]. pose proof (firstn_le_length 4 (skipn i p)). lia. }
  change (256 ^ 4) with 4294967296 in *. unfold is_u32. lia.
Qed.
Lemma le_at_skip i k p : le_at i (skipn k p) = le_at (k + i) p.
Proof. unfold le_at. now rewrite skipn_skipn'. Qed.

Lemma rd32_at t h p : bytes_ok p -> (t + 4 <= length p)%nat -> rd32 (mkSdu t h p) = DOk (le_at t p) (mkSdu (t + 4) h p).
Proof.
  intros Hp Hl. pose proof (bytes_firstn 4 _ (bytes_skipn t _ Hp)) as Hb.
  assert (L : length (firstn 4 (skipn t p)) = 4%nat) by (rewrite firstn_length, skipn_length; lia).
  pose proof (R_rd32 (le_at t p)) as R. unfold s_4 in R. unfold le_at in R at 1.
  pose proof (le_bytes_val _ Hb) as E. rewrite L in E. rewrite E in R.
  specialize (R (mkSdu t h p)). cbn [k_tail k_head k_pkt] in R. rewrite L in R. rewrite R.
  - f_equal. unfold u32. apply Z.mod_small. now apply le_at_bound.
  - apply holds_iff. exists (skipn 4 (skipn t p)). cbn [k_pkt]. symmetry. apply firstn_skipn.
Qed.

Lemma rd32_any t h p v b' : bytes_ok p -> rd32 (mkSdu t h p) = DOk v b' -> (t + 4 <= length p)%nat /\ v = le_at t p /\ b' = mkSdu (t + 4) h p.
Proof.
  intros Hp E. assert (L : (t + 4 <= length p)%nat).
  { destruct (le_lt_dec (t + 4) (length p)); [auto|exfalso]. unfold rd32, bind, read, ret in E. cbn [k_tail k_head k_pkt] in E.
    destruct (nth_error p t); [|discriminate]. cbn [k_tail k_head k_pkt] in E.
    destruct (nth_error p (S t)); [|discriminate]. cbn [k_tail k_head k_pkt] in E.
    destruct (nth_error p (S (S t))); [|discriminate]. cbn [k_tail k_head k_pkt] in E.
    destruct (nth_error p (S (S (S t)))) eqn:N; [|discriminate]. assert (nth_error p (S (S (S t))) <> None) by congruence.
    apply nth_error_Some in H. lia. }
  rewrite rd32_at in E by auto. injection E as <- <-. auto.
Qed.

Lemma rdn_any n : forall t h p s b', rdn n (mkSdu t h p) = DOk s b' -> b' = mkSdu (t + n) h p.
Proof.
  induction n as [|n IH]; intros t h p s b' E; cbn [rdn] in E.
  - unfold ret in E. injection E as <- <-. now rewrite Nat.add_0_r.
  - unfold bind in E. destruct (read (mkSdu t h p)) as [v b1| | |] eqn:Er; try discriminate.
    apply read_some in Er as [_ ->]. cbn [k_tail k_head k_pkt] in E.
    destruct (rdn n (mkSdu (S t) h p)) as [r b2| | |] eqn:E2; try discriminate. apply IH in E2 as ->.
    unfold ret in E. injection E as <- <-. f_equal. lia.
Qed.

Lemma bstr_any old t h p s b' : bytes_ok p -> dec_bstring old (mkSdu t h p) = DOk s b' ->
  exists t', b' = mkSdu t' h p /\ skipn t' p = skip_strs 1 (skipn t p).
Proof.
  intros Hp E. unfold dec_bstring, dec_i32 in E. unfold bind at 1 2 in E.
  destruct (rd32 (mkSdu t h p)) as [v b1| | |] eqn:E1; try discriminate. apply rd32_any in E1 as (L & -> & ->); [|auto].
  unfold ret at 1 in E. pose proof (le_at_bound t p Hp) as B. unfold is_u32 in B. cbn [skip_strs].
  change (le_val (firstn 4 (skipn t p))) with (le_at t p).
  unfold s32, u32 in E. rewrite !Z.mod_small in E by lia.
  destruct (Z.ltb_spec (le_at t p) 2147483648).
  - destruct (Z.eqb_spec (le_at t p) (-1)); [lia|]. destruct (Z.ltb_spec (le_at t p) 0); [lia|].
    apply rdn_any in E as ->. exists (t + 4 + Z.to_nat (le_at t p))%nat. split; [reflexivity|]. rewrite skipn_skipn'. f_equal; lia.
  - destruct (Z.eqb_spec (le_at t p - 4294967296) (-1)).
    + unfold ret in E. injection E as <- <-. exists (t + 4)%nat. split; [reflexivity|]. now rewrite skipn_skipn'.
    + destruct (Z.ltb_spec (le_at t p - 4294967296) 0); [discriminate|lia].
Qed.

Lemma sechdr_any old t h p s b' : bytes_ok p -> dec_sechdr old (mkSdu t h p) = DOk s b' ->
  exists t', b' = mkSdu t' h p /\ skipn t' p = skip_strs 3 (skipn t p).
Proof.
  intros Hp E. unfold dec_sechdr, bind in E.
  destruct (dec_bstring (sh_policy old) (mkSdu t h p)) as [a b1| | |] eqn:E1; try discriminate.
  apply bstr_any in E1 as (t1 & -> & S1); [|auto].
  destruct (dec_bstring (sh_cert old) (mkSdu t1 h p)) as [c b2| | |] eqn:E2; try discriminate.
  apply bstr_any in E2 as (t2 & -> & S2); [|auto].
  destruct (dec_bstring (sh_thumb old) (mkSdu t2 h p)) as [d b3| | |] eqn:E3; try discriminate.
  apply bstr_any in E3 as (t3 & -> & S3); [|auto].
  unfold ret in E. injection E as <- <-. exists t3. split; [reflexivity|]. rewrite S3, S2, S1. reflexivity.
Qed.

Lemma seqhdr_any t h p q b' : bytes_ok p -> dec_seqhdr (mkSdu t h p) = DOk q b' ->
  q = mkSq (le_at t p) (le_at (t + 4) p) /\ b' = mkSdu (t + 8) h p.
Proof.
  intros Hp E. unfold dec_seqhdr, dec_u32, bind in E.
  destruct (rd32 (mkSdu t h p)) as [a b1| | |] eqn:E1; try discriminate. apply rd32_any in E1 as (_ & -> & ->); [|auto].
  destruct (rd32 (mkSdu (t + 4) h p)) as [a b1| | |] eqn:E1; try discriminate. apply rd32_any in E1 as (_ & -> & ->); [|auto].
  unfold ret in E. injection E as <- <-. split; [reflexivity|]. f_equal. lia.
Qed.

Lemma open_msg_any h p q r b' : bytes_ok p -> dec_open_msg (mkSdu 0 h p) = DOk (q, r) b' -> q = mkSq (open_seq p) (open_req p).
Proof.
  intros Hp E. unfold dec_open_msg, bind in E.
  destruct (dec_sechdr sechdr0 (mkSdu 0 h p)) as [s b1| | |] eqn:E1; try discriminate. apply sechdr_any in E1 as (t1 & -> & S1); [|auto].
  destruct (dec_seqhdr (mkSdu t1 h p)) as [q' b2| | |] eqn:E2; try discriminate. apply seqhdr_any in E2 as (-> & ->); [|auto].
  destruct (dec_cont dec_openreq (cont_new 446 openreq0) (mkSdu (t1 + 8) h p)) as [x b3| | |]; try discriminate.
  unfold ret in E. injection E as <- _ _. rewrite skipn_O in S1. unfold open_seq, open_req. rewrite <- S1.
  rewrite !le_at_skip. now rewrite Nat.add_0_r.
Qed.

(** * Messages *)
Lemma octets_len m j : umsg_ok m -> umem_ok j -> length (octets m j) = pktLen.
Proof.
  intros (_ & _ & _ & Hl & _ & Hd) [Hj _]. pose proof pktLen_Z. unfold octets. rewrite app_length, firstn_length, skipn_length. lia.
Qed.
Lemma octets_ok m j : umsg_ok m -> umem_ok j -> bytes_ok (octets m j).
Proof.
  intros (_ & _ & _ & Hl & Hb & Hd) [_ Hj]. unfold octets. apply Forall_app. split; [now apply bytes_firstn|now apply bytes_skipn].
Qed.
Lemma rx_load_eq m j : umsg_ok m -> umem_ok j -> rx_load (um_len m) (um_data m) j = Some (mkSdu 0 (Z.to_nat (um_len m)) (octets m j)).
Proof.
  intros (_ & _ & _ & Hl & Hb & Hd) [Hj _]. unfold rx_load.
  destruct (Z.leb_spec 0 (um_len m)), (Z.leb_spec (um_len m) (Z.of_nat (length (um_data m)))), (Z.leb_spec (um_len m) (Z.of_nat (length j))); try lia.
  reflexivity.
Qed.

Lemma tx_octets_eq e l data : Wr e l -> tx_octets e data = if Z.of_nat (length l + length data) <=? 4072 then Some (l ++ data) else None.
Proof.
  intros He. unfold tx_octets, maxPacketLen, msgRoom.
  assert (Hz : Z.of_nat (length (repeat 0 (Z.to_nat 4096))) = 4096) by (rewrite repeat_length; lia).
  set (z := repeat 0 (Z.to_nat 4096)) in *. clearbody z.
  rewrite He by (unfold hok; cbn [k_head k_pkt]; lia).
  destruct (fits (mkSdu 0 0 z) l) eqn:F; unfold fits in F; cbn [k_head k_pkt] in F; rewrite Nat.add_0_l in F.
  - apply Nat.leb_le in F. unfold put. cbn [k_head k_pkt k_tail firstn app]. rewrite Nat.add_0_l.
    destruct (Z.leb_spec (Z.of_nat (length l + length data)) 4072), (Z.ltb_spec 4096 (Z.of_nat (length l + length data))),
      (Z.ltb_spec 4072 (Z.of_nat (length l + length data))); cbn [orb]; try lia; try reflexivity.
    rewrite firstn_app, Nat.sub_diag, firstn_O, app_nil_r, firstn_all. reflexivity.
  - apply Nat.leb_gt in F. destruct (Z.leb_spec (Z.of_nat (length l + length data)) 4072); [lia|reflexivity].
Qed.

Lemma W_tok v : Wr (enc_tokhdr (mkTh v)) (le_bytes 4 v).
Proof. apply W_32. Qed.
Lemma W_seq a b : Wr (enc_seqhdr (mkSq a b)) (le_bytes 4 a ++ le_bytes 4 b).
Proof. unfold enc_seqhdr. cbn [sq_num sq_req]. apply Wr_seq; apply W_32. Qed.
Lemma W_empty_bstr : Wr (enc_bstring []) (le_bytes 4 (-1)).
Proof. apply (W_bstr []). split; [constructor|cbn; lia]. Qed.
Lemma W_rsphead t h : Wr (enc_rsphdr (mkRp t h 0 diag0 [] extobj0)) (rsp_head t h).
Proof.
  unfold enc_rsphdr, rsp_head. cbn [rp_time rp_handle rp_result rp_diag rp_strs rp_add].
  apply Wr_seq; [apply W_64|]. apply Wr_seq; [apply W_32|]. apply Wr_seq; [apply W_32|].
  apply Wr_seq; [apply (W_diag diag0); cbn; auto 10|]. apply Wr_seq.
  - apply (W_arr _ s_str wf_str []); [apply W_str|]. split; [constructor|cbn; lia].
  - apply (W_extobj extobj0). repeat split; cbn; lia.
Qed.
Lemma W_type id : 256 <= id < 65536 -> Wr (enc_xnodeid (mkXn (mkNid 0 (IdNum id)) None None)) ([1; 0] ++ le_bytes 2 id).
Proof.
  intros H. pose proof (W_plain (mkXn (mkNid 0 (IdNum id)) None None)) as W.
  rewrite s_plain in W by (repeat split; cbn; unfold is_u16, is_u32; lia). unfold s_nodeid in W. cbn [xn_id n_val n_ns] in W.
  destruct (Z.ltb_spec id 256); [lia|]. destruct (Z.ltb_spec id 65536); [|lia]. apply W. repeat split; cbn; unfold is_u16, is_u32; lia.
Qed.

Lemma W_open uid seq req handle token t1 t2 life :
  Wr (open_rsp_octets uid seq req handle token t1 t2 life) (open_rsp uid seq req handle token t1 t2 life).
Proof.
  unfold open_rsp_octets, open_rsp. apply Wr_seq.
  - unfold enc_sechdr. cbn [sh_policy sh_cert sh_thumb]. rewrite app_assoc. apply Wr_seq.
    + apply (W_bstr policyNone). split; [|cbn; lia]. unfold policyNone. repeat (apply Forall_cons; [unfold is_byte; lia|]). constructor.
    + apply Wr_seq; apply W_empty_bstr.
  - apply Wr_seq; [apply W_seq|]. unfold enc_cont, cont_new. cbn [co_id co_msg]. apply Wr_seq; [apply (W_type 449); lia|].
    unfold enc_openrsp. cbn [or_hdr or_ver or_tok or_nonce]. apply Wr_seq; [apply W_rsphead|]. apply Wr_seq; [apply W_32|]. apply Wr_seq.
    + unfold enc_chtoken. cbn [ct_chan ct_token ct_at ct_life]. apply Wr_seq; [apply W_32|]. apply Wr_seq; [apply W_32|]. apply Wr_seq; [apply W_64|apply W_32].
    + apply W_empty_bstr.
Qed.
Lemma W_close token seq req handle now : Wr (close_rsp_octets token seq req handle now) (close_rsp token seq req handle now).
Proof.
  unfold close_rsp_octets, close_rsp. apply Wr_seq; [apply W_tok|]. apply Wr_seq; [apply W_seq|].
  unfold enc_cont, cont_new. cbn [co_id co_msg]. apply Wr_seq; [apply (W_type 455); lia|]. apply W_rsphead.
Qed.
Lemma open_len uid seq req handle token t1 t2 life : length (open_rsp uid seq req handle token t1 t2 life) = 123%nat.
Proof. unfold open_rsp, rsp_head. rewrite !app_length, !le_bytes_length. reflexivity. Qed.
Lemma close_len token seq req handle now : length (close_rsp token seq req handle now) = 40%nat.
Proof. unfold close_rsp, rsp_head. rewrite !app_length, !le_bytes_length. reflexivity. Qed.

(** Four octets at a known offset. *)
Lemma le_at_app i a v r : length a = i -> is_u32 v -> le_at i (a ++ le_bytes 4 v ++ r) = v.
Proof.
  intros Ha Hv. unfold le_at. rewrite skipn_app, Ha, skipn_all2, Nat.sub_diag by lia. cbn [app skipn].
  rewrite firstn_app, le_bytes_length, Nat.sub_diag, firstn_O, app_nil_r, firstn_all2 by (rewrite le_bytes_length; lia).
  rewrite le_val_bytes. apply Z.mod_small. unfold is_u32 in Hv. change (256 ^ Z.of_nat 4) with 4294967296. lia.
Qed.
Lemma open_fields uid seq req handle token t1 t2 life : is_u32 seq -> is_u32 token -> is_u32 req ->
  le_at 59 (open_rsp uid seq req handle token t1 t2 life) = seq /\ le_at 103 (open_rsp uid seq req handle token t1 t2 life) = token /\
  le_at 63 (open_rsp uid seq req handle token t1 t2 life) = req.
Proof.
  intros H1 H2 H3. unfold open_rsp. set (hd := le_bytes 4 47 ++ policy ++ le_bytes 4 (-1) ++ le_bytes 4 (-1)).
  assert (L : length hd = 59%nat) by reflexivity. clearbody hd. split; [|split].
  - rewrite <- !app_assoc. now apply le_at_app.
  - rewrite !app_assoc. do 4 rewrite <- app_assoc. rewrite (app_assoc _ (le_bytes 4 uid)).
    match goal with |- le_at _ (?x ++ ?y ++ ?z) = _ => set (pre := x); set (post := z) end.
    apply le_at_app; auto. unfold pre, rsp_head. rewrite !app_length, !le_bytes_length, L. reflexivity.
  - rewrite <- !app_assoc. rewrite (app_assoc hd). apply le_at_app; auto. rewrite app_length, le_bytes_length, L. reflexivity.
Qed.
Lemma le_at_0 v r : is_u32 v -> le_at 0 (le_bytes 4 v ++ r) = v.
Proof. intros H. apply (le_at_app 0 []); auto. Qed.
Lemma msg_fields token seq req body : is_u32 token -> is_u32 seq -> is_u32 req ->
  le_at 0 (msg_rsp token seq req body) = token /\ le_at 4 (msg_rsp token seq req body) = seq /\ le_at 8 (msg_rsp token seq req body) = req /\
  skipn 12 (msg_rsp token seq req body) = body.
Proof.
  intros H1 H2 H3. unfold msg_rsp. split; [now apply le_at_0|]. rewrite <- !app_assoc. split; [now apply le_at_app|]. split.
  - rewrite (app_assoc (le_bytes 4 token)). apply le_at_app; auto.
  - reflexivity.
Qed.

(** The checks of token and sequence number. *)
Definition take (c : chan) (n : Z) : chan := mkCh (h_est c) (h_tx c) n (h_tok c) (h_conn c) (h_sess c).
Lemma check_eq c h p : bytes_ok p -> (12 <= length p)%nat ->
  c_check c (mkSdu 0 h p) =
  Some (if (le_at 0 p =? h_tok c) && (le_at 4 p =? u32 (h_rx c + 1))
        then (take c (le_at 4 p), Some (mkSq (le_at 4 p) (le_at 8 p), mkSdu 12 h p)) else (c, None)).
Proof.
  intros Hp HL. unfold c_check, dec_tokhdr, dec_seqhdr, dec_u32, bind. rewrite rd32_at by (auto; lia). cbn [Nat.add ret]. unfold ret.
  cbn [th_token]. destruct (le_at 0 p =? h_tok c); cbn [negb andb]; [|reflexivity].
  rewrite rd32_at by (auto; lia). cbn [Nat.add]. rewrite rd32_at by (auto; lia). cbn [Nat.add sq_num].
  destruct (le_at 4 p =? u32 (h_rx c + 1)); reflexivity.
Qed.

(** * What the handlers do *)
Definition sound (c : chan) (m : umsg) (j : list Z) : bool :=
  own_conn c (um_conn m) && ((le_at 0 (octets m j) =? h_tok c) && (le_at 4 (octets m j) =? u32 (h_rx c + 1))).
Definition freed (c : chan) : chan := mkCh false 0 (h_rx c) (h_tok c) None None.
Definition ind_of (uid : Z) (sess : option Z) (m : umsg) (j : list Z) : emsg :=
  mkEm (mkEh (um_conn m) uid (le_at 8 (octets m j)) (match sess with Some s => s | None => 2147483647 end))
       (um_len m) (firstn (Z.to_nat (um_len m)) (skipn 12 (octets m j))).

Lemma c_msg_eq uid c m j : umsg_ok m -> umem_ok j -> h_est c = true ->
  c_msg uid c m j =
  if sound c m j then if um_len m <=? 4064 then Some (take c (le_at 4 (octets m j)), [CInd (ind_of uid (h_sess c) m j)]) else None
  else Some (freed c, [CRelReq (um_conn m); CFree uid]).
Proof.
  intros Hm Hj He. pose proof (octets_len m j Hm Hj) as HL. pose proof (octets_ok m j Hm Hj) as HB. pose proof pktLen_Z as HP.
  unfold c_msg. rewrite He. cbn [negb]. unfold c_msg_msg, sound. destruct (own_conn c (um_conn m)); cbn [negb andb]; [|reflexivity].
  rewrite rx_load_eq by auto. rewrite check_eq by (auto; lia).
  destruct ((le_at 0 (octets m j) =? h_tok c) && (le_at 4 (octets m j) =? u32 (h_rx c + 1))) eqn:Ec; [|reflexivity].
  cbn [k_tail k_head k_pkt sq_req]. pose proof Hm as (_ & _ & _ & Hl & _). unfold emsgRoom. rewrite Z2Nat.id by lia. rewrite HL.
  destruct (Z.leb_spec (um_len m) 4064), (Z.ltb_spec 4064 (um_len m)); try lia; cbn [orb]; [|reflexivity].
  destruct (Nat.ltb_spec pktLen (12 + Z.to_nat (um_len m))); [lia|]. reflexivity.
Qed.

Definition sends (c : chan) : chan := mkCh (h_est c) (u32 (h_tx c + 1)) (h_rx c) (h_tok c) (h_conn c) (h_sess c).
Definition rsp_of (conn uid : Z) (octs : list Z) : umsg := mkUm conn uid 2 (Z.of_nat (length octs)) octs.
Definition may_send (c : chan) (m : emsg) : bool :=
  own_conn c (e_conn (em_hdr m)) && match h_sess c with Some s => s =? e_sess (em_hdr m) | None => true end.
Definition body_of (m : emsg) : list Z := firstn (Z.to_nat (em_len m)) (em_data m).
Lemma c_send_eq uid c m : emsg_ok m -> h_est c = true ->
  c_send uid c m =
  if may_send c m then
    if em_len m <=? 4060 then Some (sends c, [CTx KMsg (rsp_of (e_conn (em_hdr m)) uid (msg_rsp (h_tok c) (h_tx c) (e_req (em_hdr m)) (body_of m)))]) else None
  else Some (c, []).
Proof.
  intros (_ & Hl & Hb & Hd) He. unfold c_send, may_send. rewrite He. cbn [negb].
  destruct (own_conn c (e_conn (em_hdr m))); cbn [negb andb]; [|reflexivity].
  assert (X : (if match h_sess c with Some s => negb (s =? e_sess (em_hdr m)) | None => false end then true else false) =
              negb (match h_sess c with Some s => s =? e_sess (em_hdr m) | None => true end)).
  { destruct (h_sess c) as [s|]; [destruct (s =? e_sess (em_hdr m)); reflexivity|reflexivity]. }
  destruct (match h_sess c with Some s => negb (s =? e_sess (em_hdr m)) | None => false end) eqn:E1;
  destruct (match h_sess c with Some s => s =? e_sess (em_hdr m) | None => true end) eqn:E2; cbn [negb] in X; try discriminate X; [reflexivity|].
  destruct (Z.leb_spec 0 (em_len m)), (Z.leb_spec (em_len m) (Z.of_nat (length (em_data m)))); try lia. cbn [andb negb].
  erewrite tx_octets_eq by (apply Wr_seq; [apply W_tok|apply W_seq]).
  rewrite !app_length, !le_bytes_length, firstn_length.
  destruct (Z.leb_spec (em_len m) 4060), (Z.leb_spec (Z.of_nat (4 + (4 + 4) + Nat.min (Z.to_nat (em_len m)) (length (em_data m)))) 4072); try lia; [|reflexivity].
  unfold to_conn, rsp_of, msg_rsp, body_of. rewrite <- (app_assoc (le_bytes 4 (h_tok c))). unfold sends. rewrite He. reflexivity.
Qed.

Lemma c_open_eq uid c m j rnd t1 t2 : umsg_ok m -> umem_ok j -> h_est c = false ->
  c_open uid c m j rnd t1 t2 =
  match dec_open_msg (mkSdu 0 (Z.to_nat (um_len m)) (octets m j)) with
  | DOk (q, r) _ =>
      let token := rnd mod 2147483647 in
      Some (mkCh true (u32 (h_tx c + 1)) (open_seq (octets m j)) token (Some (um_conn m)) (h_sess c),
            [CTx KOpn (rsp_of (um_conn m) uid (open_rsp uid (h_tx c) (open_req (octets m j)) (rq_handle (oq_hdr r)) token t1 t2 (oq_life r)))])
  | DThrow => Some (c, [CThrow])
  | _ => None
  end.
Proof.
  intros Hm Hj He. unfold c_open. rewrite He, rx_load_eq by auto.
  destruct (dec_open_msg _) as [[q r] b'| | |] eqn:E; try reflexivity.
  apply open_msg_any in E as ->; [|now apply octets_ok]. cbn [sq_num sq_req]. cbv zeta.
  erewrite tx_octets_eq by apply W_open. rewrite open_len. cbn [length Nat.add].
  change (Z.of_nat 123 <=? 4072) with true. cbv iota. rewrite app_nil_r. reflexivity.
Qed.

Lemma c_close_eq uid c m j now : umsg_ok m -> umem_ok j -> h_est c = true ->
  c_close uid c m j now =
  if sound c m j then
    match dec_cont dec_closereq (cont_new 452 closereq0) (mkSdu 12 (Z.to_nat (um_len m)) (octets m j)) with
    | DOk r _ => Some (freed (take c (le_at 4 (octets m j))),
        [CTx KClo (rsp_of (um_conn m) uid (close_rsp (h_tok c) (h_tx c) (le_at 8 (octets m j)) (rq_handle (cq_hdr (co_msg r))) now));
         CRelReq (um_conn m); CFree uid])
    | DThrow => Some (take c (le_at 4 (octets m j)), [CThrow])
    | _ => None
    end
  else Some (freed c, [CRelReq (um_conn m); CFree uid]).
Proof.
  intros Hm Hj He. pose proof (octets_len m j Hm Hj) as HL. pose proof (octets_ok m j Hm Hj) as HB. pose proof pktLen_Z as HP.
  unfold c_close. rewrite He. cbn [negb]. unfold c_close_msg, sound. destruct (own_conn c (um_conn m)); cbn [negb andb]; [|reflexivity].
  rewrite rx_load_eq by auto. rewrite check_eq by (auto; lia).
  destruct ((le_at 0 (octets m j) =? h_tok c) && (le_at 4 (octets m j) =? u32 (h_rx c + 1))) eqn:Ec; [|reflexivity].
  destruct (dec_cont dec_closereq _ _) as [r b'| | |]; try reflexivity. cbn [sq_req].
  erewrite tx_octets_eq by apply W_close. rewrite close_len. cbn [length Nat.add].
  change (Z.of_nat 40 <=? 4072) with true. cbv iota. rewrite app_nil_r. reflexivity.
Qed.

(** * Invariant of one channel, relative to what was observed of it *)
Definition start_of (w : cview) : Z := if (w_frees w =? 0)%nat then 1 else 0.
Definition CO (c : chan) (w : cview) : Prop :=
  if h_est c then
    w_opens w = S (w_frees w) /\ h_conn c = Some (w_conn w) /\ h_tok c = w_tok w /\ h_rx c = w_in w /\ h_sess c = w_sess w /\
    h_tx c = (start_of w + Z.of_nat (w_sent w)) mod 4294967296 /\ is_u32 (h_tok c) /\ is_u32 (h_rx c)
  else w_opens w = w_frees w /\ h_conn c = None /\ h_sess c = None /\ h_tx c = start_of w.

(** Everything in [os] concerns channel [uid]. *)
Definition cabout (uid : Z) (o : cout) : Prop :=
  match o with CTx _ m => um_chan m = uid | CInd m => e_chan (em_hdr m) = uid | CFree u => u = uid | CRelReq _ | CThrow => True end.
Definition is_cfree_any (o : cout) : bool := match o with CFree _ => true | _ => false end.
Record CQ (uid : Z) (c c' : chan) (os : list cout) : Prop := {
  cq_about : Forall (cabout uid) os;
  cq_free : filter is_cfree_any os = if negb (h_est c') && h_est c then [CFree uid] else [];
  cq_stay : h_est c = false -> h_est c' = false;
  cq_noopn : filter (fun o => match o with CTx KOpn _ => true | _ => false end) os = []
}.

Definition cev_chan (e : cev) : option Z :=
  match e with
  | CvOpen _ _ _ _ _ => None
  | CvClose m _ _ | CvMsg m _ => Some (um_chan m)
  | CvAssoc h => Some (e_chan h)
  | CvSend m => Some (e_chan (em_hdr m))
  | CvRelInd _ ch => Some ch
  end.

Ltac cqt := constructor; [repeat (apply Forall_cons; [try exact I; try reflexivity|]); try apply Forall_nil| |intros; hcbn; congruence|reflexivity].
Lemma CO_tx_u32 c w : CO c w -> is_u32 (h_tx c).
Proof.
  unfold CO, start_of, is_u32. destruct (h_est c).
  - intros (_ & _ & _ & _ & _ & -> & _). lia.
  - intros (_ & _ & _ & ->). destruct (w_frees w =? 0)%nat; lia.
Qed.
Lemma CO_freed c w w' n : CO c w -> h_est c = true -> w_frees w' = S (w_frees w) -> w_opens w' = w_opens w -> CO (freed (take c n)) w'.
Proof. unfold CO, freed, take, start_of. hcbn. intros H E F O. rewrite E in H. destruct H as (H & _). rewrite O, F. auto. Qed.
Lemma CO_freed' c w w' : CO c w -> h_est c = true -> w_frees w' = S (w_frees w) -> w_opens w' = w_opens w -> CO (freed c) w'.
Proof. unfold CO, freed, start_of. hcbn. intros H E F O. rewrite E in H. destruct H as (H & _). rewrite O, F. auto. Qed.

Lemma msg_step uid c w m j c' os : CO c w -> umsg_ok m -> umem_ok j -> um_chan m = uid -> c_msg uid c m j = Some (c', os) ->
  CO c' (cview_next uid w (CvMsg m j, os)) /\ CQ uid c c' os.
Proof.
  intros H Hm Hj Hu E. destruct (h_est c) eqn:He.
  - rewrite c_msg_eq in E by auto. destruct (sound c m j) eqn:Es.
    + destruct (um_len m <=? 4064); [|discriminate E]. apply some2 in E as (<- & <-). split.
      * unfold CO in *. rewrite He in H. unfold take. hcbn. rewrite He. destruct H as (A & B & C & D & F & G & K & L).
        unfold cview_next. cbn [taken cview_next w_opens w_frees w_conn w_tok w_in w_sent w_sess ccount filter is_tx is_cfree length].
        rewrite Hu, Z.eqb_refl. rewrite !Nat.add_0_r.
        split; [exact A|]. split; [exact B|]. split; [exact C|]. split; [reflexivity|]. split; [exact F|]. split.
        { rewrite G. unfold start_of. cbn [w_frees]. reflexivity. }
        split; [exact K|]. apply le_at_bound. now apply octets_ok.
      * unfold ind_of, take. cqt. hcbn. now rewrite He.
    + apply some2 in E as (<- & <-). split.
      * eapply CO_freed'; eauto; unfold cview_next; cbn; rewrite ?Z.eqb_refl; cbn; lia.
      * unfold freed. cqt. hcbn. now rewrite He.
  - unfold c_msg in E. rewrite He in E. cbn [negb] in E. apply some2 in E as (<- & <-). split.
    + unfold CO in *. rewrite He in *. unfold cview_next, start_of in *. cbn. rewrite !Nat.add_0_r. auto.
    + cqt. now rewrite He.
Qed.

Lemma send_step uid c w m c' os : CO c w -> emsg_ok m -> c_send uid c m = Some (c', os) ->
  CO c' (cview_next uid w (CvSend m, os)) /\ CQ uid c c' os.
Proof.
  intros H Hm E. destruct (h_est c) eqn:He.
  - rewrite c_send_eq in E by auto. destruct (may_send c m) eqn:Es.
    + destruct (em_len m <=? 4060); [|discriminate E]. apply some2 in E as (<- & <-). split.
      * unfold CO in *. rewrite He in H. unfold sends. hcbn. rewrite He. destruct H as (A & B & C & D & F & G & K & L).
        unfold cview_next, ccount. cbn [taken w_opens w_frees w_conn w_tok w_in w_sent w_sess filter is_tx is_cfree rsp_of um_chan].
        rewrite Z.eqb_refl. cbn [length]. rewrite !Nat.add_0_r.
        split; [exact A|]. split; [exact B|]. split; [exact C|]. split; [exact D|]. split; [exact F|]. split; [|split; [exact K|exact L]].
        unfold start_of in *. cbn [w_frees]. rewrite G. unfold u32. destruct (w_frees w =? 0)%nat; lia.
      * unfold sends. cqt. hcbn. now rewrite He.
    + apply some2 in E as (<- & <-). split.
      * unfold CO in *. rewrite He in *. unfold cview_next, start_of in *. cbn. rewrite !Nat.add_0_r. exact H.
      * cqt. now rewrite He.
  - unfold c_send in E. rewrite He in E. cbn [negb] in E. apply some2 in E as (<- & <-). split.
    + unfold CO in *. rewrite He in *. unfold cview_next, start_of in *. cbn. rewrite !Nat.add_0_r. auto.
    + cqt. now rewrite He.
Qed.

Lemma close_step uid c w m j now c' os : CO c w -> umsg_ok m -> umem_ok j -> um_chan m = uid -> c_close uid c m j now = Some (c', os) ->
  CO c' (cview_next uid w (CvClose m j now, os)) /\ CQ uid c c' os.
Proof.
  intros H Hm Hj Hu E. destruct (h_est c) eqn:He.
  - rewrite c_close_eq in E by auto. destruct (sound c m j) eqn:Es.
    + destruct (dec_cont dec_closereq _ _) as [r b'| | |]; try discriminate E; apply some2 in E as (<- & <-); split.
      * eapply CO_freed; eauto; unfold cview_next; cbn; rewrite ?Z.eqb_refl; cbn; lia.
      * unfold freed, take. cqt. hcbn. now rewrite He.
      * unfold CO in *. rewrite He in H. unfold take. hcbn. rewrite He. destruct H as (A & B & C & D & F & G & K & L).
        unfold cview_next. cbn [taken cview_next w_opens w_frees w_conn w_tok w_in w_sent w_sess ccount filter is_tx is_cfree length].
        rewrite Hu, Z.eqb_refl. rewrite !Nat.add_0_r.
        split; [exact A|]. split; [exact B|]. split; [exact C|]. split; [reflexivity|]. split; [exact F|]. split.
        { rewrite G. unfold start_of. cbn [w_frees]. reflexivity. }
        split; [exact K|]. apply le_at_bound. now apply octets_ok.
      * unfold take. cqt. hcbn. now rewrite He.
    + apply some2 in E as (<- & <-). split.
      * eapply CO_freed'; eauto; unfold cview_next; cbn; rewrite ?Z.eqb_refl; cbn; lia.
      * unfold freed. cqt. hcbn. now rewrite He.
  - unfold c_close in E. rewrite He in E. cbn [negb] in E. apply some2 in E as (<- & <-). split.
    + unfold CO in *. rewrite He in *. unfold cview_next, start_of in *. cbn. rewrite !Nat.add_0_r. auto.
    + cqt. now rewrite He.
Qed.

Lemma assoc_step uid c w h : CO c w -> e_chan h = uid -> CO (c_assoc c h) (cview_next uid w (CvAssoc h, [])) /\ CQ uid c (c_assoc c h) [].
Proof.
  intros H Hu. unfold c_assoc, own_conn. unfold cview_next. rewrite Hu, Z.eqb_refl. cbn [andb ccount filter length].
  unfold CO in *. destruct (h_est c) eqn:He.
  - destruct H as (A & B & C & D & F & G & K & L). rewrite A, Nat.eqb_refl. cbn [andb]. rewrite B.
    rewrite (Z.eqb_sym (w_conn w)). destruct (e_conn h =? w_conn w) eqn:Ec; hcbn; rewrite ?He;
      cbn [w_opens w_frees w_conn w_tok w_in w_sent w_sess]; rewrite !Nat.add_0_r; unfold start_of in *; cbn [w_frees].
    + split; [repeat (split; [assumption || reflexivity|]); exact L|]. cqt. hcbn. now rewrite He.
    + split; [repeat (split; [assumption || reflexivity|]); exact L|]. cqt. hcbn. now rewrite He.
  - destruct H as (A & B & C & D). cbn [andb]. rewrite He. rewrite A.
    destruct (Nat.eqb_spec (w_frees w) (S (w_frees w))); [lia|]. cbn [andb w_opens w_frees w_conn w_tok w_in w_sent w_sess]. rewrite !Nat.add_0_r.
    split; [unfold start_of in *; cbn [w_frees]; repeat (split; [assumption|]); assumption|]. cqt. now rewrite He.
Qed.

Lemma relind_step uid c w conn c' os : CO c w -> c_relind uid c = (c', os) ->
  CO c' (cview_next uid w (CvRelInd conn uid, os)) /\ CQ uid c c' os.
Proof.
  intros H E. unfold c_relind in E. destruct (h_est c) eqn:He.
  - unfold c_release in E. injection E as <- <-. split.
    + eapply CO_freed'; eauto; unfold cview_next; cbn; rewrite ?Z.eqb_refl; cbn; lia.
    + cqt. hcbn. now rewrite He.
  - injection E as <- <-. split.
    + unfold CO in *. rewrite He in *. unfold cview_next, start_of in *. cbn. rewrite !Nat.add_0_r. auto.
    + cqt. now rewrite He.
Qed.

Lemma open_step uid c w m j rnd t1 t2 c' os : CO c w -> umsg_ok m -> umem_ok j -> 0 <= rnd -> h_est c = false ->
  c_open uid c m j rnd t1 t2 = Some (c', os) ->
  CO c' (cview_next uid w (CvOpen m j rnd t1 t2, os)) /\ Forall (cabout uid) os /\
  ((h_est c' = true /\ exists handle life,
      os = [CTx KOpn (rsp_of (um_conn m) uid (open_rsp uid (start_of w) (open_req (octets m j)) handle (rnd mod 2147483647) t1 t2 life))]) \/
   (c' = c /\ os = [CThrow])).
Proof.
  intros H Hm Hj Hr He E. rewrite c_open_eq in E by auto.
  pose proof (octets_ok m j Hm Hj) as HB.
  destruct (dec_open_msg _) as [[q r] b'| | |] eqn:Ed; try discriminate E; cbv zeta in E; apply some2 in E as (<- & <-).
  - unfold CO in H. rewrite He in H. destruct H as (A & B & C & D). split; [|split; [repeat constructor|left; rewrite D; hcbn; eauto]].
    assert (Htx : is_u32 (h_tx c)) by (rewrite D; unfold start_of, is_u32; destruct (w_frees w =? 0)%nat; lia).
    assert (Htok : is_u32 (rnd mod 2147483647)) by (unfold is_u32; lia).
    assert (Hreq : is_u32 (open_req (octets m j))).
    { unfold open_req. apply le_at_bound. clear - HB. revert HB. generalize (octets m j). generalize 3%nat. induction n; intros l Hl; cbn [skip_strs]; auto.
      apply IHn. now apply bytes_skipn. }
    assert (Hseq : is_u32 (open_seq (octets m j))).
    { unfold open_seq. apply le_at_bound. clear - HB. revert HB. generalize (octets m j). generalize 3%nat. induction n; intros l Hl; cbn [skip_strs]; auto.
      apply IHn. now apply bytes_skipn. }
    unfold cview_next, CO. hcbn. cbn [rsp_of um_chan]. rewrite Z.eqb_refl.
    unfold ccount. cbn [w_opens w_frees w_conn w_tok w_in w_sent w_sess filter is_cfree length]. rewrite Nat.add_0_r.
    split; [lia|]. split; [reflexivity|]. split.
    { unfold out_tok, rsp_of. cbn [um_data]. destruct (open_fields uid (h_tx c) (open_req (octets m j)) (rq_handle (oq_hdr r)) (rnd mod 2147483647) t1 t2 (oq_life r) Htx Htok Hreq) as (_ & X & _). now rewrite X. }
    split; [reflexivity|]. split; [exact C|]. split; [|split; auto].
    rewrite D. unfold start_of, u32. cbn [w_frees]. reflexivity.
  - split; [|split; [repeat constructor|right; auto]].
    unfold CO in *. rewrite He in *. unfold cview_next, start_of in *. cbn. rewrite !Nat.add_0_r. auto.
Qed.
