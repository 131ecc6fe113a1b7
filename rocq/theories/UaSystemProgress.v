(** Progress of the assembled server: requests are answered. *)
From Verif Require Import Base QueueModel PoolModel EntProofs ModbusCodecModel ModbusCodecSpec ModbusCodecProofs ModbusClientModel ModbusClientProofs
  UaCodecModel UaCodecSpec UaCodecProofs UaTcpModel UaTcpSpec UaTcpProofs UaTcpRuns UaTcpFacts UaChanModel UaChanSpec UaChanProofs UaChanRuns UaChanFacts
  UaServiceModel UaServiceSpec UaServiceProofs UaServiceRuns UaServiceFacts UaSystemModel UaSystemSpec UaSystemProofs UaSystemFacts.
Local Open Scope Z_scope.

(** * The socket stays open *)
Definition vlinked (uid : Z) (v : tserver) : Prop := tsrv_enabled v (EvData uid RxNa None) = true.
Lemma linked_iff uid v c : 1 <= uid <= 32 -> conn_of v uid = Some c -> (vlinked uid v <-> t_link c = Some true).
Proof.
  intros Hu Hc. unfold vlinked. cbn [tsrv_enabled]. rewrite Hc. destruct (Z.leb_spec 1 uid); [|lia]. destruct (Z.ltb_spec uid 33); [|lia]. cbn [andb].
  destruct (t_link c) as [[|]|]; intuition congruence.
Qed.
Lemma link_data b0 v tr uid r w v' os : ureach b0 v tr -> tev_ok (EvData uid r w) -> vlinked uid v -> ulive uid tr ->
  tsrv_step v (EvData uid r w) = Some (v', os) -> ~ In (UFree uid) os -> vlinked uid v'.
Proof.
  intros HR Hev Hl Hlv Hs Hf. destruct (UaTcpRuns.step_inv _ _ _ _ _ (UaTcpRuns.reach_inv _ _ _ HR) Hev Hl Hs) as [_ Ht].
  inversion Ht as [e u k c c' v1 os1 Et Hu Ec Ec' HT HQ Ek Ek' E1 E2 E3| | | |]; clear Ht; subst.
  cbn [target] in Et. injection Et as <-. cbn beta in Ek. apply (linked_iff _ _ _ Hu Ec) in Hl as Hk. apply (linked_iff _ _ _ Hu Ec').
  assert (Hlr : lrx_ok r) by (destruct r; exact Hev || exact I).
  assert (Hst : t_st c <> UInit) by now apply (live_iff _ _ _ HT).
  pose proof HT as [HL HB HS HX]. unfold u_data in Ek. destruct (t_st c) eqn:Est; [congruence| |].
  - destruct HS as (A1 & A2 & A3 & A4 & A5 & A6 & A7). specialize (HX ltac:(congruence)).
    destruct (u_hello uid c r w) as [[[c1 o] res]|] eqn:Eh; [|discriminate Ek].
    destruct (hello_ok _ _ _ _ _ _ _ _ HL HB HX Hk Hlr Eh) as ([S1 S2 S3 S4 S5 S6] & Hc).
    destruct Hc as [(-> & n & ->)|[(-> & ->)|[(-> & -> & R)|(-> & -> & R)]]]; cbn [u_then] in Ek.
    + rewrite (tr_conn uid c1 _ (eq_trans S1 Est) (eq_trans S2 A2)) in Ek. apply some2 in Ek as (<- & <-). cbn [t_link]. congruence.
    + rewrite (tr_init uid c1 _ ltac:(congruence) (eq_trans S2 A2)) in Ek. apply some2 in Ek as (<- & <-). exfalso. apply Hf. cbn. auto.
    + apply some2 in Ek as (<- & <-). congruence.
    + apply some2 in Ek as (<- & <-). congruence.
  - destruct HS as (A1 & A2 & A3 & A4 & A5 & A6 & A7). specialize (HX ltac:(congruence)).
    destruct (u_secured uid c r) as [[[c1 o] res]|] eqn:Eh; [|discriminate Ek].
    destruct (secured_ok _ _ _ _ _ _ _ HL HB HX Hk Hlr Eh) as ([S1 S2 S3 S4 S5 S6] & Hc).
    destruct Hc as [(-> & k & ch & ck & len & d & -> & _)|[(-> & ->)|(-> & -> & R & Rt)]]; cbn [u_then] in Ek.
    + unfold u_arm in Ek. rewrite (eq_trans S2 A2) in Ek. tcbn_in Ek. apply some2 in Ek as (<- & <-). cbn [t_link z_rx z_timer]. congruence.
    + rewrite (fail_eq uid c1 _ ltac:(congruence) (eq_trans S2 A2)) in Ek. apply some2 in Ek as (<- & <-). exfalso. apply Hf. cbn [app]. unfold closing. apply in_or_app. right. right. left. reflexivity.
    + apply some2 in Ek as (<- & <-). congruence.
Qed.
(** A packet of the channel layer is written. *)
Lemma tx_written b0 v tr k m n : ureach b0 v tr -> umsg_ok m -> uacked (um_conn m) tr -> vlinked (um_conn m) v ->
  (k = KOpn \/ uchan (um_conn m) tr = Some (um_chan m)) ->
  exists v', tsrv_step v (EvMsg k m (Some n)) = Some (v', [UTx (um_conn m) (packet_of k m) (Nat.min n (length (packet_of k m)))]) /\ vlinked (um_conn m) v'.
Proof.
  intros HR Hm Ha Hl Hk. pose proof (UaTcpFacts.live_range _ _ _ _ HR (acked_live _ _ _ _ HR Ha)) as Hu.
  destruct (conn_inv _ _ _ (UaTcpRuns.reach_inv _ _ _ HR) Hu) as (c & Hc & HT & En & Eg).
  apply (linked_iff _ _ _ Hu Hc) in Hl. pose proof (proj1 (acked_st _ _ _ HT) Ha) as Est. pose proof (conn_chan _ _ _ HT) as HC.
  set (c1 := match k with KOpn => z_chan c (Some (um_chan m)) | _ => c end).
  assert (L1 : t_link c1 = Some true) by (unfold c1; destruct k; auto).
  assert (E : u_msg (um_conn m) k c m (Some n) = Some (c1, [UTx (um_conn m) (packet_of k m) (Nat.min n (length (packet_of k m)))])).
  { unfold u_msg. rewrite Est. unfold u_message. fold c1. rewrite message_packet by auto.
    assert (C1 : t_chan c1 = Some (um_chan m)).
    { unfold c1. destruct k; [|reflexivity|]; (destruct Hk as [Hk|Hk]; [discriminate|unfold uchan in Hk; congruence]). }
    rewrite C1, Z.eqb_refl. pose proof Hm as (_ & _ & _ & _ & _ & Hd). destruct (Z.leb_spec (um_len m) (Z.of_nat (length (um_data m)))); [|lia]. cbn [negb].
    unfold u_write. rewrite L1. reflexivity. }
  destruct (UaTcpProofs.msg_step _ _ _ _ _ _ _ _ HT Hm eq_refl E) as (_ & HQ).
  destruct (on_total v tr (um_conn m) (fun c => u_msg (um_conn m) k c m (Some n)) c _ _ (UaTcpRuns.reach_inv _ _ _ HR) Hu Hc E HQ) as (p' & E2 & E3).
  eexists. split; [cbn [tsrv_step]; exact E2|].
  assert (S1 : t_st c1 = UConn) by (unfold c1; destruct k; auto).
  rewrite E3 by congruence. eapply linked_iff; [exact Hu| |exact L1]. unfold conn_of. cbn [d_pool d_conn]. rewrite Eg. apply nth_error_upd_eq.
  apply nth_error_Some. congruence.
Qed.

(** * Packets *)
Lemma skip_app {A} (a b : list A) n : length a = n -> skipn n (a ++ b) = b.
Proof. intros <-. rewrite skipn_app, skipn_all2, Nat.sub_diag by lia. reflexivity. Qed.
Lemma msg_packet_len ch t s r body : length (msg_packet ch t s r body) = (24 + length body)%nat.
Proof. unfold msg_packet. rewrite !app_length, !le_bytes_length. cbn [length]. lia. Qed.
Lemma msg_packet_sized ch t s r body : bytes_ok body -> Z.of_nat (length body) <= 4294967000 -> sized (msg_packet ch t s r body).
Proof.
  intros Hb Hl. split; [|split].
  - unfold msg_packet. assert (bytes_ok [77; 83; 71; 70]) by (repeat constructor; unfold is_byte; lia). bts.
  - rewrite msg_packet_len. lia.
  - rewrite msg_packet_len. unfold msg_packet. rewrite le_at_app by reflexivity. rewrite le_at_here by (unfold is_u32; lia). lia.
Qed.
Lemma msg_packet_chan ch t s r body : is_u32 ch -> le_at 8 (msg_packet ch t s r body) = ch.
Proof.
  intros H. unfold msg_packet. change 8%nat with (4 + 4)%nat. rewrite <- (le_at_skip 4 4), skip_app by reflexivity.
  rewrite le_at_app by apply le_bytes_length. now apply le_at_here.
Qed.
Lemma msg_packet_body ch t s r body : skipn 12 (msg_packet ch t s r body) = le_bytes 4 t ++ le_bytes 4 s ++ le_bytes 4 r ++ body.
Proof.
  unfold msg_packet. rewrite 2app_assoc. apply skip_app. rewrite !app_length, !le_bytes_length. reflexivity.
Qed.
(** The channel layer's answer as a packet. *)
Lemma rsp_packet uid ch t s r a : packet_of KMsg (rsp_of uid ch (msg_rsp t s r a)) = msg_packet ch t s r a.
Proof.
  unfold packet_of, rsp_of, msg_packet, msg_rsp. cbn [um_chunk um_len um_chan um_data kind_octets]. rewrite Nat2Z.id, firstn_all.
  rewrite !app_length, !le_bytes_length. cbn [app]. rewrite <- !app_assoc. do 4 f_equal. f_equal. f_equal. lia.
Qed.

(** * Layers *)
(** The transport's part of being ready. *)
Definition tready (uid ch : Z) (v : tserver) (tr : utrace) : Prop := uacked uid tr /\ uboundary uid tr /\ vlinked uid v /\ uchan uid tr = Some ch.
Lemma data_ready b0 v tr uid ch r w v' k ck len d : ureach b0 v tr -> tev_ok (EvData uid r w) -> tready uid ch v tr ->
  tsrv_step v (EvData uid r w) = Some (v', [UFwd k uid ch ck len d; UArm uid 30000000]) ->
  tready uid ch v' (tr ++ [(EvData uid r w, [UFwd k uid ch ck len d; UArm uid 30000000])]).
Proof.
  intros HR Hev (A & B & C & D) Hs. unfold tready, uacked, uboundary, uchan. rewrite uview_snoc. unfold uview_next.
  cbn [existsb is_ufree is_uack is_uarm orb g_acked g_chan g_rx]. rewrite Z.eqb_refl. cbn [orb]. rewrite orb_false_r.
  split; [exact A|]. split; [reflexivity|]. split; [|exact D]. eapply link_data; eauto using acked_live. cbn. intuition discriminate.
Qed.
Lemma tx_ready b0 v tr uid ch m n : ureach b0 v tr -> umsg_ok m -> um_conn m = uid -> um_chan m = ch -> tready uid ch v tr ->
  exists v', tsrv_step v (EvMsg KMsg m (Some n)) = Some (v', [UTx uid (packet_of KMsg m) (Nat.min n (length (packet_of KMsg m)))]) /\
    tready uid ch v' (tr ++ [(EvMsg KMsg m (Some n), [UTx uid (packet_of KMsg m) (Nat.min n (length (packet_of KMsg m)))])]).
Proof.
  intros HR Hm Hu Hc (A & B & C & D). subst uid ch. destruct (tx_written b0 v tr KMsg m n HR Hm A C (or_intror D)) as (v' & E & L).
  exists v'. split; [exact E|]. unfold tready, uacked, uboundary, uchan. rewrite uview_snoc. unfold uview_next.
  assert (Ea : is_uack (um_conn m) (UTx (um_conn m) (packet_of KMsg m) (Nat.min n (length (packet_of KMsg m)))) = false) by reflexivity.
  cbn [existsb is_ufree is_uarm orb g_acked g_chan g_rx]. rewrite Ea. cbn [orb]. rewrite orb_false_r. auto.
Qed.

(** The channel's part. *)
Definition cready (uid ch : Z) (tr : ctrace) : Prop := copen ch tr /\ cconn ch tr = uid.
Lemma ind_ready uid ch tr m j x : cready uid ch tr -> um_chan m = ch ->
  let tr' := tr ++ [(CvMsg m j, [CInd x])] in
  cready uid ch tr' /\ ctoken ch tr' = ctoken ch tr /\ clast ch tr' = le_at 4 (octets m j) /\ csent ch tr' = csent ch tr /\
  csession ch tr' = csession ch tr /\ cstart ch tr' = cstart ch tr.
Proof.
  intros [A B] <- tr'. unfold tr', cready, copen, cconn, ctoken, clast, csent, csession, cstart, cfreed in *. rewrite cview_snoc. unfold cview_next.
  cbn [taken ccount filter is_tx is_cfree length w_opens w_frees w_conn w_tok w_in w_sent w_sess]. rewrite Z.eqb_refl.
  cbn [w_opens w_frees w_conn w_tok w_in w_sent w_sess]. rewrite !Nat.add_0_r. auto 10.
Qed.
Lemma assoc_ready uid ch tr h : cready uid ch tr -> e_chan h = ch -> e_conn h = uid ->
  let tr' := tr ++ [(CvAssoc h, [])] in
  cready uid ch tr' /\ ctoken ch tr' = ctoken ch tr /\ clast ch tr' = clast ch tr /\ csent ch tr' = csent ch tr /\
  csession ch tr' = Some (e_sess h) /\ cstart ch tr' = cstart ch tr.
Proof.
  intros [A B] E1 E2 tr'. unfold tr', cready, copen, cconn, ctoken, clast, csent, csession, cstart, cfreed in *. rewrite cview_snoc. unfold cview_next.
  rewrite E1, E2, Z.eqb_refl, A, Nat.eqb_refl, B, Z.eqb_refl. cbn [andb ccount filter length w_opens w_frees w_conn w_tok w_in w_sent w_sess]. rewrite !Nat.add_0_r. auto 10.
Qed.
Lemma send_ready uid ch tr x m : cready uid ch tr -> um_chan m = ch ->
  let tr' := tr ++ [(CvSend x, [CTx KMsg m])] in
  cready uid ch tr' /\ ctoken ch tr' = ctoken ch tr /\ clast ch tr' = clast ch tr /\ csent ch tr' = S (csent ch tr) /\
  csession ch tr' = csession ch tr /\ cstart ch tr' = cstart ch tr.
Proof.
  intros [A B] E1 tr'. unfold tr', cready, copen, cconn, ctoken, clast, csent, csession, cstart, cfreed in *. rewrite cview_snoc. unfold cview_next.
  cbn [taken ccount filter is_tx is_cfree length w_opens w_frees w_conn w_tok w_in w_sent w_sess]. rewrite E1, Z.eqb_refl.
  cbn [length w_opens w_frees w_conn w_tok w_in w_sent w_sess]. rewrite !Nat.add_0_r. repeat split; auto. lia.
Qed.

(** * The assembled server *)
Definition ybusy (uid ch : Z) (y : usys) (tr : ytrace) : Prop := tready uid ch (y_t y) (tproj tr) /\ cready uid ch (cproj tr).
Lemma ready_iff uid ch y tr : yready uid ch y tr <-> y_q y = [] /\ ybusy uid ch y tr.
Proof.
  unfold ybusy, tready, cready. split.
  - intros [A B C D E F G]. auto 10.
  - intros (A & (B & C & D & E) & F & G). constructor; auto.
Qed.
Lemma kept_nil ms : kept [] ms = ms. Proof. now destruct ms. Qed.

Section Hop.
Context (b0 : list Z) (ini : list (Z * Z)) (y : usys) (tr : ytrace) (HR : yreach b0 ini y tr).
Lemma hop_t m q o e v os : y_q y = m :: q -> oracle_ok o ->
  match m with ITx k x => e = EvMsg k x (o_w o) | IRelReq c => e = EvRelease c | _ => False end ->
  tsrv_step (y_t y) e = Some (v, os) ->
  let y' := mkY v (y_c y) (y_s y) (q ++ t_msgs os) in
  y_step y (YMsg o []) = Some (y', RT e os) /\ yreach b0 ini y' (tr ++ [RT e os]).
Proof.
  intros Eq Ho Em Es y'. assert (E : y_step y (YMsg o []) = Some (y', RT e os)).
  { unfold y_step. rewrite Eq. destruct m; try contradiction; subst e; cbn [y_deliver]; unfold y_tsrv; rewrite Es, kept_nil; reflexivity. }
  split; [exact E|]. apply (yr_step _ _ _ _ (YMsg o []) _ _ HR Ho); [|exact E]. cbn [y_enabled]. now rewrite Eq.
Qed.
Lemma hop_c m q o e v os : y_q y = m :: q -> oracle_ok o ->
  match m with
  | IFwd KOpn x => e = CvOpen x (o_j o) (o_rnd o) (o_t1 o) (o_t2 o)
  | IFwd KClo x => e = CvClose x (o_j o) (o_t1 o)
  | IFwd KMsg x => e = CvMsg x (o_j o)
  | IRelInd conn ch => e = CvRelInd conn ch
  | IAssoc h => e = CvAssoc h
  | ISend x => e = CvSend x
  | _ => False
  end -> csrv_step (y_c y) e = Some (v, os) ->
  let y' := mkY (y_t y) v (y_s y) (q ++ c_msgs os) in
  y_step y (YMsg o []) = Some (y', RC e os) /\ yreach b0 ini y' (tr ++ [RC e os]).
Proof.
  intros Eq Ho Em Es y'. assert (E : y_step y (YMsg o []) = Some (y', RC e os)).
  { unfold y_step. rewrite Eq. destruct m as [[| |] x|c ch|k x|c|x|x|h]; try contradiction; subst e; cbn [y_deliver]; unfold y_csrv; rewrite Es, kept_nil; reflexivity. }
  split; [exact E|]. apply (yr_step _ _ _ _ (YMsg o []) _ _ HR Ho); [|exact E]. cbn [y_enabled]. now rewrite Eq.
Qed.
Lemma hop_s m q o v os : y_q y = IInd m :: q -> oracle_ok o -> svc_step (y_s y) (SvInd m (o_j o) (o_t1 o)) = Some (v, os) ->
  let y' := mkY (y_t y) (y_c y) v (q ++ s_msgs os) in
  y_step y (YMsg o []) = Some (y', RS (SvInd m (o_j o) (o_t1 o)) os) /\ yreach b0 ini y' (tr ++ [RS (SvInd m (o_j o) (o_t1 o)) os]).
Proof.
  intros Eq Ho Es y'. assert (E : y_step y (YMsg o []) = Some (y', RS (SvInd m (o_j o) (o_t1 o)) os)).
  { unfold y_step. rewrite Eq. cbn [y_deliver]. unfold y_svc. rewrite Es, kept_nil. reflexivity. }
  split; [exact E|]. apply (yr_step _ _ _ _ (YMsg o []) _ _ HR Ho); [|exact E]. cbn [y_enabled]. now rewrite Eq.
Qed.
End Hop.

Lemma drain_hop y o l y1 r : y_q y <> [] -> y_step y (YMsg o []) = Some (y1, r) ->
  ydrain y (o :: l) = match ydrain y1 l with Some (y2, tr) => Some (y2, r :: tr) | None => None end.
Proof. intros Hq E. cbn [ydrain]. destruct (y_q y); [congruence|]. now rewrite E. Qed.
Lemma drain_done y l : y_q y = [] -> ydrain y l = Some (y, []).
Proof. intros E. destruct l; cbn [ydrain]; now rewrite E. Qed.

Lemma cprojc tr e os : cproj (tr ++ [RC e os]) = cproj tr ++ [(e, os)]. Proof. apply cproj_snoc. Qed.
Lemma cprojt tr e os : cproj (tr ++ [RT e os]) = cproj tr. Proof. rewrite cproj_snoc. apply app_nil_r. Qed.
Lemma cprojs tr e os : cproj (tr ++ [RS e os]) = cproj tr. Proof. rewrite cproj_snoc. apply app_nil_r. Qed.
Lemma tprojc tr e os : tproj (tr ++ [RC e os]) = tproj tr. Proof. rewrite tproj_snoc. apply app_nil_r. Qed.
Lemma tprojt tr e os : tproj (tr ++ [RT e os]) = tproj tr ++ [(e, os)]. Proof. apply tproj_snoc. Qed.
Lemma tprojs tr e os : tproj (tr ++ [RS e os]) = tproj tr. Proof. rewrite tproj_snoc. apply app_nil_r. Qed.
Lemma sprojc tr e os : sproj (tr ++ [RC e os]) = sproj tr. Proof. rewrite sproj_snoc. apply app_nil_r. Qed.
Lemma sprojt tr e os : sproj (tr ++ [RT e os]) = sproj tr. Proof. rewrite sproj_snoc. apply app_nil_r. Qed.
Lemma sprojs tr e os : sproj (tr ++ [RS e os]) = sproj tr ++ [(e, os)]. Proof. apply sproj_snoc. Qed.
Ltac prj := repeat rewrite ?cprojc, ?cprojt, ?cprojs, ?tprojc, ?tprojt, ?tprojs, ?sprojc, ?sprojt, ?sprojs.

(** What stays of a channel over an exchange. *)
Definition ckeep (ch : Z) (tr tr' : ctrace) : Prop := ctoken ch tr' = ctoken ch tr /\ cstart ch tr' = cstart ch tr.

(** The services' answer goes out. *)
Lemma answer_out b0 ini y tr uid ch r o1 o2 l : yreach b0 ini y tr -> ybusy uid ch y tr -> y_q y = [ISend r] ->
  e_chan (em_hdr r) = ch -> e_conn (em_hdr r) = uid -> em_len r = Z.of_nat (length (em_data r)) ->
  (csession ch (cproj tr) = None \/ csession ch (cproj tr) = Some (e_sess (em_hdr r))) ->
  oracle_ok o1 -> oracle_ok o2 -> takes_all o2 ->
  exists y2 m n, let p := msg_packet ch (ctoken ch (cproj tr)) ((cstart ch (cproj tr) + Z.of_nat (csent ch (cproj tr))) mod 4294967296) (e_req (em_hdr r)) (em_data r) in
    let tr2 := [RC (CvSend r) [CTx KMsg m]; RT (EvMsg KMsg m n) [UTx uid p (length p)]] in
    ydrain y (o1 :: o2 :: l) = Some (y2, tr2) /\ y_q y2 = [] /\ ybusy uid ch y2 (tr ++ tr2) /\ yreach b0 ini y2 (tr ++ tr2) /\
    ckeep ch (cproj tr) (cproj (tr ++ tr2)) /\ clast ch (cproj (tr ++ tr2)) = clast ch (cproj tr) /\
    csent ch (cproj (tr ++ tr2)) = S (csent ch (cproj tr)) /\ csession ch (cproj (tr ++ tr2)) = csession ch (cproj tr) /\
    sproj (tr ++ tr2) = sproj tr.
Proof.
  intros HR [HT HC] Eq Ech Eco El Hss Ho1 Ho2 (n & Ew & Hn). pose proof (y_reach_inv _ _ _ _ HR) as HI.
  pose proof (yi_q _ _ _ _ HI) as Hq. rewrite Eq in Hq. inversion Hq as [|x0 q0 Hok _ E0]; subst x0 q0. clear Hq.
  destruct Hok as (Hm & Hi1 & Hi2 & Hl). pose proof (yi_c _ _ _ _ HI) as HCR. destruct HC as [C1 C2].
  destruct (send_fact _ _ _ HCR r Hm Hi2) as (_ & S & _). rewrite Ech in S.
  destruct (S C1) as (v1 & E1); [split; [congruence|exact Hss]|lia|]. clear S. rewrite Eco in E1. unfold body_of in E1. rewrite El, Nat2Z.id, firstn_all in E1.
  set (m := rsp_of uid ch (msg_rsp (ctoken ch (cproj tr)) ((cstart ch (cproj tr) + Z.of_nat (csent ch (cproj tr))) mod 4294967296) (e_req (em_hdr r)) (em_data r))) in *.
  destruct (hop_c _ _ _ _ HR _ _ _ _ _ _ Eq Ho1 eq_refl E1) as [D1 R1].
  set (y1 := mkY (y_t y) v1 (y_s y) ([] ++ c_msgs [CTx KMsg m])) in *.
  assert (Q1 : y_q y1 = [ITx KMsg m]) by reflexivity.
  pose proof (y_reach_inv _ _ _ _ R1) as HI1. pose proof (yi_q _ _ _ _ HI1) as Hq. rewrite Q1 in Hq. inversion Hq as [|x0 q0 Hok _ E0]; subst x0 q0. clear Hq.
  destruct Hok as (Hm1 & _). pose proof (yi_t _ _ _ _ HI1) as HT1. rewrite tprojc in HT1.
  destruct (tx_ready _ _ _ uid ch m n HT1 Hm1 eq_refl eq_refl HT) as (v2 & E2 & T2).
  assert (Ep : packet_of KMsg m = msg_packet ch (ctoken ch (cproj tr)) ((cstart ch (cproj tr) + Z.of_nat (csent ch (cproj tr))) mod 4294967296) (e_req (em_hdr r)) (em_data r)) by apply rsp_packet.
  assert (Lp : (length (packet_of KMsg m) <= n)%nat).
  { rewrite Ep, msg_packet_len. lia. }
  rewrite Nat.min_r in E2, T2 by exact Lp.
  assert (E2' : tsrv_step (y_t y1) (EvMsg KMsg m (o_w o2)) = Some (v2, [UTx uid (packet_of KMsg m) (length (packet_of KMsg m))])) by (rewrite Ew; exact E2).
  destruct (hop_t _ _ _ _ R1 _ _ _ _ _ _ Q1 Ho2 eq_refl E2') as [D2 R2].
  rewrite Ew in D2, R2. set (p := packet_of KMsg m) in *. clearbody p. 
  eexists. exists m, (Some n). cbv zeta. rewrite <- Ep.
  assert (N0 : y_q y <> []) by (rewrite Eq; discriminate). assert (N1 : y_q y1 <> []) by (rewrite Q1; discriminate).
  split. { rewrite (drain_hop _ _ _ _ _ N0 D1), (drain_hop _ _ _ _ _ N1 D2), drain_done by reflexivity. reflexivity. }
  split; [reflexivity|].
  change (tr ++ [RC (CvSend r) [CTx KMsg m]; RT (EvMsg KMsg m (Some n)) [UTx uid p (length p)]]) with
    (tr ++ [RC (CvSend r) [CTx KMsg m]] ++ [RT (EvMsg KMsg m (Some n)) [UTx uid p (length p)]]).
  rewrite app_assoc. destruct (send_ready uid ch (cproj tr) r m (conj C1 C2) eq_refl) as (X1 & X2 & X3 & X4 & X5 & X6).
  unfold ybusy, ckeep. prj. cbn [y_t]. auto 10.
Qed.

(** What the channel layer finds in the packet. *)
Section Found.
Context (uid ch t s req : Z) (body tail j : list Z) (Hb : Z.of_nat (length body) <= 4040) (Ht : length tail = 12%nat) (Hj : umem_ok j)
  (Ut : is_u32 t) (Us : is_u32 s) (Ur : is_u32 req).
Let p := msg_packet ch t s req body.
Let x := mkUm uid ch 2 (Z.of_nat (length p)) (skipn 12 p ++ tail).
Lemma found : exists rest, octets x j = le_bytes 4 t ++ le_bytes 4 s ++ le_bytes 4 req ++ body ++ rest /\ (length (body ++ rest) >= length p)%nat.
Proof.
  exists (tail ++ skipn (length p) j). unfold octets, x. cbn [um_len um_data]. rewrite Nat2Z.id, firstn_all2.
  - unfold p at 1. rewrite msg_packet_body, <- !app_assoc. split; [reflexivity|]. rewrite !app_length, skipn_length, Ht. destruct Hj as [Hj1 _].
    unfold p. rewrite msg_packet_len. lia.
  - unfold p at 1. rewrite app_length, Ht, msg_packet_body, !app_length, !le_bytes_length. unfold p. rewrite msg_packet_len. lia.
Qed.
Lemma found_at : le_at 0 (octets x j) = t /\ le_at 4 (octets x j) = s /\ le_at 8 (octets x j) = req /\
  exists rest, firstn (length p) (skipn 12 (octets x j)) = body ++ rest /\ length (body ++ rest) = length p.
Proof.
  destruct found as (rest & E & L). rewrite E. 
  split; [now apply le_at_here|].
  split. { rewrite le_at_app by apply le_bytes_length. now apply le_at_here. }
  split. { rewrite app_assoc, le_at_app by (rewrite app_length, !le_bytes_length; reflexivity). now apply le_at_here. }
  assert (E12 : skipn 12 (le_bytes 4 t ++ le_bytes 4 s ++ le_bytes 4 req ++ body ++ rest) = body ++ rest).
  { rewrite 2app_assoc. apply skip_app. rewrite !app_length, !le_bytes_length. reflexivity. }
  rewrite E12. exists (firstn (length p - length body) rest). rewrite firstn_app. rewrite (firstn_all2 body) by (unfold p; rewrite msg_packet_len; lia).
  split; [reflexivity|]. rewrite app_length, firstn_length. rewrite app_length in L. unfold p in L |- *. rewrite msg_packet_len in L |- *. lia.
Qed.
End Found.

(** The request reaches the services. *)
Lemma request_in b0 ini y tr uid ch q req w o1 o2 l : yreach b0 ini y tr -> yready uid ch y tr -> q_wf q -> bytes_ok (q_octets q) -> in_table q ->
  is_u32 req -> Z.of_nat (length (q_octets q)) <= 4040 -> oracle_ok o1 -> oracle_ok o2 ->
  let t := ctoken ch (cproj tr) in let s := (clast ch (cproj tr) + 1) mod 4294967296 in
  let p := msg_packet ch t s req (q_octets q) in
  let h := mkEh uid ch req (match csession ch (cproj tr) with Some s => s | None => invalidSuid end) in
  exists y1 e r1 x m os y3, em_hdr m = h /\
    let r2 := RC (CvMsg x (o_j o1)) [CInd m] in let r3 := RS (SvInd m (o_j o2) (o_t1 o2)) os in
    r1 = RT e [UFwd KMsg uid ch 2 (Z.of_nat (length p)) (um_data x); UArm uid 30000000] /\
    y_step y (YNet (EvData uid (RxBytes p) w) []) = Some (y1, r1) /\
    ydrain y1 (o1 :: o2 :: l) = match ydrain y3 l with Some (y4, tr4) => Some (y4, r2 :: r3 :: tr4) | None => None end /\
    parse m (o_j o2) = PReq q /\ served (sproj tr) h (o_t1 o2) q os /\ y_q y3 = s_msgs os /\
    let tr3 := ((tr ++ [r1]) ++ [r2]) ++ [r3] in
    yreach b0 ini y3 tr3 /\ ybusy uid ch y3 tr3 /\ ckeep ch (cproj tr) (cproj tr3) /\ clast ch (cproj tr3) = s /\
    csent ch (cproj tr3) = csent ch (cproj tr) /\ csession ch (cproj tr3) = csession ch (cproj tr) /\
    sproj tr3 = sproj tr ++ [(SvInd m (o_j o2) (o_t1 o2), os)].
Proof.
  intros HR Hrd Hq Hqb Hit Hreq Hlen Ho1 Ho2 t s p h. apply ready_iff in Hrd as (Q0 & HT & HC). pose proof (y_reach_inv _ _ _ _ HR) as HI.
  destruct HC as [C1 C2]. destruct (open_u32 _ _ _ _ (yi_c _ _ _ _ HI) C1) as (Hch & Ul & Ut).
  assert (Us : is_u32 s) by (unfold s, is_u32; lia).
  pose proof HT as (T1 & T2 & T3 & T4). pose proof (yi_t _ _ _ _ HI) as HTR.
  assert (Sp : sized p) by (apply msg_packet_sized; [auto|lia]).
  assert (Ep : tev_ok (EvData uid (RxBytes p) w)) by apply Sp.
  assert (Lp : Z.of_nat (length p) = 24 + Z.of_nat (length (q_octets q))) by (unfold p; rewrite msg_packet_len; lia).
  destruct (delivered _ _ _ uid w HTR (acked_live _ _ _ _ HTR T1) T2 T3 p T1 Sp ltac:(lia) ltac:(lia)) as (v1 & os1 & tail & E1 & Lt & (_ & D & _)).
  assert (Ec : le_at 8 p = ch) by (apply msg_packet_chan; unfold is_u32; lia). specialize (D KMsg ltac:(discriminate) eq_refl). cbv zeta in D. rewrite Ec in D. specialize (D T4).
  change (chunk_code (nth 3 p 0)) with 2 in D. subst os1.
  set (e := EvData uid (RxBytes p) w) in *. set (r1 := RT e [UFwd KMsg uid ch 2 (Z.of_nat (length p)) (skipn 12 p ++ tail); UArm uid 30000000]).
  set (x := mkUm uid ch 2 (Z.of_nat (length p)) (skipn 12 p ++ tail)).
  set (y1 := mkY v1 (y_c y) (y_s y) [IFwd KMsg x]).
  assert (S1 : y_step y (YNet e []) = Some (y1, r1)).
  { cbn [y_step]. unfold y_tsrv. rewrite E1, Q0, kept_nil. reflexivity. }
  assert (R1 : yreach b0 ini y1 (tr ++ [r1])) by (apply (yr_step _ _ _ _ (YNet e []) _ _ HR); [exact Ep|exact T3|exact S1]).
  pose proof (data_ready _ _ _ _ _ _ _ _ _ _ _ _ HTR Ep HT E1) as HT1.
  pose proof (y_reach_inv _ _ _ _ R1) as HI1. pose proof (yi_q _ _ _ _ HI1) as Hq1. cbn [y_q y1] in Hq1. inversion Hq1 as [|x0 q0 Hok _ E0]; subst x0 q0. clear Hq1.
  destruct Hok as (Hx & _). pose proof Ho1 as [Hj1 _].
  destruct (found_at uid ch t s req (q_octets q) tail (o_j o1) Hlen Lt Hj1 Ut Us Hreq) as (F1 & F2 & F3 & rest & F4 & F5). fold p in F1, F2, F3, F4, F5. fold x in F1, F2, F3, F4.
  pose proof (yi_c _ _ _ _ HI1) as HCR. unfold r1 in HCR. rewrite cprojt in HCR. cbn [y_c y1] in HCR.
  destruct (msg_fact _ _ _ HCR x (o_j o1) (conj Hx Hj1) Hch) as (_ & _ & M & _). cbn [um_chan x] in M.
  destruct (M C1) as (v2 & E2); [split; [|split]; [symmetry; exact C2|exact F1|exact F2]|cbn [um_len x]; lia|]. clear M.
  set (m := ind_of ch (csession ch (cproj tr)) x (o_j o1)) in *.
  assert (Eh : em_hdr m = h) by (unfold m, ind_of, h; cbn [em_hdr um_conn x]; now rewrite F3).
  destruct (hop_c _ _ _ _ R1 _ _ o1 (CvMsg x (o_j o1)) _ _ eq_refl Ho1 eq_refl E2) as [S2 R2].
  set (r2 := RC (CvMsg x (o_j o1)) [CInd m]) in *. set (y2 := mkY _ _ _ _) in S2, R2.
  assert (Q2 : y_q y2 = [IInd m]) by reflexivity.
  pose proof (y_reach_inv _ _ _ _ R2) as HI2. pose proof (yi_q _ _ _ _ HI2) as Hq1. rewrite Q2 in Hq1. inversion Hq1 as [|x0 q0 Hok _ E0]; subst x0 q0. clear Hq1.
  destruct Hok as (Hm & _ & _ & Hse). pose proof (yi_s _ _ _ _ HI2) as HSR. pose proof (yi_run _ _ _ _ HI2) as Hrun.
  unfold r2, r1 in HSR, Hrun. rewrite sprojc, sprojt in HSR, Hrun. destruct Ho2 as (Hj2 & Hr2 & Ht1 & Ht2).
  assert (Hsv : sev_ok (SvInd m (o_j o2) (o_t1 o2))) by (split; [exact Hm|split; [exact Hj2|exact Ht1]]).
  assert (Hpa : parse m (o_j o2) = PReq q).
  { apply parse_of; [auto|]. apply holds_iff. cbn [k_pkt skipn]. unfold eoctets. unfold m, ind_of. cbn [em_len em_data um_len x]. rewrite Nat2Z.id, F4.
    rewrite firstn_all2 by lia. rewrite <- app_assoc. eauto. }
  destruct (request_step _ _ _ _ _ _ HSR Hsv Hrun Hpa) as (_ & Sv).
  destruct Sv as (v3 & os & E3 & Sv).
  { rewrite Eh. unfold stray, h. cbn [e_sess]. rewrite Eh in Hse. unfold h in Hse. cbn [e_sess] in Hse. destruct q; cbn [in_table] in Hit; try tauto.
    - intros (sid & N & O). apply O, Hit, N. - intros (sid & N & O). apply O, Hit, N. }
  rewrite Eh in Sv.
  destruct (hop_s _ _ _ _ R2 _ _ o2 _ _ Q2 (conj Hj2 (conj Hr2 (conj Ht1 Ht2))) E3) as [S3 R3].
  set (r3 := RS (SvInd m (o_j o2) (o_t1 o2)) os) in *. set (y3 := mkY _ _ _ _) in S3, R3.
  exists y1, e, r1, x, m, os, y3. split; [exact Eh|]. cbv zeta. split; [reflexivity|]. split; [exact S1|].
  assert (N1 : y_q y1 <> []) by discriminate. assert (N2 : y_q y2 <> []) by (rewrite Q2; discriminate).
  split. { rewrite (drain_hop _ _ _ _ _ N1 S2), (drain_hop _ _ _ _ _ N2 S3). destruct (ydrain y3 l) as [[a b]|]; reflexivity. }
  split; [exact Hpa|]. split; [exact Sv|]. split; [reflexivity|]. split; [exact R3|].
  destruct (ind_ready uid ch (cproj tr) x (o_j o1) m (conj C1 C2) eq_refl) as (X1 & X2 & X3 & X4 & X5 & X6). rewrite F2 in X3.
  unfold ybusy, ckeep, r1, r2, r3. prj. auto 10.
Qed.

Lemma served_shape tr h now q os : served tr h now q os ->
  (os = [] /\ answer_in os = None) \/
  (exists a fr, os = SSend (reply h a) :: fr /\ s_msgs fr = [] /\ answer_in os = Some a) \/
  (exists a sid, os = [SAssoc (to_session h sid); SSend (reply (to_session h sid) a)] /\ answer_in os = Some a).
Proof.
  intros H. destruct H; [right; left|left|right; left|right; right|left|right; left|left|right; left|left]; auto;
    try (eexists; eexists; split; [reflexivity|]; repeat split; reflexivity).
Qed.

Lemma exchange b0 ini y tr uid ch q req w l : yreach b0 ini y tr -> yready uid ch y tr -> q_wf q -> bytes_ok (q_octets q) -> in_table q ->
  is_u32 req -> Z.of_nat (length (q_octets q)) <= 4040 -> (5 <= length l)%nat -> Forall (fun o => oracle_ok o /\ takes_all o) l ->
  let t := ctoken ch (cproj tr) in let s := (clast ch (cproj tr) + 1) mod 4294967296 in
  let sess := csession ch (cproj tr) in
  exists y1 r1 y2 tr2 os m o,
    let tr' := tr ++ r1 :: tr2 in
    y_step y (YNet (EvData uid (RxBytes (msg_packet ch t s req (q_octets q))) w) []) = Some (y1, r1) /\
    ydrain y1 l = Some (y2, tr2) /\ In o l /\ parse m (o_j o) = PReq q /\
    served (sproj tr) (mkEh uid ch req (match sess with Some s => s | None => invalidSuid end)) (o_t1 o) q os /\
    (forall u, written u (r1 :: tr2) =
       if u =? uid then
         match answer_in os with
         | None => []
         | Some a => let p := msg_packet ch t ((cstart ch (cproj tr) + Z.of_nat (csent ch (cproj tr))) mod 4294967296) req a in [(p, length p)]
         end
       else []) /\
    yreach b0 ini y2 tr' /\ yready uid ch y2 tr' /\ ctoken ch (cproj tr') = t /\ cstart ch (cproj tr') = cstart ch (cproj tr) /\ clast ch (cproj tr') = s /\
    csent ch (cproj tr') = (csent ch (cproj tr) + match answer_in os with None => 0 | Some _ => 1 end)%nat /\
    csession ch (cproj tr') = attached sess os /\
    sproj tr' = sproj tr ++ [(SvInd m (o_j o) (o_t1 o), os)].
Proof.
  intros HR Hrd Hq Hqb Hit Hreq Hlen Hl5 HF t s sess.
  destruct l as [|o1 [|o2 [|o3 [|o4 [|o5 l]]]]]; try (cbn [length] in Hl5; lia).
  inversion HF as [|? ? [A1 B1] HF1]; subst. inversion HF1 as [|? ? [A2 B2] HF2]; subst. inversion HF2 as [|? ? [A3 B3] HF3]; subst.
  inversion HF3 as [|? ? [A4 B4] HF4]; subst. inversion HF4 as [|? ? [A5 B5] HF5]; subst. clear HF HF1 HF2 HF3 HF4 HF5.
  destruct (request_in _ _ _ _ _ _ _ _ w _ _ (o3 :: o4 :: o5 :: l) HR Hrd Hq Hqb Hit Hreq Hlen A1 A2)
    as (y1 & e & r1 & x & m & os & y3 & Eh & Er1 & S1 & D1 & Hpa & Sv & Q3 & R3 & HB & (K1 & K2) & L3 & N3 & X3 & P3).
  set (r2 := RC (CvMsg x (o_j o1)) [CInd m]) in *. set (r3 := RS (SvInd m (o_j o2) (o_t1 o2)) os) in *.
  set (tr3 := ((tr ++ [r1]) ++ [r2]) ++ [r3]) in *. fold t s in S1, K1, L3.
  set (h := mkEh uid ch req (match csession ch (cproj tr) with Some s => s | None => invalidSuid end)) in *.
  assert (W3 : forall u rest, written u (r1 :: r2 :: r3 :: rest) = written u rest).
  { intros u rest. unfold written. cbn [flat_map r2 r3]. rewrite Er1. reflexivity. }
  assert (T3 : forall rest, tr ++ r1 :: r2 :: r3 :: rest = tr3 ++ rest) by (intros; unfold tr3; now rewrite <- !app_assoc).
  assert (I2 : In o2 (o1 :: o2 :: o3 :: o4 :: o5 :: l)) by (cbn; auto).
  exists y1, r1. destruct (served_shape _ _ _ _ _ Sv) as [[-> Ea]|[(a & fr & -> & Ef & Ea)|(a & sid & -> & Ea)]].
  - (* nothing to send *)
    rewrite (drain_done y3) in D1 by exact Q3. exists y3, [r2; r3], [], m, o2. cbv zeta. rewrite T3, app_nil_r, Ea.
    split; [exact S1|]. split; [exact D1|]. split; [exact I2|]. split; [exact Hpa|]. split; [exact Sv|]. split; [intros u; rewrite W3; now destruct (u =? uid)|].
    split; [exact R3|]. split; [apply ready_iff; auto|]. split; [exact K1|]. split; [exact K2|]. split; [exact L3|]. split; [lia|]. auto.
  - (* an answer *)
    assert (Q3' : y_q y3 = [ISend (reply h a)]).
    { rewrite Q3. change (s_msgs (SSend (reply h a) :: fr)) with (ISend (reply h a) :: s_msgs fr). now rewrite Ef. }
    destruct (answer_out _ _ _ _ uid ch _ o3 o4 (o5 :: l) R3 HB Q3' eq_refl eq_refl eq_refl)
      as (y2 & m2 & n & D2 & Q2 & HB2 & R2 & (K3 & K4) & L4 & N4 & X4 & P4); auto.
    { rewrite X3. unfold h. cbn [em_hdr reply e_sess]. destruct (csession ch (cproj tr)); auto. }
    cbv zeta in *. rewrite D2 in D1. eexists y2, _, _, m, o2. cbv zeta. rewrite T3, Ea.
    split; [exact S1|]. split; [exact D1|]. split; [exact I2|]. split; [exact Hpa|]. split; [exact Sv|].
    split. { intros u. rewrite W3. unfold written. cbn [flat_map app]. rewrite Z.eqb_sym. destruct (u =? uid); [|reflexivity]. cbn [app]. rewrite K1, K2, N3. reflexivity. }
    split; [exact R2|]. split; [apply ready_iff; auto|]. split; [congruence|]. split; [congruence|]. split; [congruence|]. split; [lia|]. split; [|congruence].
    rewrite X4, X3. reflexivity.
  - (* a session is attached first *)
    set (h' := to_session h sid) in *. set (r := reply h' a) in *.
    assert (Q3' : y_q y3 = [IAssoc h'; ISend r]) by exact Q3.
    pose proof (y_reach_inv _ _ _ _ R3) as HI3. pose proof (yi_q _ _ _ _ HI3) as Hq3. rewrite Q3' in Hq3. inversion Hq3 as [|x0 q0 Hok _ E0]; subst x0 q0. clear Hq3.
    destruct Hok as (Hh & Hi1 & Hi2 & Hi3). destruct (assoc_fact _ _ _ (yi_c _ _ _ _ HI3) h' Hh Hi2) as (v4 & E4).
    destruct (hop_c _ _ _ _ R3 _ _ o3 (CvAssoc h') _ _ Q3' A3 eq_refl E4) as [S4 R4].
    set (y4 := mkY _ _ _ _) in S4, R4. set (r4 := RC (CvAssoc h') []) in *.
    assert (Q4 : y_q y4 = [ISend r]) by reflexivity.
    destruct HB as [HB1 HB2]. destruct (assoc_ready uid ch (cproj tr3) h' HB2 eq_refl eq_refl) as (Z1 & Z2 & Z3 & Z4 & Z5 & Z6).
    assert (HB4 : ybusy uid ch y4 (tr3 ++ [r4])) by (unfold ybusy, r4; prj; split; auto).
    assert (C4 : cproj (tr3 ++ [r4]) = cproj tr3 ++ [(CvAssoc h', [])]) by apply cprojc.
    assert (P4 : sproj (tr3 ++ [r4]) = sproj tr3) by apply sprojc.
    destruct (answer_out _ _ _ _ uid ch _ o4 o5 l R4 HB4 Q4 eq_refl eq_refl eq_refl)
      as (y2 & m2 & n & D2 & Q2 & HB5 & R2 & (K3 & K4) & L4 & N4 & X4 & P5); auto.
    { rewrite C4. right. exact Z5. }
    cbv zeta in *. assert (N3' : y_q y3 <> []) by (rewrite Q3'; discriminate). rewrite (drain_hop _ _ _ _ _ N3' S4), D2 in D1.
    rewrite C4 in *. rewrite <- app_assoc in *. eexists y2, _, _, m, o2. cbv zeta. rewrite T3, Ea.
    split; [exact S1|]. split; [exact D1|]. split; [exact I2|]. split; [exact Hpa|]. split; [exact Sv|].
    split. { intros u. rewrite W3. unfold written. cbn [flat_map app r4]. rewrite Z.eqb_sym. destruct (u =? uid); [|reflexivity]. cbn [app].
      rewrite Z2, Z4, Z6, K1, K2, N3. reflexivity. }
    split; [exact R2|]. split; [apply ready_iff; auto|]. cbn [app] in *. split; [congruence|]. split; [congruence|]. split; [congruence|]. split; [lia|]. split; [|congruence].
    rewrite X4, Z5. reflexivity.
Qed.

(** * Newcomers *)
Lemma accept_ready b0 v tr : ureach b0 v tr -> (utotal ustarts tr - utotal ufrees tr + utotal unotimer tr < 32)%nat ->
  exists v' uid, tsrv_step v (EvAccept true true true) = Some (v', [UArm uid 30000000]) /\ 1 <= uid <= 32 /\ ~ ulive uid tr /\ vlinked uid v' /\
    let tr' := tr ++ [(EvAccept true true true, [UArm uid 30000000])] in
    ulive uid tr' /\ ~ uacked uid tr' /\ uboundary uid tr' /\ uchan uid tr' = None.
Proof.
  intros HR Hroom. pose proof (UaTcpRuns.reach_inv _ _ _ HR) as HI.
  assert (Hd : exists v' uid c', tsrv_step v (EvAccept true true true) = Some (v', [UArm uid 30000000]) /\ 1 <= uid <= 32 /\ conn_of v' uid = Some c' /\ t_link c' = Some true).
  { pose proof HI as [S O T]. destruct c32 as (C1 & C2 & C3). cbn [tsrv_step andb negb].
    assert (T' : (utotal ustarts tr - utotal ufrees tr = UaTcpRuns.nlive (d_conn v))%nat) by lia.
    destruct (own_alloc _ _ _ C1 C2 _ _ _ O) as [(Hf & p' & Ep & O')|(Hf & p' & i & c & Ep & En & Ha & O1 & O2 & Eg)]; rewrite Ep.
    - lia.
    - assert (Hlt : (i < 32)%nat) by (rewrite <- (own_len _ _ _ _ _ _ O); apply nth_error_Some; congruence).
      unfold tsrv_on. cbn [d_pool d_conn]. rewrite Eg, (own_get _ _ _ C1 C2 C3 _ _ _ _ O) by lia. change (Z.of_nat 32) with 32.
      destruct (Z.leb_spec 1 (Z.of_nat i + 1)); [|lia]. destruct (Z.leb_spec (Z.of_nat i + 1) 32); [|lia]. cbn [andb].
      replace (Z.to_nat (Z.of_nat i + 1 - 1)) with i by lia. rewrite En.
      assert (Hini : t_st c = UInit) by (pose proof (uact_spec c) as X; now rewrite Ha in X).
      unfold u_accept. rewrite Hini. cbn [negb]. rewrite tr_hello by (tcbn; auto). cbn [tsrv_release].
      eexists _, (Z.of_nat i + 1), _. split; [reflexivity|]. split; [lia|]. split; [unfold conn_of; cbn [d_pool d_conn]; rewrite Eg, (own_get _ _ _ C1 C2 C3 _ _ _ _ O) by lia|].
      + change (Z.of_nat 32) with 32. destruct (Z.leb_spec 1 (Z.of_nat i + 1)); [|lia]. destruct (Z.leb_spec (Z.of_nat i + 1) 32); [|lia]. cbn [andb].
        replace (Z.to_nat (Z.of_nat i + 1 - 1)) with i by lia. apply nth_error_upd_eq. apply nth_error_Some. congruence.
      + reflexivity. }
  destruct Hd as (v' & uid & c' & E & Hu & Hc & Hk). exists v', uid. split; [exact E|]. split; [exact Hu|].
  destruct (accept_total b0 v tr true HR) as (v2 & os2 & E2 & [(X & _)|(_ & u2 & _ & Hnl & Eo)]); [lia|]. rewrite E in E2. apply some2 in E2 as (<- & <-).
  injection Eo as <-. split; [exact Hnl|]. split; [now apply (linked_iff _ _ _ Hu Hc)|]. cbv zeta.
  destruct (conn_inv _ _ uid HI Hu) as (c & _ & HT & _).
  assert (Hi : t_st c = UInit). { destruct (t_st c) eqn:Est; auto; exfalso; apply Hnl, (live_iff _ _ _ HT); congruence. }
  destruct HT as [_ _ S _]. rewrite Hi in S.
  unfold ulive, uacked, uboundary, uchan. rewrite uview_snoc. unfold uview_next, ucount. cbn [existsb is_ufree is_uack is_uarm filter orb g_starts g_frees g_acked g_chan g_rx].
  rewrite Z.eqb_refl. cbn [length orb]. 
  destruct S as (A & B & C & D & E0 & F). rewrite E0. split; [lia|]. split; [discriminate|]. split; [reflexivity|exact D].
Qed.

Lemma hello_packet_len v : length (hello_packet v) = (8 + length (s_hello v))%nat.
Proof. unfold hello_packet. rewrite !app_length, le_bytes_length. cbn [length]. lia. Qed.
Lemma hello_read_back v : wf_hello v -> Z.of_nat (length (s_hello v)) <= 4294967000 -> Rd dec_hello_msg (hello_packet v) v.
Proof.
  intros Hv Hl. set (n := 8 + Z.of_nat (length (s_hello v))). assert (W : wf_mhdr (mkMh [72; 69; 76] 70 n)).
  { unfold wf_mhdr. cbn [mh_type mh_final mh_size]. split; [split; [repeat constructor; unfold is_byte; lia|reflexivity]|]. unfold is_byte, is_u32, n. lia. }
  assert (E : hello_packet v = s_mhdr (mkMh [72; 69; 76] 70 n) ++ s_hello v).
  { unfold hello_packet, s_mhdr, s_4, s_1. cbn [mh_type mh_final mh_size]. rewrite <- !app_assoc. reflexivity. }
  rewrite E. unfold dec_hello_msg. eapply Rd_bind; [apply R_mhdr, W|]. now apply R_hello.
Qed.
Lemma hello_ready b0 v tr uid h n : ureach b0 v tr -> ulive uid tr -> ~ uacked uid tr -> uboundary uid tr -> vlinked uid v ->
  wf_hello h -> bytes_ok (hello_packet h) -> Z.of_nat (length (hello_packet h)) <= 4096 -> 28 <= Z.of_nat n ->
  let e := EvData uid (RxBytes (hello_packet h)) (Some n) in let os := [UTx uid ack_packet 28; UDisarm uid; UArm uid 30000000] in
  exists v', tsrv_step v e = Some (v', os) /\ vlinked uid v' /\ uacked uid (tr ++ [(e, os)]) /\ uboundary uid (tr ++ [(e, os)]) /\ uchan uid (tr ++ [(e, os)]) = uchan uid tr.
Proof.
  intros HR HL HA HB Hlk Hh Hbt Hlen Hn e os. pose proof pktLen_Z as PZ.
  destruct (live_boundary _ _ _ _ HR HL HB) as (Hu & c & Hc & HT & En & Eg & Hst & Hhd & Htl).
  assert (Est : t_st c = UHello). { destruct (t_st c) eqn:X; auto; [congruence|]. exfalso. apply HA, (acked_st _ _ _ HT), X. }
  apply (linked_iff _ _ _ Hu Hc) in Hlk as Hk. set (m := hello_packet h) in *.
  assert (Sm : sized m).
  { split; [auto|]. unfold m in Hlen |- *. rewrite hello_packet_len in *. split; [lia|]. unfold hello_packet. rewrite le_at_app by reflexivity. rewrite le_at_here; [lia|]. unfold is_u32. lia. }
  assert (Ed : u_data uid c (RxBytes m) (Some n) = Some (mkT UConn (Some (Some uaTimeout)) (Some true) (mkSdu 0 0 (buf_write (k_pkt (t_rx c)) 0 m)) (t_chan c), os)).
  { unfold u_data. rewrite Est. unfold u_hello. rewrite (receive_done c m (to_len _ _ _ HT) Hk Hhd Htl Sm) by lia. tcbn.
    assert (Hr : dec_hello_msg (mkSdu 0 (length m) (buf_write (k_pkt (t_rx c)) 0 m)) = DOk h (mkSdu (0 + length m) (length m) (buf_write (k_pkt (t_rx c)) 0 m))).
    { apply (hello_read_back h Hh); [unfold m in *; rewrite hello_packet_len in *; lia|]. apply holds_iff. cbn [k_tail k_pkt skipn]. unfold buf_write. cbn [firstn app]. eauto. }
    rewrite Hr. unfold u_ack. rewrite ack_packet_eq. unfold u_write. tcbn. rewrite Hk. change (length ack_packet) with 28%nat. rewrite Nat.min_r by lia. cbn [u_then].
    rewrite (tr_conn uid _ (Some uaTimeout)); tcbn; [|exact Est|].
    - rewrite Hk. reflexivity.
    - destruct HT as [_ _ S _]. rewrite Est in S. apply S. }
  assert (Hlr : lrx_ok (RxBytes m)) by exact Hbt. destruct (data_step _ _ _ _ _ _ _ HT Hk Hlr Ed) as [_ HQ].
  destruct (on_total v tr uid (fun c => u_data uid c (RxBytes m) (Some n)) c _ _ (UaTcpRuns.reach_inv _ _ _ HR) Hu Hc Ed HQ) as (p' & E2 & E3).
  eexists. split; [exact E2|]. split.
  - rewrite E3 by discriminate. eapply linked_iff; [exact Hu| |]. 
    + unfold conn_of. cbn [d_pool d_conn]. rewrite Eg. apply nth_error_upd_eq. apply nth_error_Some. congruence.
    + reflexivity.
  - unfold uacked, uboundary, uchan. rewrite uview_snoc. unfold uview_next, e, os. cbn [existsb is_ufree is_uack is_uarm orb g_acked g_chan g_rx ack_packet app].
    rewrite Z.eqb_refl. cbn [orb]. rewrite orb_true_r. auto.
Qed.

(** An open request as the transport passes it on. *)
Lemma open_read_back s seqn req r : wf_sechdr s -> is_u32 seqn -> is_u32 req -> wf_openreq r ->
  Rd dec_open_msg (open_body s seqn req r) (mkSq seqn req, r).
Proof.
  intros Hs H1 H2 Hr. assert (E : [1; 0; 190; 1] ++ s_openreq r = s_cont s_openreq (cont_new 446 r)) by reflexivity.
  unfold dec_open_msg, open_body. rewrite E. eapply Rd_bind; [apply R_sechdr, Hs|]. eapply Rd_bind; [apply R_seqhdr; split; assumption|].
  rewrite <- (app_nil_r (s_cont s_openreq _)). eapply Rd_bind; [eapply R_cont with (P := wf_openreq); [intros; now apply R_openreq|]|].
  - split; [|exact Hr]. unfold cont_new, wf_plain, wf_nodeid. cbn. unfold is_u16, is_u32. repeat split; lia.
  - intros b Hb. unfold ret. cbn [co_msg cont_new length]. rewrite Nat.add_0_r. now destruct b.
Qed.

(** The channel layer's part of an opening. *)
Lemma chan_opens ini v tr uid s seqn req r x j rnd t1 t2 rest : creach ini v tr -> cev_ok (CvOpen x j rnd t1 t2) ->
  (copened tr + ctotal cbad tr < 32)%nat -> wf_sechdr s -> is_u32 seqn -> is_u32 req -> wf_openreq r ->
  octets x j = open_body s seqn req r ++ rest -> um_conn x = uid ->
  exists v' ch m, csrv_step v (CvOpen x j rnd t1 t2) = Some (v', [CTx KOpn m]) /\
    1 <= ch <= 32 /\ ~ copen ch tr /\
    m = rsp_of uid ch (open_rsp ch (cstart ch tr) req (rq_handle (oq_hdr r)) (rnd mod 2147483647) t1 t2 (oq_life r)) /\
    let tr' := tr ++ [(CvOpen x j rnd t1 t2, [CTx KOpn m])] in
    cready uid ch tr' /\ ctoken ch tr' = rnd mod 2147483647 /\ clast ch tr' = seqn /\ csent ch tr' = 1%nat /\ csession ch tr' = None /\ cstart ch tr' = cstart ch tr.
Proof.
  intros HR He Hroom Hs H1 H2 Hr Eo Eu.
  assert (Ed : exists b, dec_open_msg (mkSdu 0 (Z.to_nat (um_len x)) (octets x j)) = DOk (mkSq seqn req, r) b).
  { eexists. apply (open_read_back s seqn req r Hs H1 H2 Hr). apply holds_iff. cbn [k_tail k_pkt skipn]. eauto. }
  destruct Ed as (b & Ed). destruct He as (Hx & Hj & Hrnd & Ht). pose proof (octets_ok x j Hx Hj) as OB.
  pose proof (open_msg_any _ _ _ _ _ OB Ed) as Eq. injection Eq as Eseq Ereq.
  destruct (open_fact _ _ _ HR x j rnd t1 t2 (conj Hx (conj Hj (conj Hrnd Ht)))) as [(v' & os & E & Hop)|(_ & _ & [X|X])]; [|congruence|congruence].
  inversion Hop as [Hf|t Hf Hch Hno Hd|ch q' r' b' Hf Hch Hno Hd]; subst os; [lia|congruence|].
  assert (Hqr : q' = mkSq seqn req /\ r' = r) by (rewrite Ed in Hd; split; congruence). destruct Hqr as [-> ->].
  rewrite <- Ereq, Eu in E. set (m := rsp_of uid ch (open_rsp ch (cstart ch tr) req (rq_handle (oq_hdr r)) (rnd mod 2147483647) t1 t2 (oq_life r))) in *.
  exists v', ch, m. split; [exact E|]. split; [exact Hch|]. split; [exact Hno|]. split; [reflexivity|].
  destruct (chan_in _ _ _ (UaChanRuns.reach_inv _ _ _ HR) Hch) as (c & _ & HC & _). pose proof (CO_shut _ _ _ HC Hno) as Ec.
  unfold CO in HC. rewrite Ec in HC. destruct HC as (HC & _).
  assert (Et : out_tok m = rnd mod 2147483647).
  { unfold out_tok, m. cbn [rsp_of um_data]. apply open_fields; auto; [|unfold is_u32; lia]. unfold cstart, is_u32. destruct (_ =? _)%nat; lia. }
  cbv zeta. unfold cready, copen, cconn, ctoken, clast, csent, csession, cstart, cfreed in *. rewrite cview_snoc. unfold cview_next.
  assert (Em : um_chan m = ch) by reflexivity. rewrite Em, Z.eqb_refl.
  cbn [ccount filter is_cfree length w_opens w_frees w_conn w_tok w_in w_sent w_sess]. unfold ccount. cbn [filter is_cfree length]. rewrite !Nat.add_0_r, HC, Et.
  rewrite Eseq. auto 10.
Qed.

Lemma open_packet_len s seqn req r : length (open_packet s seqn req r) = (12 + length (open_body s seqn req r))%nat.
Proof. unfold open_packet. rewrite !app_length, !le_bytes_length. cbn [length]. lia. Qed.
Lemma open_packet_skip s seqn req r : skipn 12 (open_packet s seqn req r) = open_body s seqn req r.
Proof. unfold open_packet. rewrite 2app_assoc. apply skip_app. rewrite !app_length, !le_bytes_length. reflexivity. Qed.

(** A client with an acknowledged connection opens a channel. *)
Lemma opens b0 ini y tr uid s seqn req r w o1 o2 l : yreach b0 ini y tr -> y_q y = [] ->
  uacked uid (tproj tr) -> uboundary uid (tproj tr) -> vlinked uid (y_t y) ->
  (copened (cproj tr) + ctotal cbad (cproj tr) < 32)%nat -> wf_sechdr s -> is_u32 seqn -> is_u32 req -> wf_openreq r ->
  bytes_ok (open_body s seqn req r) -> Z.of_nat (length (open_body s seqn req r)) <= 4060 -> oracle_ok o1 -> oracle_ok o2 -> takes_all o2 ->
  exists y1 r1 y2 tr2 ch m,
    let tr' := tr ++ r1 :: tr2 in
    y_step y (YNet (EvData uid (RxBytes (open_packet s seqn req r)) w) []) = Some (y1, r1) /\
    ydrain y1 (o1 :: o2 :: l) = Some (y2, tr2) /\ ~ copen ch (cproj tr) /\
    m = rsp_of uid ch (open_rsp ch (cstart ch (cproj tr)) req (rq_handle (oq_hdr r)) (o_rnd o1 mod 2147483647) (o_t1 o1) (o_t2 o1) (oq_life r)) /\
    (forall u, written u (r1 :: tr2) = if u =? uid then [(packet_of KOpn m, length (packet_of KOpn m))] else []) /\
    yreach b0 ini y2 tr' /\ yready uid ch y2 tr' /\ ctoken ch (cproj tr') = o_rnd o1 mod 2147483647 /\ clast ch (cproj tr') = seqn /\
    csent ch (cproj tr') = 1%nat /\ csession ch (cproj tr') = None /\ cstart ch (cproj tr') = cstart ch (cproj tr) /\ sproj tr' = sproj tr /\
    conns_used tr' = conns_used tr /\ chans_used tr' = S (chans_used tr).
Proof.
  intros HR Q0 HA HB Hlk Hroom Hs H1 H2 Hr Hbt Hlen Ho1 Ho2 (n & Ew & Hn). pose proof (y_reach_inv _ _ _ _ HR) as HI.
  pose proof (yi_t _ _ _ _ HI) as HTR. set (p := open_packet s seqn req r).
  assert (Lp : Z.of_nat (length p) = 12 + Z.of_nat (length (open_body s seqn req r))) by (unfold p; rewrite open_packet_len; lia).
  assert (Sp : sized p).
  { split; [|split; [lia|]].
    - unfold p, open_packet. assert (bytes_ok [79; 80; 78; 70]) by (repeat constructor; unfold is_byte; lia). bts.
    - rewrite Lp. unfold p, open_packet. rewrite le_at_app by reflexivity. rewrite le_at_here; [reflexivity|]. unfold is_u32. lia. }
  assert (Ep : tev_ok (EvData uid (RxBytes p) w)) by apply Sp.
  destruct (delivered _ _ _ uid w HTR (acked_live _ _ _ _ HTR HA) HB Hlk p HA Sp) as (v1 & os1 & tail & E1 & Lt & (D & _)).
  { pose proof (W_sechdr s). clear - Lp. unfold p. rewrite open_packet_len. lia. }
  { lia. }
  specialize (D eq_refl). cbv zeta in D.
  assert (Ec : le_at 8 p = 0). { unfold p, open_packet. rewrite app_assoc, le_at_app by (rewrite app_length, le_bytes_length; reflexivity). apply le_at_here. unfold is_u32. lia. }
  rewrite Ec in D. change (chunk_code (nth 3 p 0)) with 2 in D. subst os1.
  set (e := EvData uid (RxBytes p) w) in *. set (r1 := RT e [UFwd KOpn uid 0 2 (Z.of_nat (length p)) (skipn 12 p ++ tail); UArm uid 30000000]).
  set (x := mkUm uid 0 2 (Z.of_nat (length p)) (skipn 12 p ++ tail)).
  set (y1 := mkY v1 (y_c y) (y_s y) [IFwd KOpn x]).
  assert (S1 : y_step y (YNet e []) = Some (y1, r1)). { cbn [y_step]. unfold y_tsrv. rewrite E1, Q0, kept_nil. reflexivity. }
  assert (R1 : yreach b0 ini y1 (tr ++ [r1])) by (apply (yr_step _ _ _ _ (YNet e []) _ _ HR); [exact Ep|exact Hlk|exact S1]).
  (* transport after the packet *)
  assert (HA1 : uacked uid (tproj (tr ++ [r1])) /\ uboundary uid (tproj (tr ++ [r1])) /\ vlinked uid v1).
  { unfold r1. rewrite tprojt. unfold uacked, uboundary. rewrite uview_snoc. unfold uview_next.
    cbn [existsb is_ufree is_uack is_uarm orb g_acked g_chan g_rx]. rewrite Z.eqb_refl. cbn [orb]. rewrite orb_false_r.
    split; [exact HA|]. split; [reflexivity|]. eapply link_data; eauto using acked_live. cbn. intuition discriminate. }
  destruct HA1 as (HA1 & HB1 & HL1).
  (* the channel layer *)
  pose proof (y_reach_inv _ _ _ _ R1) as HI1. pose proof (yi_q _ _ _ _ HI1) as Hq1. cbn [y_q y1] in Hq1. inversion Hq1 as [|x0 q0 Hok _ E0]; subst x0 q0. clear Hq1.
  destruct Hok as (Hx & _). pose proof Ho1 as (Hj1 & Hrn & Ht1 & Ht2).
  pose proof (yi_c _ _ _ _ HI1) as HCR. unfold r1 in HCR. rewrite cprojt in HCR. cbn [y_c y1] in HCR.
  assert (Eo : octets x (o_j o1) = open_body s seqn req r ++ tail ++ skipn (length p) (o_j o1)).
  { unfold octets, x. cbn [um_len um_data]. rewrite Nat2Z.id, firstn_all2.
    - unfold p at 1. rewrite open_packet_skip, <- app_assoc. reflexivity.
    - unfold p at 1. rewrite open_packet_skip, app_length, Lt. lia. }
  destruct (chan_opens _ _ _ uid s seqn req r x (o_j o1) (o_rnd o1) (o_t1 o1) (o_t2 o1) _ HCR (conj Hx (conj Hj1 (conj Hrn (conj Ht1 Ht2)))) Hroom Hs H1 H2 Hr Eo eq_refl)
    as (v2 & ch & m & E2 & Hch & Hno & Em & HC & K1 & K2 & K3 & K4 & K5).
  destruct (hop_c _ _ _ _ R1 _ _ o1 (CvOpen x (o_j o1) (o_rnd o1) (o_t1 o1) (o_t2 o1)) _ _ eq_refl Ho1 eq_refl E2) as [S2 R2].
  set (r2 := RC (CvOpen x (o_j o1) (o_rnd o1) (o_t1 o1) (o_t2 o1)) [CTx KOpn m]) in *. set (y2 := mkY _ _ _ _) in S2, R2.
  assert (Q2 : y_q y2 = [ITx KOpn m]) by reflexivity.
  pose proof (y_reach_inv _ _ _ _ R2) as HI2. pose proof (yi_q _ _ _ _ HI2) as Hq1. rewrite Q2 in Hq1. inversion Hq1 as [|x0 q0 Hok _ E0]; subst x0 q0. clear Hq1.
  destruct Hok as (Hm & _). pose proof (yi_t _ _ _ _ HI2) as HT2. unfold r2 in HT2. rewrite tprojc in HT2. cbn [y_t y2 y1] in HT2.
  assert (Emu : um_conn m = uid) by now rewrite Em. assert (Emc : um_chan m = ch) by now rewrite Em.
  destruct (tx_written _ _ _ KOpn m n HT2 Hm) as (v3 & E3 & HL3); [rewrite Emu; exact HA1|rewrite Emu; exact HL1|auto|].
  rewrite Emu in E3, HL3. set (P := packet_of KOpn m) in *.
  assert (LP : (length P <= n)%nat).
  { unfold P. rewrite Em. unfold packet_of. rewrite !app_length, !le_bytes_length. unfold rsp_of. cbn [um_len um_data um_chunk um_chan kind_octets length]. rewrite firstn_length, Nat2Z.id, Nat.min_id, open_len. lia. }
  rewrite Nat.min_r in E3 by exact LP. assert (E3' : tsrv_step (y_t y2) (EvMsg KOpn m (o_w o2)) = Some (v3, [UTx uid P (length P)])) by (rewrite Ew; exact E3).
  destruct (hop_t _ _ _ _ R2 _ _ _ _ _ _ Q2 Ho2 eq_refl E3') as [S3 R3]. rewrite Ew in S3, R3.
  set (r3 := RT (EvMsg KOpn m (Some n)) [UTx uid P (length P)]) in *. set (y3 := mkY _ _ _ _) in S3, R3.
  assert (N1 : y_q y1 <> []) by discriminate. assert (N2 : y_q y2 <> []) by (rewrite Q2; discriminate).
  assert (T3 : tr ++ [r1; r2; r3] = ((tr ++ [r1]) ++ [r2]) ++ [r3]) by now rewrite <- !app_assoc.
  exists y1, r1, y3, [r2; r3], ch, m. cbv zeta. rewrite T3.
  split; [exact S1|]. split. { rewrite (drain_hop _ _ _ _ _ N1 S2), (drain_hop _ _ _ _ _ N2 S3), drain_done by reflexivity. reflexivity. }
  split; [exact Hno|]. split; [exact Em|].
  split. { intros u. unfold written, r1, r2, r3. cbn [flat_map app]. rewrite Z.eqb_sym. destruct (u =? uid); reflexivity. }
  split; [exact R3|].
  assert (HT3 : tready uid ch v3 (tproj (((tr ++ [r1]) ++ [r2]) ++ [r3]))).
  { unfold r3. rewrite tprojt. unfold r2. rewrite tprojc. unfold tready, uacked, uboundary, uchan. rewrite uview_snoc. unfold uview_next.
    unfold uacked in HA1. rewrite HA1, Emu, Emc, Z.eqb_refl. cbn [andb existsb is_ufree is_uarm orb g_acked g_chan g_rx]. auto. }
  split. { apply ready_iff. split; [reflexivity|]. split; [exact HT3|]. unfold r3, r2, r1. prj. exact HC. }
  pose proof (ci_tot _ _ (UaChanRuns.reach_inv _ _ _ HCR)) as Tc. unfold r3, r2, r1, conns_used, chans_used, copened. prj. rewrite !utotal_snoc, !ctotal_snoc.
  split; [exact K1|]. split; [exact K2|]. split; [exact K3|]. split; [exact K4|]. split; [exact K5|]. split; [reflexivity|].
  revert Tc. generalize (utotal ustarts (tproj tr)), (utotal ufrees (tproj tr)), (utotal unotimer (tproj tr)),
    (ctotal copens (cproj tr)), (ctotal cfrees (cproj tr)), (ctotal cbad (cproj tr)). intros n1 n2 n3 n4 n5 n6 Tc.
  unfold e, ustarts, ufrees, unotimer, copens, cfrees, cbad, ucount, ccount. cbn [fst snd filter length]. split; lia.
Qed.

(** Somebody connects, says hello and opens a channel. *)
Lemma newcomer b0 ini y tr h n s seqn req r w o1 o2 l : yreach b0 ini y tr -> y_q y = [] ->
  (utotal ustarts (tproj tr) - utotal ufrees (tproj tr) + utotal unotimer (tproj tr) < 32)%nat ->
  (copened (cproj tr) + ctotal cbad (cproj tr) < 32)%nat ->
  wf_hello h -> bytes_ok (hello_packet h) -> Z.of_nat (length (hello_packet h)) <= 4096 -> 28 <= Z.of_nat n ->
  wf_sechdr s -> is_u32 seqn -> is_u32 req -> wf_openreq r ->
  bytes_ok (open_body s seqn req r) -> Z.of_nat (length (open_body s seqn req r)) <= 4060 -> oracle_ok o1 -> oracle_ok o2 -> takes_all o2 ->
  exists uid y1 r1 y2 r2 y3 r3 y4 tr4 ch m,
    let tr' := tr ++ r1 :: r2 :: r3 :: tr4 in
    y_step y (YNet (EvAccept true true true) []) = Some (y1, r1) /\
    y_step y1 (YNet (EvData uid (RxBytes (hello_packet h)) (Some n)) []) = Some (y2, r2) /\
    y_step y2 (YNet (EvData uid (RxBytes (open_packet s seqn req r)) w) []) = Some (y3, r3) /\
    ydrain y3 (o1 :: o2 :: l) = Some (y4, tr4) /\ ~ ulive uid (tproj tr) /\ ~ copen ch (cproj tr) /\
    m = rsp_of uid ch (open_rsp ch (cstart ch (cproj tr)) req (rq_handle (oq_hdr r)) (o_rnd o1 mod 2147483647) (o_t1 o1) (o_t2 o1) (oq_life r)) /\
    (forall u, written u (r1 :: r2 :: r3 :: tr4) = if u =? uid then [(ack_packet, 28%nat); (packet_of KOpn m, length (packet_of KOpn m))] else []) /\
    yreach b0 ini y4 tr' /\ yready uid ch y4 tr' /\ ctoken ch (cproj tr') = o_rnd o1 mod 2147483647 /\ clast ch (cproj tr') = seqn /\
    csent ch (cproj tr') = 1%nat /\ csession ch (cproj tr') = None /\ cstart ch (cproj tr') = cstart ch (cproj tr) /\ sproj tr' = sproj tr /\
    conns_used tr' = S (conns_used tr) /\ chans_used tr' = S (chans_used tr).
Proof.
  intros HR Q0 Hrt Hrc Hh Hhb Hhl Hn Hs H1 H2 Hr Hbt Hlen Ho1 Ho2 Hw. pose proof (y_reach_inv _ _ _ _ HR) as HI.
  destruct (accept_ready _ _ _ (yi_t _ _ _ _ HI) Hrt) as (v1 & uid & E1 & Hu & Hnl & L1 & A1 & A2 & A3 & A4).
  set (e1 := EvAccept true true true) in *. set (r1 := RT e1 [UArm uid 30000000]). set (y1 := mkY v1 (y_c y) (y_s y) []).
  assert (S1 : y_step y (YNet e1 []) = Some (y1, r1)). { cbn [y_step]. unfold y_tsrv. rewrite E1, Q0, kept_nil. reflexivity. }
  assert (R1 : yreach b0 ini y1 (tr ++ [r1])) by (apply (yr_step _ _ _ _ (YNet e1 []) _ _ HR); [exact I|reflexivity|exact S1]).
  pose proof (y_reach_inv _ _ _ _ R1) as HI1. pose proof (yi_t _ _ _ _ HI1) as HT1.
  assert (P1 : tproj (tr ++ [r1]) = tproj tr ++ [(e1, [UArm uid 30000000])]) by apply tprojt. rewrite P1 in HT1.
  destruct (hello_ready _ _ _ uid h n HT1 A1 A2 A3 L1 Hh Hhb Hhl Hn) as (v2 & E2 & L2 & B1 & B2 & B3).
  set (e2 := EvData uid (RxBytes (hello_packet h)) (Some n)) in *. set (os2 := [UTx uid ack_packet 28; UDisarm uid; UArm uid 30000000]) in *.
  set (r2 := RT e2 os2). set (y2 := mkY v2 (y_c y) (y_s y) []).
  assert (S2 : y_step y1 (YNet e2 []) = Some (y2, r2)). { cbn [y_step]. unfold y_tsrv. rewrite E2, kept_nil. reflexivity. }
  assert (R2 : yreach b0 ini y2 ((tr ++ [r1]) ++ [r2])) by (apply (yr_step _ _ _ _ (YNet e2 []) _ _ R1); [exact Hhb|exact L1|exact S2]).
  assert (P2 : tproj ((tr ++ [r1]) ++ [r2]) = (tproj tr ++ [(e1, [UArm uid 30000000])]) ++ [(e2, os2)]) by (unfold r2; now rewrite tprojt, P1).
  assert (C2 : cproj ((tr ++ [r1]) ++ [r2]) = cproj tr) by (unfold r2, r1; now prj).
  assert (D2 : sproj ((tr ++ [r1]) ++ [r2]) = sproj tr) by (unfold r2, r1; now prj).
  rewrite <- P2 in B1, B2. rewrite <- C2 in Hrc.
  destruct (opens _ _ _ _ uid s seqn req r w o1 o2 l R2 eq_refl B1 B2 L2 Hrc Hs H1 H2 Hr Hbt Hlen Ho1 Ho2 Hw)
    as (y3 & r3 & y4 & tr4 & ch & m & S3 & D3 & X1 & X2 & X3 & X4 & X5 & X6 & X7 & X8 & X9 & X10 & X11 & X12 & X13). cbv zeta in *. rewrite C2 in X1, X2, X10. rewrite D2 in X11.
  assert (T : tr ++ r1 :: r2 :: r3 :: tr4 = ((tr ++ [r1]) ++ [r2]) ++ r3 :: tr4) by now rewrite <- !app_assoc.
  exists uid, y1, r1, y2, r2, y3, r3, y4, tr4, ch, m. cbv zeta. rewrite T.
  split; [exact S1|]. split; [exact S2|]. split; [exact S3|]. split; [exact D3|]. split; [exact Hnl|]. split; [exact X1|]. split; [exact X2|].
  split. { intros u. specialize (X3 u). unfold written in *. cbn [flat_map r1 r2 os2 app]. rewrite Z.eqb_sym. rewrite !app_nil_r.
    destruct (u =? uid); cbn [app]; [f_equal|]; exact X3. }
  split; [exact X4|]. split; [exact X5|]. split; [exact X6|]. split; [exact X7|]. split; [exact X8|]. split; [exact X9|]. split; [exact X10|]. split; [exact X11|].
  rewrite X12, X13. pose proof (UaTcpFacts.total_counts _ _ _ (yi_t _ _ _ _ HI)) as (Tt & _). unfold conns_used, chans_used. rewrite P2, C2, !utotal_snoc.
  revert Tt. generalize (utotal ustarts (tproj tr)), (utotal ufrees (tproj tr)), (utotal unotimer (tproj tr)). intros a b c Tt.
  unfold ustarts, ufrees, unotimer, ucount, os2, e1, e2. cbn [fst snd filter length]. split; lia.
Qed.

(** A client with a channel closes its socket. *)
Lemma leaves b0 ini y tr uid ch w o l : yreach b0 ini y tr -> yready uid ch y tr -> oracle_ok o ->
  exists y1 r1 y2 tr2, let tr' := tr ++ r1 :: tr2 in
    y_step y (YNet (EvData uid RxErr w) []) = Some (y1, r1) /\ ydrain y1 (o :: l) = Some (y2, tr2) /\
    (forall u, written u (r1 :: tr2) = []) /\ yreach b0 ini y2 tr' /\ y_q y2 = [] /\ ~ ulive uid (tproj tr') /\ ~ copen ch (cproj tr') /\
    sproj tr' = sproj tr /\ S (conns_used tr') = conns_used tr /\ S (chans_used tr') = chans_used tr.
Proof.
  intros HR HD Ho. destruct HD as [Q0 HA _ HL Hch Hop Hcn]. pose proof (y_reach_inv _ _ _ _ HR) as HI. pose proof (yi_t _ _ _ _ HI) as HT.
  pose proof (acked_live _ _ _ _ HT HA) as Hlv. pose proof (UaTcpFacts.live_range _ _ _ _ HT Hlv) as Hu.
  destruct (readerr_total _ _ _ uid w HT Hlv HL) as (v1 & E1). rewrite Hch in E1. unfold closing in E1. cbn [app] in E1.
  set (e := EvData uid RxErr w) in *. set (r1 := RT e [URelInd uid ch; UDisarm uid; UFree uid]). set (y1 := mkY v1 (y_c y) (y_s y) [IRelInd uid ch]).
  assert (S1 : y_step y (YNet e []) = Some (y1, r1)). { cbn [y_step]. unfold y_tsrv. rewrite E1, Q0, kept_nil. reflexivity. }
  assert (R1 : yreach b0 ini y1 (tr ++ [r1])) by (apply (yr_step _ _ _ _ (YNet e []) _ _ HR); [exact I|exact HL|exact S1]).
  pose proof (y_reach_inv _ _ _ _ R1) as HI1. pose proof (yi_c _ _ _ _ HI1) as HC1. unfold r1 in HC1. rewrite cprojt in HC1. cbn [y_c y1] in HC1.
  destruct (open_u32 _ _ _ _ HC1 Hop) as (Hc & _).
  assert (Ok : cev_ok (CvRelInd uid ch)) by (cbn; unfold is_u32; lia).
  destruct (relind_fact _ _ _ HC1 uid ch Ok Hc) as [F _]. destruct (F Hop) as (v2 & E2).
  destruct (hop_c _ _ _ _ R1 _ _ o (CvRelInd uid ch) _ _ eq_refl Ho eq_refl E2) as [S2 R2].
  set (r2 := RC (CvRelInd uid ch) [CFree ch]) in *. set (y2 := mkY _ _ _ _) in S2, R2.
  assert (N1 : y_q y1 <> []) by discriminate.
  assert (T2 : tr ++ [r1; r2] = (tr ++ [r1]) ++ [r2]) by now rewrite <- app_assoc.
  exists y1, r1, y2, [r2]. cbv zeta. rewrite T2. split; [exact S1|].
  split. { rewrite (drain_hop _ _ _ _ _ N1 S2), drain_done by reflexivity. reflexivity. }
  split. { intros u. reflexivity. }
  split; [exact R2|]. split; [reflexivity|].
  pose proof (y_reach_inv _ _ _ _ R2) as HI2. pose proof (yi_t _ _ _ _ HI2) as HT2. pose proof (yi_c _ _ _ _ HI2) as HC2.
  pose proof (total_counts _ _ _ HT2) as (Tt & _). pose proof (ci_tot _ _ (UaChanRuns.reach_inv _ _ _ HC2)) as Tc.
  unfold r2, r1, conns_used, chans_used, copened, ulive, copen in *. revert Tt Tc. prj. rewrite uview_snoc, cview_snoc, !utotal_snoc, !ctotal_snoc.
  generalize (utotal ustarts (tproj tr)), (utotal ufrees (tproj tr)), (utotal unotimer (tproj tr)),
    (ctotal copens (cproj tr)), (ctotal cfrees (cproj tr)), (ctotal cbad (cproj tr)). intros n1 n2 n3 n4 n5 n6.
  unfold e, ustarts, ufrees, unotimer, copens, cfrees, cbad, ucount, ccount, uview_next, cview_next. cbn [fst snd filter length existsb is_ufree is_uarm is_cfree orb g_starts g_frees w_opens w_frees ucount ccount taken].
  unfold ucount, ccount. cbn [filter is_ufree is_cfree is_uarm]. rewrite !Z.eqb_refl. cbn [length w_opens w_frees]. intros Tt Tc.
  split; [lia|]. split; [lia|]. split; [reflexivity|]. split; lia.
Qed.

(** * Dialogues *)
Lemma asked b0 ini y tr uid ch q req w l : yreach b0 ini y tr -> yready uid ch y tr -> q_fits q -> in_table q -> is_u32 req -> calm l ->
  let sess := csession ch (cproj tr) in
  exists y2 tr2 os m o, let tr' := tr ++ tr2 in
    yask uid ch q req w l y tr = Some (y2, tr2) /\ In o l /\ parse m (o_j o) = PReq q /\
    served (sproj tr) (mkEh uid ch req (match sess with Some s => s | None => invalidSuid end)) (o_t1 o) q os /\
    match answer_in os with Some a => answered uid ch tr tr2 req a | None => silent tr2 end /\
    yreach b0 ini y2 tr' /\ yready uid ch y2 tr' /\ ctoken ch (cproj tr') = ctoken ch (cproj tr) /\ cstart ch (cproj tr') = cstart ch (cproj tr) /\
    clast ch (cproj tr') = (clast ch (cproj tr) + 1) mod 4294967296 /\
    csent ch (cproj tr') = (csent ch (cproj tr) + match answer_in os with None => 0 | Some _ => 1 end)%nat /\
    csession ch (cproj tr') = attached sess os /\ sproj tr' = sproj tr ++ [(SvInd m (o_j o) (o_t1 o), os)].
Proof.
  intros HR Hrd (Hq1 & Hq2 & Hq3) Hit Hreq (Hl1 & Hl2) sess.
  destruct (exchange b0 ini y tr uid ch q req w l HR Hrd Hq1 Hq2 Hit Hreq Hq3 Hl1 Hl2)
    as (y1 & r1 & y2 & tr2 & os & m & o & S1 & D1 & I1 & Hp & Sv & W & X).
  exists y2, (r1 :: tr2), os, m, o. cbv zeta in *. unfold yask. rewrite S1, D1. split; [reflexivity|]. split; [exact I1|]. split; [exact Hp|]. split; [exact Sv|].
  split; [|exact X]. unfold answered, silent. destruct (answer_in os); [exact W|]. intros u. rewrite W. now destruct (u =? uid).
Qed.

Lemma not_live_count b0 ini y tr sid : yreach b0 ini y tr -> 1 <= sid <= 32 -> ~ live sid (sproj tr) -> w_new (sview_of sid (sproj tr)) = w_end (sview_of sid (sproj tr)).
Proof.
  intros HR Hs Hn. pose proof (y_reach_inv _ _ _ _ HR) as HI. pose proof (yi_s _ _ _ _ HI) as HSR.
  destruct (proj1 (running_iff _ _ HSR) (yi_run _ _ _ _ HI)) as (v & Ev). rewrite Ev in HSR. apply sreach_inv in HSR.
  destruct (sess_in _ _ _ HSR Hs) as (s & _ & HS & _). pose proof (SO_live _ _ _ HS) as E. unfold live in Hn. rewrite E in Hn. unfold sact in Hn.
  unfold SO in HS. destruct (ss_st s); [apply HS|congruence|congruence].
Qed.
Lemma created_id h sid now hd tmo mx : rsession (reply h (create_rsp sid now hd tmo mx)) = sid.
Proof. reflexivity. Qed.

Lemma answer_one os h a : os = [SSend (reply h a)] -> answer_in os = Some a. Proof. intros ->. reflexivity. Qed.

Section Dialogue.
Context (b0 : list Z) (ini : list (Z * Z)) (y : usys) (tr : ytrace) (uid ch req : Z) (w : option nat) (l : list oracle).
Hypotheses (HR : yreach b0 ini y tr) (Hrd : yready uid ch y tr) (Hreq : is_u32 req) (Hl : calm l).

Lemma create_ok rc : q_fits (QCre rc) -> (nlive (sproj tr) < 32)%nat ->
  exists sid y2 tr2 o, yask uid ch (QCre rc) req w l y tr = Some (y2, tr2) /\ In o l /\ 1 <= sid <= 32 /\ ~ live sid (sproj tr) /\
    answered uid ch tr tr2 req (create_rsp sid (o_t1 o) (rq_handle (cs_hdr rc)) (cs_tmo rc) (cs_max rc)) /\
    yreach b0 ini y2 (tr ++ tr2) /\ yready uid ch y2 (tr ++ tr2) /\ live sid (sproj (tr ++ tr2)) /\
    (forall s, s <> sid -> sview_of s (sproj (tr ++ tr2)) = sview_of s (sproj tr)) /\ csession ch (cproj (tr ++ tr2)) = csession ch (cproj tr).
Proof.
  intros Hq Hn. destruct (asked _ _ _ _ uid ch (QCre rc) req w l HR Hrd Hq I Hreq Hl) as (y2 & tr2 & os & m & o & E & I1 & Hp & Sv & A & R & Rd & _ & _ & _ & _ & Cs & Sp).
  cbv zeta in *. inversion Sv as [|r0 Hf|r0 sid Hf Hs Hnl Eo| | | | | | ]; subst; [lia|].
  exists sid, y2, tr2, o. split; [exact E|]. split; [exact I1|]. split; [exact Hs|]. split; [exact Hnl|]. split; [exact A|]. split; [exact R|]. split; [exact Rd|].
  rewrite Sp. unfold live, liveb. split; [|split].
  - rewrite sview_snoc. unfold sview_next. rewrite Hp, created_id, Z.eqb_refl. cbn [w_new w_end]. rewrite (not_live_count _ _ _ _ _ HR Hs Hnl). apply Nat.eqb_refl.
  - intros s Hne. rewrite sview_snoc. unfold sview_next. rewrite Hp, created_id. destruct (Z.eqb_spec sid s); [congruence|reflexivity].
  - exact Cs.
Qed.
Lemma activate_ok ra sid : q_fits (QAct ra) -> named (QAct ra) = Some sid -> live sid (sproj tr) ->
  exists y2 tr2 o, yask uid ch (QAct ra) req w l y tr = Some (y2, tr2) /\ In o l /\
    answered uid ch tr tr2 req (activate_rsp (o_t1 o) (rq_handle (as_hdr ra))) /\
    yreach b0 ini y2 (tr ++ tr2) /\ yready uid ch y2 (tr ++ tr2) /\ active sid ch (tr ++ tr2) /\
    (forall s, liveb s (sproj (tr ++ tr2)) = liveb s (sproj tr)).
Proof.
  intros Hq Hn Hlv. pose proof (y_reach_inv _ _ _ _ HR) as HI. pose proof (yi_s _ _ _ _ HI) as HSR.
  destruct (proj1 (running_iff _ _ HSR) (yi_run _ _ _ _ HI)) as (v & Ev). rewrite Ev in HSR. apply sreach_inv in HSR.
  assert (Hit : in_table (QAct ra)). { intros s Es. assert (s = sid) by congruence. subst s. exact (UaServiceRuns.live_range _ _ _ HSR Hlv). }
  destruct (asked _ _ _ _ uid ch (QAct ra) req w l HR Hrd Hq Hit Hreq Hl) as (y2 & tr2 & os & m & o & E & I1 & Hp & Sv & A & R & Rd & _ & _ & _ & _ & Cs & Sp).
  cbv zeta in *. inversion Sv as [| | |r0 s0 Hn0 Hl0 Eo|r0 Hno| | | | ]; subst.
  2:{ exfalso. destruct (Hno _ Hn) as [_ X]. auto. }
  assert (s0 = sid) by congruence. subst s0.
  exists y2, tr2, o. split; [exact E|]. split; [exact I1|]. split; [exact A|]. split; [exact R|]. split; [exact Rd|].
  assert (V : forall s, sview_of s (sproj (tr ++ tr2)) = if sid =? s then mkSw (w_new (sview_of s (sproj tr))) (w_end (sview_of s (sproj tr))) (Some ch) else sview_of s (sproj tr)).
  { intros s. rewrite Sp, sview_snoc. unfold sview_next. rewrite Hp. reflexivity. }
  unfold active, live, bound, liveb. split.
  - rewrite !V, Z.eqb_refl. split; [exact Hlv|]. split; [reflexivity|]. exact Cs.
  - intros s. rewrite V. now destruct (sid =? s).
Qed.
Lemma read_ok rr sid : q_fits (QRead rr) -> active sid ch tr ->
  exists y2 tr2 o, yask uid ch (QRead rr) req w l y tr = Some (y2, tr2) /\ In o l /\
    answered uid ch tr tr2 req (read_rsp (o_t1 o) (rq_handle (rr_hdr rr))) /\
    yreach b0 ini y2 (tr ++ tr2) /\ yready uid ch y2 (tr ++ tr2) /\ active sid ch (tr ++ tr2) /\
    (forall s, sview_of s (sproj (tr ++ tr2)) = sview_of s (sproj tr)).
Proof.
  intros Hq (Hlv & Hbd & Hse).
  destruct (asked _ _ _ _ uid ch (QRead rr) req w l HR Hrd Hq I Hreq Hl) as (y2 & tr2 & os & m & o & E & I1 & Hp & Sv & A & R & Rd & _ & _ & _ & _ & Cs & Sp).
  cbv zeta in *. rewrite Hse in *. inversion Sv as [| | | | | | |r0 Hl0 Hb0 Eo|r0 Ho Hno]; subst.
  2:{ exfalso. cbn [e_sess e_chan] in Hno. auto. }
  exists y2, tr2, o. split; [exact E|]. split; [exact I1|]. split; [exact A|]. split; [exact R|]. split; [exact Rd|].
  assert (V : forall s, sview_of s (sproj (tr ++ tr2)) = sview_of s (sproj tr)).
  { intros s. rewrite Sp, sview_snoc. unfold sview_next. rewrite Hp. reflexivity. }
  split; [|exact V]. unfold active, live, bound, liveb. rewrite V. split; [exact Hlv|]. split; [exact Hbd|exact Cs].
Qed.
Lemma close_ok rl sid : q_fits (QClo rl) -> named (QClo rl) = Some sid -> live sid (sproj tr) ->
  exists y2 tr2 o, yask uid ch (QClo rl) req w l y tr = Some (y2, tr2) /\ In o l /\
    answered uid ch tr tr2 req (close_session_rsp (o_t1 o) (rq_handle (cl_hdr rl))) /\
    yreach b0 ini y2 (tr ++ tr2) /\ yready uid ch y2 (tr ++ tr2) /\ ~ live sid (sproj (tr ++ tr2)) /\
    (forall s, s <> sid -> sview_of s (sproj (tr ++ tr2)) = sview_of s (sproj tr)) /\ csession ch (cproj (tr ++ tr2)) = csession ch (cproj tr).
Proof.
  intros Hq Hn Hlv. pose proof (y_reach_inv _ _ _ _ HR) as HI. pose proof (yi_s _ _ _ _ HI) as HSR.
  destruct (proj1 (running_iff _ _ HSR) (yi_run _ _ _ _ HI)) as (v & Ev). rewrite Ev in HSR. apply sreach_inv in HSR.
  assert (Hit : in_table (QClo rl)). { intros s Es. assert (s = sid) by congruence. subst s. exact (UaServiceRuns.live_range _ _ _ HSR Hlv). }
  destruct (asked _ _ _ _ uid ch (QClo rl) req w l HR Hrd Hq Hit Hreq Hl) as (y2 & tr2 & os & m & o & E & I1 & Hp & Sv & A & R & Rd & _ & _ & _ & _ & Cs & Sp).
  cbv zeta in *. inversion Sv as [| | | | |r0 s0 Hn0 Hl0 Eo|r0 Hno| | ]; subst.
  2:{ exfalso. destruct (Hno _ Hn) as [_ X]. auto. }
  assert (s0 = sid) by congruence. subst s0.
  exists y2, tr2, o. split; [exact E|]. split; [exact I1|]. split; [exact A|]. split; [exact R|]. split; [exact Rd|].
  assert (V : forall s, sview_of s (sproj (tr ++ tr2)) = if sid =? s then mkSw (w_new (sview_of s (sproj tr))) (S (w_end (sview_of s (sproj tr)))) None else sview_of s (sproj tr)).
  { intros s. rewrite Sp, sview_snoc. unfold sview_next. rewrite Hp. unfold named in Hn. cbn [q_hdr] in Hn. destruct (n_val (rq_token (cl_hdr rl))); try discriminate Hn. injection Hn as ->. reflexivity. }
  unfold live, liveb in *. split; [|split].
  - rewrite !V, Z.eqb_refl. cbn [w_new w_end]. apply Nat.eqb_eq in Hlv. rewrite Hlv. intros X. apply Nat.eqb_eq in X. lia.
  - intros s Hne. rewrite V. destruct (Z.eqb_spec sid s); [congruence|reflexivity].
  - exact Cs.
Qed.
End Dialogue.

(** Any number of reads. *)
Lemma reads_ok b0 ini uid ch w l sid rs : calm l -> Forall (fun x => q_fits (QRead (fst x)) /\ is_u32 (snd x)) rs -> forall y tr,
  yreach b0 ini y tr -> yready uid ch y tr -> active sid ch tr ->
  exists y2 trs, yreads uid ch rs w l y tr = Some (y2, trs) /\ read_answers uid ch l tr rs trs /\
    yreach b0 ini y2 (tr ++ concat trs) /\ yready uid ch y2 (tr ++ concat trs) /\ active sid ch (tr ++ concat trs).
Proof.
  intros Hl Hrs. induction Hrs as [|[r req] rs [Hq Hreq] Hrs IH]; intros y tr HR Hrd Hac.
  - exists y, []. cbn [yreads concat]. rewrite app_nil_r. repeat split; auto using ra_nil; apply Hrd || apply Hac.
  - cbn [fst snd] in *. destruct (read_ok _ _ _ _ uid ch req w l HR Hrd Hreq Hl r sid Hq Hac) as (y1 & tr1 & o & E & I1 & A & R1 & D1 & C1 & _).
    destruct (IH _ _ R1 D1 C1) as (y2 & trs & E2 & A2 & R2 & D2 & C2). exists y2, (tr1 :: trs). cbn [yreads concat]. rewrite E, E2, app_assoc.
    split; [reflexivity|]. split; [econstructor; eauto|]. auto.
Qed.
