(** Theorems about a client of the secure channel library with the deployed OPC UA server, C146, C147. *)
From Verif Require Import Base ModbusCodecSpec ModbusClientModel UaCodecModel UaCodecSpec UaTcpModel UaTcpSpec UaTcpProofs UaTcpFacts UaTcpRuns UaChanModel UaChanSpec UaChanProofs UaChanFacts
  UaServiceModel UaServiceSpec UaSystemModel UaSystemSpec UaSystemProofs UaSystemFacts UaSystemRuns UaSystemProgress Props_UaTcp Props_UaChan Props_UaService Props_UaSystem Props_UaDialogue
  ProtoConnModel ProtoConnSpec SecLibModel SecLibSpec SecLibRuns SecLibPair Props_SecPair.
Local Open Scope Z_scope.

(** * C146 *)

(** The packets of the library's client as the server's specification writes them. *)
Definition lib_hello : hello := mkHello 0 65536 65536 65536 5000 [].
Lemma lib_hello_eq : UaSystemSpec.hello_packet lib_hello = ProtoConnSpec.hello_packet. Proof. vm_compute. reflexivity. Qed.
Lemma lib_open_eq : open_packet sechdr0 0 0 openreq0 = opn_req. Proof. vm_compute. reflexivity. Qed.
Lemma lib_rsp_eq uid ch seqn tok t1 t2 : is_u32 ch -> packet_of KOpn (rsp_of uid ch (open_rsp ch seqn 0 0 tok t1 t2 0)) = SecLibSpec.opn_pkt ch seqn 0 tok t1 t2 0.
Proof.
  intros H. unfold packet_of, rsp_of. cbn [um_chunk um_len um_chan um_data]. unfold SecLibSpec.opn_pkt.
  assert (L : Z.of_nat (length (open_rsp ch seqn 0 0 tok t1 t2 0)) = 123) by (unfold open_rsp, rsp_head; rewrite !app_length, !le_bytes_length; vm_compute; reflexivity).
  rewrite L. rewrite firstn_all2 by lia. reflexivity.
Qed.

Lemma lib_opens bc ic n rc rnd t1 t2 tl b0 ini y tr w o1 o2 l : umem_ok bc -> 4096 <= Z.of_nat n ->
  yreach b0 ini y tr -> y_q y = [] ->
  (conns_used tr < 32)%nat -> (chans_used tr < 32)%nat -> oracle_ok o1 -> oracle_ok o2 -> takes_all o2 ->
  exists rsp xc oc uid ch hel opn y1 r1 y2 r2 y3 r3 y4 tr4,
    let tr' := tr ++ r1 :: r2 :: r3 :: tr4 in let ec := dialling n rc rnd t1 t2 tl rsp in
    srun RClient (sch_new bc ic) ec = Some (xc, oc) /\ (exists m i1 i2 i3 i4 i5 i6, xc = mkS SEst (c_co m) i1 i2 i3 i4 i5 i6) /\ wrote oc = [hel; opn] /\
    y_step y (YNet (EvAccept true true true) []) = Some (y1, r1) /\
    y_step y1 (YNet (EvData uid (RxBytes hel) (Some n)) []) = Some (y2, r2) /\
    y_step y2 (YNet (EvData uid (RxBytes opn) w) []) = Some (y3, r3) /\
    ydrain y3 (o1 :: o2 :: l) = Some (y4, tr4) /\
    (forall u, map (fun x => firstn (snd x) (fst x)) (written u (r1 :: r2 :: r3 :: tr4)) = if u =? uid then given ec else []) /\
    ~ ulive uid (tproj tr) /\ ~ copen ch (cproj tr) /\ yreach b0 ini y4 tr' /\ yready uid ch y4 tr' /\ csession ch (cproj tr') = None /\
    sproj tr' = sproj tr /\ conns_used tr' = S (conns_used tr) /\ chans_used tr' = S (chans_used tr).
Proof.
  intros [Mc _] Hn HR Hq Hu Hc O1 O2 T2. destruct ic as [[[[a b] c] d] e].
  destruct (C111_newcomer b0 ini y tr lib_hello n sechdr0 0 0 openreq0 w o1 o2 l HR Hq Hu Hc) as
    (uid & y1 & r1 & y2 & r2 & y3 & r3 & y4 & tr4 & ch & m & X); try assumption.
  { repeat split; try (cbn; unfold is_u32; lia); try constructor; cbn; lia. }
  { apply octetsb_ok; vm_compute; reflexivity. }
  { vm_compute; discriminate. }
  { lia. }
  { repeat constructor; cbn; lia. }
  { unfold is_u32; lia. }
  { unfold is_u32; lia. }
  { unfold wf_openreq, wf_reqhdr, wf_nodeid, wf_extobj, wf_nodeid, wf_str; cbn; unfold is_u16, is_u32, is_i32, is_i64; repeat split; try lia; try constructor. }
  { apply octetsb_ok; vm_compute; reflexivity. }
  { vm_compute; discriminate. }
  cbv zeta in X. destruct X as (S1 & S2 & S3 & D & NL & NO & Em & WR & HR' & RD & _ & _ & _ & SS & _ & SP & CU & HU).
  assert (Uc : is_u32 ch).
  { destruct (y_reach_inv _ _ _ _ HR') as [_ HC _ _ _ _ _]. destruct RD as [_ _ _ _ _ OP _].
    destruct (open_u32 _ _ _ _ HC OP) as (A & _). unfold is_u32; lia. }
  set (sq := cstart ch (cproj tr)) in *. assert (Us : is_u32 sq) by (unfold sq, cstart, is_u32; destruct (cfreed ch (cproj tr) =? 0)%nat; lia).
  set (rsp := SecLibSpec.opn_pkt ch sq 0 (o_rnd o1 mod 2147483647) (o_t1 o1) (o_t2 o1) 0).
  assert (Ep : packet_of KOpn m = rsp) by (rewrite Em; apply (lib_rsp_eq uid ch sq); exact Uc).
  assert (LC : length bc = pktLen) by (assert (Z.of_nat pktLen = 4096) by (vm_compute; reflexivity); lia).
  assert (LA : (length ack_packet <= pktLen)%nat) by (apply le_pkt; vm_compute; discriminate).
  assert (W : forall p : list Z, Z.of_nat (length p) <= 4096 -> firstn (Nat.min n (length p)) p = p) by (intros p Hp; apply firstn_all2; lia).
  eexists rsp, _, _, uid, ch, ProtoConnSpec.hello_packet, opn_req, y1, r1, y2, r2, y3, r3, y4, tr4. cbv zeta. split; [|split; [|split]].
  - unfold dialling, dat. eapply srun_cons; [reflexivity|apply client_dials|]. eapply srun_cons; [reflexivity|apply client_greets|].
    eapply srun_cons; [reflexivity|apply client_ack; exact LC|].
    eapply srun_cons; [reflexivity|apply (client_rsp n); [apply bw_len; [exact LC|exact LA]|exact Uc|exact Us|unfold is_u32; lia]|]. reflexivity.
  - eexists _, _, _, _, _, _, _. reflexivity.
  - unfold wrote. cbn [map fst concat app flat_map]. rewrite !W; [reflexivity|vm_compute; discriminate..].
  - rewrite lib_hello_eq in S2. rewrite lib_open_eq in S3. split; [exact S1|]. split; [exact S2|]. split; [exact S3|]. split; [exact D|]. split.
    { intros u. rewrite WR. destruct (u =? uid); [|reflexivity]. cbn [map fst snd]. rewrite Ep, firstn_all. unfold dialling, dat, given. cbn [flat_map app].
      f_equal. }
    split; [exact NL|]. split; [exact NO|]. split; [exact HR'|]. split; [exact RD|]. split; [exact SS|]. split; [exact SP|]. split; [exact CU|exact HU].
Qed.

(** The library's client connects to a server that has nothing else to do and has a connection and a channel to spare, whatever happened
    on the server before, whatever the memories hold, whatever rand() and the clocks return, the packets being taken and delivered whole:
    the server reads exactly what the client wrote, the client exactly what the server wrote to it; nobody else is written to; the client ends
    up established; and the server's connection is ready for requests on a channel that was not open; one connection and one channel more
    are in use, and the sessions are untouched. *)
Theorem C146_opens bc ic n rc rnd t1 t2 tl b0 ini y tr w o1 o2 l : umem_ok bc -> 4096 <= Z.of_nat n ->
  yreach b0 ini y tr -> y_q y = [] ->
  (conns_used tr < 32)%nat -> (chans_used tr < 32)%nat -> oracle_ok o1 -> oracle_ok o2 -> takes_all o2 ->
  exists rsp xc oc uid ch hel opn y1 r1 y2 r2 y3 r3 y4 tr4,
    let tr' := tr ++ r1 :: r2 :: r3 :: tr4 in let ec := dialling n rc rnd t1 t2 tl rsp in
    srun RClient (sch_new bc ic) ec = Some (xc, oc) /\ s_st xc = SEst /\ wrote oc = [hel; opn] /\
    y_step y (YNet (EvAccept true true true) []) = Some (y1, r1) /\
    y_step y1 (YNet (EvData uid (RxBytes hel) (Some n)) []) = Some (y2, r2) /\
    y_step y2 (YNet (EvData uid (RxBytes opn) w) []) = Some (y3, r3) /\
    ydrain y3 (o1 :: o2 :: l) = Some (y4, tr4) /\
    (forall u, map (fun x => firstn (snd x) (fst x)) (written u (r1 :: r2 :: r3 :: tr4)) = if u =? uid then given ec else []) /\
    ~ ulive uid (tproj tr) /\ ~ copen ch (cproj tr) /\ yreach b0 ini y4 tr' /\ yready uid ch y4 tr' /\ csession ch (cproj tr') = None /\
    sproj tr' = sproj tr /\ conns_used tr' = S (conns_used tr) /\ chans_used tr' = S (chans_used tr).
Proof.
  intros. destruct (lib_opens bc ic n rc rnd t1 t2 tl b0 ini y tr w o1 o2 l) as (rsp & xc & oc & uid & ch & hel & opn & y1 & r1 & y2 & r2 & y3 & r3 & y4 & tr4 & X); try assumption.
  exists rsp, xc, oc, uid, ch, hel, opn, y1, r1, y2, r2, y3, r3, y4, tr4. cbv zeta in *. destruct X as (A & (m & i1 & i2 & i3 & i4 & i5 & i6 & B) & X).
  split; [exact A|]. split; [now rewrite B|exact X].
Qed.

(** A server that has just started, and the numbers it returns. *)
Example C146_case : umem_ok SecLibRuns.zbuf /\ exists y tr, yreach Props_UaTcp.zbuf ini0 y tr /\ y_q y = [] /\ (conns_used tr < 32)%nat /\ (chans_used tr < 32)%nat /\
  oracle_ok oz /\ takes_all oz.
Proof.
  split; [exact SecLibRuns.zbuf_ok|]. destruct C111_case as (y & tr & R & Q & A & B & _ & _ & _ & _ & _ & _ & _ & C & D). exists y, tr. auto 8.
Qed.

(** * C147 *)

(** One client after the other. A client of the library, the memory it finds, what its calls to rand() and the clocks return, the size of the
    socket buffers, and what the server's sources of chance give it while it deals with this client. *)
Record visitor := mkVisitor { i_mem : list Z; i_ini : Z * Z * Z * Z * Z; i_n : nat; i_rand : Z; i_rnd : Z; i_t1 : Z; i_t2 : Z; i_tl : nat;
  i_w1 : option nat; i_w2 : option nat; i_o1 : oracle; i_o2 : oracle; i_o3 : oracle }.
Definition visitor_ok (i : visitor) : Prop :=
  umem_ok (i_mem i) /\ 4096 <= Z.of_nat (i_n i) /\ oracle_ok (i_o1 i) /\ oracle_ok (i_o2 i) /\ takes_all (i_o2 i) /\ oracle_ok (i_o3 i).
(** A visit: the client dials, is established, its timer ends the connection - which it tells its user - and the server notices. [x0] and [x1]
    are the client's states when it is established and at the end. *)
Definition visit (i : visitor) (y : usys) (tr : ytrace) (y' : usys) (tr2 : ytrace) : Prop :=
  exists rsp x0 o0 x1 o1 t1 uid ch hel opn y1 r1 y2 r2 y3 r3 y4 tr4 y5 r5 tr6,
    let ec := dialling (i_n i) (i_rand i) (i_rnd i) (i_t1 i) (i_t2 i) (i_tl i) rsp in
    srun RClient (sch_new (i_mem i) (i_ini i)) ec = Some (x0, o0) /\ s_st x0 = SEst /\ wrote o0 = [hel; opn] /\
    s_enabled x0 (SvTimer []) = true /\ s_step RClient x0 (SvTimer []) = Some (x1, o1, t1) /\ s_st x1 = SInit /\ In PShut (fst o1) /\ In SClosed (snd o1) /\
    y_step y (YNet (EvAccept true true true) []) = Some (y1, r1) /\
    y_step y1 (YNet (EvData uid (RxBytes hel) (Some (i_n i))) []) = Some (y2, r2) /\
    y_step y2 (YNet (EvData uid (RxBytes opn) (i_w1 i)) []) = Some (y3, r3) /\
    ydrain y3 [i_o1 i; i_o2 i] = Some (y4, tr4) /\
    map (fun x => firstn (snd x) (fst x)) (written uid (r1 :: r2 :: r3 :: tr4)) = given ec /\
    yready uid ch y4 (tr ++ r1 :: r2 :: r3 :: tr4) /\
    y_step y4 (YNet (EvData uid RxErr (i_w2 i)) []) = Some (y5, r5) /\ ydrain y5 [i_o3 i] = Some (y', tr6) /\
    ~ ulive uid (tproj (tr ++ tr2)) /\ ~ copen ch (cproj (tr ++ tr2)) /\
    tr2 = r1 :: r2 :: r3 :: tr4 ++ r5 :: tr6.
Inductive visits : list visitor -> usys -> ytrace -> usys -> ytrace -> Prop :=
| vs_nil y tr : visits [] y tr y tr
| vs_cons i l y tr y1 tr1 y2 tr2 : visit i y tr y1 tr1 -> visits l y1 (tr ++ tr1) y2 tr2 -> visits (i :: l) y tr y2 tr2.

Lemma client_times_out m a b c d e f : let x0 := mkS SEst (c_co m) a b c d e f in
  s_enabled x0 (SvTimer []) = true /\ exists x1 o1 t1, s_step RClient x0 (SvTimer []) = Some (x1, o1, t1) /\ s_st x1 = SInit /\ In PShut (fst o1) /\ In SClosed (snd o1).
Proof. split; [reflexivity|]. eexists _, _, _. split; [cbn; reflexivity|]. split; [reflexivity|]. cbn. auto. Qed.

Lemma visit_once i b0 ini y tr : visitor_ok i -> yreach b0 ini y tr -> y_q y = [] -> (conns_used tr < 32)%nat -> (chans_used tr < 32)%nat ->
  exists y' tr2, visit i y tr y' tr2 /\ yreach b0 ini y' (tr ++ tr2) /\ y_q y' = [] /\
    conns_used (tr ++ tr2) = conns_used tr /\ chans_used (tr ++ tr2) = chans_used tr /\ sproj (tr ++ tr2) = sproj tr.
Proof.
  intros (Hm & Hn & O1 & O2 & T2 & O3) HR Hq Hu Hc.
  destruct (lib_opens (i_mem i) (i_ini i) (i_n i) (i_rand i) (i_rnd i) (i_t1 i) (i_t2 i) (i_tl i) b0 ini y tr (i_w1 i) (i_o1 i) (i_o2 i) [] Hm Hn HR Hq Hu Hc O1 O2 T2)
    as (rsp & xc & oc & uid & ch & hel & opn & y1 & r1 & y2 & r2 & y3 & r3 & y4 & tr4 & X). cbv zeta in X.
  destruct X as (A & (m & i1 & i2 & i3 & i4 & i5 & i6 & B) & W & S1 & S2 & S3 & D & WR & NL & NO & HR' & RD & _ & SP & CU & HU).
  destruct (client_times_out m i1 i2 i3 i4 i5 i6) as (E1 & x1 & o1 & t1 & E2 & E3 & E4 & E5). rewrite <- B in E1, E2.
  destruct (leaves _ _ _ _ _ _ (i_w2 i) (i_o3 i) [] HR' RD O3) as (y5 & r5 & y6 & tr6 & L). cbv zeta in L.
  destruct L as (L1 & L2 & L3 & L4 & L5 & L6 & L7 & L8 & L9 & L10).
  assert (T : (tr ++ r1 :: r2 :: r3 :: tr4) ++ r5 :: tr6 = tr ++ r1 :: r2 :: r3 :: tr4 ++ r5 :: tr6) by (rewrite <- app_assoc; reflexivity).
  rewrite T in *. exists y6, (r1 :: r2 :: r3 :: tr4 ++ r5 :: tr6). split.
  - exists rsp, xc, oc, x1, o1, t1, uid, ch, hel, opn, y1, r1, y2, r2, y3, r3, y4, tr4, y5, r5, tr6. cbv zeta.
    specialize (WR uid). rewrite Z.eqb_refl in WR. rewrite B at 2. auto 30.
  - split; [exact L4|]. split; [exact L5|]. split; [lia|]. split; [lia|]. congruence.
Qed.

(** Any number of such clients, one after the other, from a state of the server with a connection and a channel to spare: every one of them is
    served, and afterwards the server has as many connections and channels to spare as before. *)
Theorem C147_forever l b0 ini y tr : Forall visitor_ok l -> yreach b0 ini y tr -> y_q y = [] -> (conns_used tr < 32)%nat -> (chans_used tr < 32)%nat ->
  exists y' tr', visits l y tr y' tr' /\ yreach b0 ini y' tr' /\ y_q y' = [] /\
    conns_used tr' = conns_used tr /\ chans_used tr' = chans_used tr /\ sproj tr' = sproj tr.
Proof.
  intros H. revert y tr. induction H as [|i l Hi Hl IH]; intros y tr HR Hq Hu Hc.
  - exists y, tr. split; [constructor|]. auto.
  - destruct (visit_once i b0 ini y tr Hi HR Hq Hu Hc) as (y1 & tr1 & V & R1 & Q1 & U1 & C1 & P1).
    destruct (IH y1 (tr ++ tr1) R1 Q1) as (y2 & tr2 & Vs & R2 & Q2 & U2 & C2 & P2); [lia|lia|].
    exists y2, tr2. split; [econstructor; eauto|]. split; [exact R2|]. split; [exact Q2|]. split; [lia|]. split; [lia|congruence].
Qed.
Definition visitor0 : visitor := mkVisitor SecLibRuns.zbuf (0, 0, 0, 0, 0) (Z.to_nat 4096) 0 0 0 0 0 None None oz oz oz.
Example C147_case : Forall visitor_ok (repeat visitor0 100) /\
  exists y tr, yreach Props_UaTcp.zbuf ini0 y tr /\ y_q y = [] /\ (conns_used tr < 32)%nat /\ (chans_used tr < 32)%nat.
Proof.
  destruct C146_case as (M & y & tr & R & Q & A & B & C & D). split; [|exists y, tr; auto].
  apply Forall_forall. intros x Hx. apply repeat_spec in Hx. subst x. unfold visitor_ok, visitor0.
  cbn [i_mem i_n i_o1 i_o2 i_o3]. split; [exact M|]. split; [lia|]. auto.
Qed.

(** Leaving, whoever the client is and whatever it did: its connection and its channel are given back, nothing is written to anybody, and sessions
    are untouched - including the session the client may have created. *)
Theorem C147_leaves b0 ini y tr uid ch w o l : yreach b0 ini y tr -> yready uid ch y tr -> oracle_ok o ->
  exists y1 r1 y2 tr2, let tr' := tr ++ r1 :: tr2 in
    y_step y (YNet (EvData uid RxErr w) []) = Some (y1, r1) /\ ydrain y1 (o :: l) = Some (y2, tr2) /\
    (forall u, written u (r1 :: tr2) = []) /\ yreach b0 ini y2 tr' /\ y_q y2 = [] /\ ~ ulive uid (tproj tr') /\ ~ copen ch (cproj tr') /\
    sproj tr' = sproj tr /\ S (conns_used tr') = conns_used tr /\ S (chans_used tr') = chans_used tr.
Proof. apply leaves. Qed.

Example C147_leaves_case : exists y tr, yreach Props_UaTcp.zbuf ini0 y tr /\ yready 1 1 y tr.
Proof. destruct C110_case as (y & tr & R & D & _). exists y, tr. auto. Qed.

Print Assumptions C146_opens.
Print Assumptions C147_forever.
Print Assumptions C147_leaves.
