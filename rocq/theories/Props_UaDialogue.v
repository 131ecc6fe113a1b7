(** Theorems about dialogues with the assembled OPC UA server: C110-C112. *)
From Verif Require Import Base ModbusCodecSpec ModbusClientModel UaCodecModel UaCodecSpec UaTcpModel UaTcpSpec UaTcpFacts UaChanModel UaChanSpec UaChanProofs UaChanFacts
  UaServiceModel UaServiceSpec UaSystemModel UaSystemSpec UaSystemProofs UaSystemFacts UaSystemRuns UaSystemProgress Props_UaTcp Props_UaChan Props_UaService Props_UaSystem.
Local Open Scope Z_scope.

(** * C110 *)

(** A well-formed request of at most 4040 octets, naming no session outside the table, sent in one piece over the open channel of a
    connection with the channel's token and the next sequence number to a server that has nothing else to do: no handler's behaviour is
    undefined; the queue empties; the services decide as C80-C87 say (C87's [served]); their answer, if they give one, is
    written completely on that connection, with the channel's id and token, the next sequence number of the server, and the id of the
    request; nothing else is written to anybody; and connection and channel are as ready as before. *)
Theorem C110_answered b0 ini y tr uid ch q req w l : yreach b0 ini y tr -> yready uid ch y tr -> q_fits q -> in_table q -> is_u32 req -> calm l ->
  exists y2 tr2 os o, let tr' := tr ++ tr2 in
    yask uid ch q req w l y tr = Some (y2, tr2) /\ In o l /\
    served (sproj tr) (mkEh uid ch req (match csession ch (cproj tr) with Some s => s | None => invalidSuid end)) (o_t1 o) q os /\
    match answer_in os with Some a => answered uid ch tr tr2 req a | None => silent tr2 end /\
    yreach b0 ini y2 tr' /\ yready uid ch y2 tr' /\ ctoken ch (cproj tr') = ctoken ch (cproj tr) /\ cstart ch (cproj tr') = cstart ch (cproj tr) /\
    clast ch (cproj tr') = (clast ch (cproj tr) + 1) mod 4294967296 /\
    csent ch (cproj tr') = (csent ch (cproj tr) + match answer_in os with None => 0 | Some _ => 1 end)%nat /\
    csession ch (cproj tr') = attached (csession ch (cproj tr)) os.
Proof.
  intros HR Hrd Hq Hi Hr Hl. destruct (asked b0 ini y tr uid ch q req w l HR Hrd Hq Hi Hr Hl)
    as (y2 & tr2 & os & m & o & A & B & _ & C & D & E & F & G & H & I & J & K & _). cbv zeta in *. exists y2, tr2, os, o. auto 15.
Qed.

(** A server with one client that has an open channel. *)
Definition rdy (uid ch : Z) (y : usys) (tr : ytrace) :=
  (match y_q y with [] => true | _ => false end, g_acked (uview_of uid (tproj tr)), g_rx (uview_of uid (tproj tr)), y_enabled y (YNet (EvData uid RxNa None) []),
   uchan uid (tproj tr), (w_opens (cview_of ch (cproj tr)) =? S (w_frees (cview_of ch (cproj tr))))%nat, cconn ch (cproj tr)).
Lemma rdy_ok uid ch y tr : rdy uid ch y tr = (true, true, [], true, Some ch, true, uid) -> yready uid ch y tr.
Proof.
  unfold rdy. intros E. apply pair_equal_spec in E as [E E7]. apply pair_equal_spec in E as [E E6]. apply pair_equal_spec in E as [E E5].
  apply pair_equal_spec in E as [E E4]. apply pair_equal_spec in E as [E E3]. apply pair_equal_spec in E as [E1 E2].
  constructor; auto; [destruct (y_q y); [reflexivity|discriminate E1]|]. now apply Nat.eqb_eq.
Qed.
Lemma calm_oz : calm (repeat oz 5).
Proof.
  split; [reflexivity|]. assert (O : oracle_ok oz /\ takes_all oz).
  { split; [exact oz_ok|]. exists (Z.to_nat 4096). split; [reflexivity|]. rewrite Z2Nat.id; lia. }
  apply Forall_forall. intros o H. apply repeat_spec in H. now subst o.
Qed.
Ltac wfq := unfold q_fits; split;
  [unfold q_wf, q_end, q_cre, q_act, q_clo, q_rd, wf_epreq, wf_csreq, wf_asreq, wf_clsreq, wf_rdreq, wf_reqhdr, hdr_of, wf_nodeid, wf_str, wf_extobj, wf_sigdata, wf_arr, wf_appdesc, wf_ltext, wf_nodeid, wf_str; cbn;
   unfold is_u16, is_u32, is_i32, is_i64, is_byte, bytes_ok, wf_ostr, wf_opt; cbn;
   repeat match goal with |- _ /\ _ => split end; try exact I; try constructor; try lia; try congruence; try constructor; cbn; try lia; try reflexivity
  |split; [apply octetsb_ok; vm_compute; reflexivity|vm_compute; discriminate]].
Lemma fits_end : q_fits (q_end 11). Proof. wfq. Qed.
Lemma fits_cre : q_fits (q_cre 11 60). Proof. wfq. Qed.
Lemma fits_act : q_fits (q_act 1 12). Proof. wfq. Qed.
Lemma fits_clo : q_fits (q_clo 1 12). Proof. wfq. Qed.
Lemma fits_rd : q_fits (q_rd 1 12 []). Proof. wfq. Qed.
Example C110_case : exists y tr, yreach zbuf ini0 y tr /\ yready 1 1 y tr /\ q_fits (q_end 11) /\ in_table (q_end 11) /\ calm (repeat oz 5) /\
  match yask 1 1 (q_end 11) 7 all (repeat oz 5) y tr with
  | Some (_, tr2) => written 1 tr2 = [(msg_packet 1 5 2 7 (endpoints_rsp 0 11), 242%nat)]
  | None => False
  end.
Proof.
  destruct (yobs_reach zbuf ini0 (join 1) (fun y tr => (rdy 1 1 y tr, option_map (fun x => written 1 (snd x)) (yask 1 1 (q_end 11) 7 all (repeat oz 5) y tr)))
    ((true, true, [], true, Some 1, true, 1), Some [(msg_packet 1 5 2 7 (endpoints_rsp 0 11), 242%nat)])) as (y & tr & R & E); [obs|obs|obs|].
  apply pair_equal_spec in E as [E1 E2]. exists y, tr. split; [exact R|]. split; [now apply rdy_ok|]. split; [exact fits_end|]. split; [exact I|]. split; [exact calm_oz|].
  destruct (yask 1 1 (q_end 11) 7 all (repeat oz 5) y tr) as [[y2 tr2]|]; [|discriminate E2]. cbn [option_map snd] in E2. now injection E2.
Qed.

(** * C111 *)

(** A client that connects to a server that has nothing else to do, has a connection and a channel to spare (the two bounds: see
    C44_bounds and C76_account_partial), sends a hello of at most 4096 octets and then an open request whose packet has at most 4072: it is accepted under an id that is not in use,
    gets the acknowledge and the open response - with a channel that is not open, the random token and its own request's values - and
    nothing else is written to anybody; afterwards the connection and its channel are ready for requests ([yready], C110), the
    sequence number is the one of the open request, and no session is attached; the sessions are untouched. *)
Theorem C111_newcomer b0 ini y tr h n s seqn req r w o1 o2 l : yreach b0 ini y tr -> y_q y = [] ->
  (utotal ustarts (tproj tr) - utotal ufrees (tproj tr) + utotal unotimer (tproj tr) < 32)%nat ->
  (copened (cproj tr) + ctotal cbad (cproj tr) < 32)%nat ->
  wf_hello h -> bytes_ok (hello_packet h) -> Z.of_nat (length (hello_packet h)) <= 4096 -> 28 <= Z.of_nat n ->
  wf_sechdr s -> is_u32 seqn -> is_u32 req -> wf_openreq r ->
  bytes_ok (open_body s seqn req r) -> Z.of_nat (length (open_body s seqn req r)) <= 4060 -> oracle_ok o1 -> oracle_ok o2 -> takes_all o2 ->
  exists uid y1 r1 y2 r2 y3 r3 y4 tr4 ch m,
    let tr' := tr ++ r1 :: r2 :: r3 :: tr4 in
    y_step y (YNet (EvAccept true true true) []) = Some (y1, r1) /\
    y_step y1 (YNet (EvData uid (RxBytes (hello_packet h)) (Some n)) []) = Some (y2, r2) /\
    y_step y2 (YNet (EvData uid (RxBytes (open_packet s seqn req r)) w) []) = Some (y3, r3) /\
    ydrain y3 (o1 :: o2 :: l) = Some (y4, tr4) /\ ~ ulive uid (tproj tr) /\ ~ copen ch (cproj tr) /\
    m = rsp_of uid ch (open_rsp ch (cstart ch (cproj tr)) req (rq_handle (oq_hdr r)) (o_rnd o1 mod 2147483647) (o_t1 o1) (o_t2 o1) (oq_life r)) /\
    (forall u, written u (r1 :: r2 :: r3 :: tr4) = if u =? uid then [(ack_packet, 28%nat); (packet_of KOpn m, length (packet_of KOpn m))] else []) /\
    yreach b0 ini y4 tr' /\ yready uid ch y4 tr' /\ ctoken ch (cproj tr') = o_rnd o1 mod 2147483647 /\ clast ch (cproj tr') = seqn /\
    csent ch (cproj tr') = 1%nat /\ csession ch (cproj tr') = None /\ cstart ch (cproj tr') = cstart ch (cproj tr) /\ sproj tr' = sproj tr /\
    conns_used tr' = S (conns_used tr) /\ chans_used tr' = S (chans_used tr).
Proof. apply newcomer. Qed.
(** A server that has just started. *)
Example C111_case : exists y tr, yreach zbuf ini0 y tr /\ y_q y = [] /\
  (utotal ustarts (tproj tr) - utotal ufrees (tproj tr) + utotal unotimer (tproj tr) < 32)%nat /\
  (copened (cproj tr) + ctotal cbad (cproj tr) < 32)%nat /\
  wf_hello hello0 /\ bytes_ok (hello_packet hello0) /\ Z.of_nat (length (hello_packet hello0)) <= 4096 /\
  wf_sechdr sechdr0 /\ wf_openreq openreq0 /\ bytes_ok (open_body sechdr0 41 1 openreq0) /\ Z.of_nat (length (open_body sechdr0 41 1 openreq0)) <= 4060 /\
  oracle_ok oz /\ takes_all oz.
Proof.
  destruct (yobs_reach zbuf ini0 [] (fun y tr => (match y_q y with [] => true | _ => false end,
    (utotal ustarts (tproj tr) - utotal ufrees (tproj tr) + utotal unotimer (tproj tr))%nat, (copened (cproj tr) + ctotal cbad (cproj tr))%nat))
    (true, 0%nat, 0%nat)) as (y & tr & R & E); [obs|obs|obs|].
  apply pair_equal_spec in E as [E E3]. apply pair_equal_spec in E as [E1 E2]. exists y, tr. split; [exact R|].
  split; [destruct (y_q y); [reflexivity|discriminate E1]|]. split; [rewrite E2; lia|]. split; [rewrite E3; lia|].
  split; [repeat constructor; cbn; unfold is_u32; lia|]. split; [apply octetsb_ok; vm_compute; reflexivity|]. split; [vm_compute; discriminate|].
  split; [repeat constructor; cbn; lia|].
  split; [unfold wf_openreq, wf_reqhdr, wf_nodeid, wf_extobj, wf_nodeid, wf_str; cbn; unfold is_u16, is_u32, is_i32, is_i64; repeat split; try lia; try constructor|].
  split; [apply octetsb_ok; vm_compute; reflexivity|]. split; [vm_compute; discriminate|]. destruct calm_oz as [_ F]. now inversion F.
Qed.

(** * C112 *)

(** The life of a session over an open channel of an otherwise idle server: creating (fewer than 32 sessions exist) gives a session
    that did not exist, with its id in the response... *)
Theorem C112_create b0 ini y tr uid ch req w l rc : yreach b0 ini y tr -> yready uid ch y tr -> is_u32 req -> calm l ->
  q_fits (QCre rc) -> (nlive (sproj tr) < 32)%nat ->
  exists sid y2 tr2 o, yask uid ch (QCre rc) req w l y tr = Some (y2, tr2) /\ In o l /\ 1 <= sid <= 32 /\ ~ live sid (sproj tr) /\
    answered uid ch tr tr2 req (create_rsp sid (o_t1 o) (rq_handle (cs_hdr rc)) (cs_tmo rc) (cs_max rc)) /\
    yreach b0 ini y2 (tr ++ tr2) /\ yready uid ch y2 (tr ++ tr2) /\ live sid (sproj (tr ++ tr2)) /\
    (forall s, s <> sid -> sview_of s (sproj (tr ++ tr2)) = sview_of s (sproj tr)) /\ csession ch (cproj (tr ++ tr2)) = csession ch (cproj tr).
Proof. intros. now apply create_ok. Qed.
(** ... activating it makes it active on the channel... *)
Theorem C112_activate b0 ini y tr uid ch req w l ra sid : yreach b0 ini y tr -> yready uid ch y tr -> is_u32 req -> calm l ->
  q_fits (QAct ra) -> named (QAct ra) = Some sid -> live sid (sproj tr) ->
  exists y2 tr2 o, yask uid ch (QAct ra) req w l y tr = Some (y2, tr2) /\ In o l /\
    answered uid ch tr tr2 req (activate_rsp (o_t1 o) (rq_handle (as_hdr ra))) /\
    yreach b0 ini y2 (tr ++ tr2) /\ yready uid ch y2 (tr ++ tr2) /\ active sid ch (tr ++ tr2) /\
    (forall s, liveb s (sproj (tr ++ tr2)) = liveb s (sproj tr)).
Proof. intros. now apply activate_ok. Qed.
(** ... then every read gets its answer, however many follow, and the session stays active... *)
Theorem C112_reads b0 ini uid ch w l sid rs y tr : calm l -> Forall (fun x => q_fits (QRead (fst x)) /\ is_u32 (snd x)) rs ->
  yreach b0 ini y tr -> yready uid ch y tr -> active sid ch tr ->
  exists y2 trs, yreads uid ch rs w l y tr = Some (y2, trs) /\ read_answers uid ch l tr rs trs /\
    yreach b0 ini y2 (tr ++ concat trs) /\ yready uid ch y2 (tr ++ concat trs) /\ active sid ch (tr ++ concat trs).
Proof. intros. now apply reads_ok. Qed.
(** ... until it is closed. *)
Theorem C112_close b0 ini y tr uid ch req w l rl sid : yreach b0 ini y tr -> yready uid ch y tr -> is_u32 req -> calm l ->
  q_fits (QClo rl) -> named (QClo rl) = Some sid -> live sid (sproj tr) ->
  exists y2 tr2 o, yask uid ch (QClo rl) req w l y tr = Some (y2, tr2) /\ In o l /\
    answered uid ch tr tr2 req (close_session_rsp (o_t1 o) (rq_handle (cl_hdr rl))) /\
    yreach b0 ini y2 (tr ++ tr2) /\ yready uid ch y2 (tr ++ tr2) /\ ~ live sid (sproj (tr ++ tr2)) /\
    (forall s, s <> sid -> sview_of s (sproj (tr ++ tr2)) = sview_of s (sproj tr)) /\ csession ch (cproj (tr ++ tr2)) = csession ch (cproj tr).
Proof. intros. now apply close_ok. Qed.
(** After that, reads over the channel get no answer (until a session is activated on it again). *)
Theorem C112_after_close b0 ini y tr uid ch req w l rr sid : yreach b0 ini y tr -> yready uid ch y tr -> is_u32 req -> calm l ->
  q_fits (QRead rr) -> csession ch (cproj tr) = Some sid -> ~ live sid (sproj tr) ->
  exists y2 tr2, yask uid ch (QRead rr) req w l y tr = Some (y2, tr2) /\ silent tr2 /\ yreach b0 ini y2 (tr ++ tr2) /\ yready uid ch y2 (tr ++ tr2).
Proof.
  intros HR Hrd Hreq Hl Hq Hs Hn. destruct (C110_answered b0 ini y tr uid ch (QRead rr) req w l HR Hrd Hq I Hreq Hl)
    as (y2 & tr2 & os & o & A & B & C & D & E & F & _). cbv zeta in *. exists y2, tr2. rewrite Hs in C.
  inversion C; subst; [exfalso; cbn [e_sess] in *; auto|]. cbn [answer_in] in D. auto.
Qed.
Example C112_case : exists y tr, yreach zbuf ini0 y tr /\ yready 1 1 y tr /\ nlive (sproj tr) = 1%nat /\ active 1 1 tr /\
  q_fits (q_cre 11 60) /\ q_fits (q_act 1 12) /\ named (q_act 1 12) = Some 1 /\ q_fits (q_rd 1 12 []) /\ q_fits (q_clo 1 12) /\ named (q_clo 1 12) = Some 1 /\ calm (repeat oz 5).
Proof.
  destruct (yobs_reach zbuf ini0 (join 1 ++ [rd 1 (msg_pkt 1 5 42 2 (q_cre 11 60))] ++ go 4 ++ [rd 1 (msg_pkt 1 5 43 3 (q_act 1 12))] ++ go 5)
    (fun y tr => (rdy 1 1 y tr, (nlive (sproj tr), liveb 1 (sproj tr), bound 1 (sproj tr), csession 1 (cproj tr))))
    ((true, true, [], true, Some 1, true, 1), (1%nat, true, Some 1, Some 1))) as (y & tr & R & E); [obs|obs|obs|].
  apply pair_equal_spec in E as [E1 E]. apply pair_equal_spec in E as [E E5]. apply pair_equal_spec in E as [E E4]. apply pair_equal_spec in E as [E2 E3].
  exists y, tr. split; [exact R|]. split; [now apply rdy_ok|]. split; [exact E2|]. split; [split; auto|].
  split; [exact fits_cre|]. split; [exact fits_act|]. split; [reflexivity|]. split; [exact fits_rd|]. split; [exact fits_clo|]. split; [reflexivity|exact calm_oz].
Qed.
(** ... and the same server, its session closed. *)
Example C112_after_case : exists y tr, yreach zbuf ini0 y tr /\ yready 1 1 y tr /\ csession 1 (cproj tr) = Some 1 /\ ~ live 1 (sproj tr).
Proof.
  destruct (yobs_reach zbuf ini0 (join 1 ++ [rd 1 (msg_pkt 1 5 42 2 (q_cre 11 60))] ++ go 4 ++ [rd 1 (msg_pkt 1 5 43 3 (q_act 1 12))] ++ go 5 ++ [rd 1 (msg_pkt 1 5 44 4 (q_clo 1 12))] ++ go 4)
    (fun y tr => (rdy 1 1 y tr, (liveb 1 (sproj tr), csession 1 (cproj tr))))
    ((true, true, [], true, Some 1, true, 1), (false, Some 1))) as (y & tr & R & E); [obs|obs|obs|].
  apply pair_equal_spec in E as [E1 E]. apply pair_equal_spec in E as [E2 E3].
  exists y, tr. split; [exact R|]. split; [now apply rdy_ok|]. split; [exact E3|]. unfold live. rewrite E2. discriminate.
Qed.

Print Assumptions C110_answered.
Print Assumptions C111_newcomer.
Print Assumptions C112_create.
Print Assumptions C112_activate.
Print Assumptions C112_reads.
Print Assumptions C112_close.
Print Assumptions C112_after_close.
