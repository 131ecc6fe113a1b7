(** C25-C30, C60, C61: the Modbus client, over its concrete request storage and
    receive buffer with arbitrary initial contents, for every history of requests, link
    events, received octets and timer expiries. *)
From Verif Require Import Base MsgStorageModel ModbusCodecModel ModbusCodecSpec ModbusClientModel ModbusClientSpec
  ModbusClientRuns ModbusClientFacts.
Local Open Scope Z_scope.

(** Material for the examples and counterexamples. *)
Definition m_init : memory := fun _ => 0.
Definition b_init : list Z := repeat 0 512.
Lemma b_init_ok : length b_init = 512%nat /\ bytes_ok b_init.
Proof. split; [reflexivity|]. apply Forall_forall. intros x Hx. apply repeat_spec in Hx. subst. unfold is_byte. lia. Qed.
Definition reqA : item := mkItem 1 (mkReq 5 3 17 0 2 0 []).
Definition reqB : item := mkItem 2 (mkReq 6 3 17 8 1 0 []).
Definition reqBig : item := mkItem 3 (mkReq 7 16 17 0 131 262 (repeat 0 262)).
Definition up : list cev := [EStart true; EConnected].
Definition replyA : list Z := [0; 5; 0; 0; 0; 7; 17; 3; 4; 2; 1; 4; 3].
Definition outs (es : list cev) : option (list (list cout)) :=
  option_map (fun p => map snd (snd p)) (boot m_init b_init es).
(** Decidable version of the input conditions, to discharge them by computation. *)
Definition byteb (z : Z) : bool := (0 <=? z) && (z <? 256).
Definition evb (e : cev) : bool :=
  match e with
  | EReq it => let q := i_req it in
      (0 <=? q_tid q) && (q_tid q <? 4294967296) && byteb (q_func q) && (0 <=? q_addr q) && (q_addr q <? 65536) &&
      (0 <=? q_start q) && (q_start q <? 65536) && (0 <=? q_nitems q) && (q_nitems q <? 65536) &&
      (0 <=? q_nbytes q) && (q_nbytes q <? 65536) && forallb byteb (q_data q) && (q_nbytes q <=? Z.of_nat (length (q_data q)))
  | EData (RxBytes bs) => forallb byteb bs
  | _ => true
  end.
Lemma byteb_ok l : forallb byteb l = true -> bytes_ok l.
Proof. intros H. apply Forall_forall. intros x Hx. apply (proj1 (forallb_forall _ _) H) in Hx. unfold byteb, is_byte in *. lia. Qed.
Lemma evb_ok es : forallb evb es = true -> Forall ev_ok es.
Proof.
  intros H. apply Forall_forall. intros e He. apply (proj1 (forallb_forall _ _) H) in He. clear H.
  destruct e as [|it| |[| |bs]| |]; cbn [ev_ok evb] in *; auto.
  - unfold req_ok, is_u32, is_u16, is_byte. rewrite !Bool.andb_true_iff in He. unfold byteb in He.
    repeat match goal with H : _ /\ _ |- _ => destruct H end. 
    match goal with H : forallb _ _ = true |- _ => apply byteb_ok in H end. repeat split; auto; lia.
  - now apply byteb_ok.
Qed.

(** ** C25 *)
(** Transmissions are, in order, the wire forms of a subsequence of the
    submitted requests. *)
Theorem C25_submission_order : forall m0 b0 es c tr,
  length b0 = 512%nat -> bytes_ok b0 -> Forall ev_ok es -> boot m0 b0 es = Some (c, tr) ->
  exists l, sublist l (submitted tr) /\ Forall2 on_wire l (transmitted tr).
Proof. exact boot_order. Qed.
Print Assumptions C25_submission_order.

(** Never more than 64 pending; a refused request is answered with one error
    and leaves the pending ones alone; any other request is either appended, or (no
    connection) it and whatever is pending are answered with errors. *)
Theorem C25_bound_and_refusal : forall m0 b0 es it c tr c' os,
  length b0 = 512%nat -> bytes_ok b0 -> Forall ev_ok (es ++ [EReq it]) ->
  boot m0 b0 es = Some (c, tr) -> boot m0 b0 (es ++ [EReq it]) = Some (c', tr ++ [(EReq it, os)]) ->
  exists l l', held (c_store c) = Some l /\ held (c_store c') = Some l' /\ (length l' <= 64)%nat /\
    if (64 <=? length l)%nat || (260 <? q_nbytes (i_req it))
    then os = [error_for it] /\ l' = l
    else (os = errors (map ids (l ++ [it])) /\ l' = []) \/ (rsps os = [] /\ map ids l' = map ids l ++ [ids it]).
Proof. exact boot_push. Qed.
Print Assumptions C25_bound_and_refusal.

Example C25_case :
  Forall ev_ok (up ++ [EReq reqA; EReq reqBig; EReq reqB; ETimer true true; EData (RxBytes replyA); ETimer true true]) /\
  outs (up ++ [EReq reqA; EReq reqBig; EReq reqB; ETimer true true; EData (RxBytes replyA); ETimer true true]) =
  Some [[OTimer 3000000; OConnect]; [OStop]; [OTimer 10000]; [ORsp 3 7 false 0 []]; [];
        [OTx [0; 5; 0; 0; 0; 6; 17; 3; 0; 0; 0; 2]; OStop; OTimer 5000000];
        [ORsp 1 5 true 0 [1; 2; 3; 4]; OStop; OTimer 10000];
        [OTx [0; 6; 0; 0; 0; 6; 17; 3; 0; 8; 0; 1]; OStop; OTimer 5000000]].
Proof. split; [apply evb_ok; vm_compute; reflexivity|vm_compute; reflexivity]. Qed.

(** ** C26 *)
(** With a peer that, while requests are unanswered, speaks only when asked
    and with possible length fields: every request is answered exactly once in order,
    and what is unanswered is exactly what the client holds. *)
Theorem C26_exactly_once_partial : forall m0 b0 es c tr,
  length b0 = 512%nat -> bytes_ok b0 -> Forall ev_ok es -> boot m0 b0 es = Some (c, tr) -> peer_ok [] None tr ->
  exactly_once [] tr /\ option_map (map ids) (held (c_store c)) = Some (unanswered [] tr).
Proof. exact boot_once. Qed.
Print Assumptions C26_exactly_once_partial.

(** "Eventually": [n] unanswered requests are all answered by the time the
    client's timer has expired [2 * n] times, whatever else happens. *)
Theorem C26_eventually_partial : forall m0 b0 es1 es2 c1 c2 tr1 tr2,
  length b0 = 512%nat -> bytes_ok b0 -> Forall ev_ok (es1 ++ es2) ->
  boot m0 b0 es1 = Some (c1, tr1) -> boot m0 b0 (es1 ++ es2) = Some (c2, tr1 ++ tr2) ->
  peer_ok [] None (tr1 ++ tr2) ->
  (2 * length (unanswered [] tr1) <= expiries tr2)%nat ->
  (length (unanswered [] tr1) <= served (unanswered [] tr1) tr2)%nat.
Proof. exact boot_drain. Qed.
Print Assumptions C26_eventually_partial.

Definition run26 : list cev := up ++ [EReq reqA; EReq reqB; ETimer true true; EData (RxBytes replyA); ETimer true true; ETimer true true].
Example C26_case : Forall ev_ok run26 /\ exists c tr, boot m_init b_init run26 = Some (c, tr) /\ peer_ok [] None tr /\
  map (fun x => rsps (snd x)) tr = [[]; []; []; []; []; [(1, 5)]; []; [(2, 6)]].
Proof.
  split; [apply evb_ok; vm_compute; reflexivity|]. do 2 eexists. split; [vm_compute; reflexivity|].
  split; [|vm_compute; reflexivity]. cbn [peer_ok peer_step]. do 5 (split; [exact I|]).
  split; [right; eexists; split; vm_compute; reflexivity|]. auto.
Qed.

(** Without the peer condition the property fails in both directions.  A reply
    whose length field is 254 or more makes the client drop the request: it is never
    answered, whatever happens later. *)
Definition lost26 : list cev := up ++ [EReq reqA; ETimer true true; EData (RxBytes [0; 5; 0; 0; 1; 0])].
Theorem C26_lost_request_refuted :
  Forall ev_ok lost26 /\ exists c tr, boot m_init b_init lost26 = Some (c, tr) /\
    Forall (fun x => rsps (snd x) = []) tr /\
    forall es2 c2 tr2, Forall ev_ok es2 -> Forall no_req es2 ->
      boot m_init b_init (lost26 ++ es2) = Some (c2, tr ++ tr2) -> Forall (fun x => rsps (snd x) = []) tr2.
Proof.
  assert (H0 : Forall ev_ok lost26) by (apply evb_ok; vm_compute; reflexivity).
  split; [exact H0|]. destruct (boot m_init b_init lost26) as [[c tr]|] eqn:E; [|vm_compute in E; discriminate].
  exists c, tr. split; [reflexivity|]. 
  assert (Hy : option_map (fun p => (held (c_store (fst p)), map (fun x => rsps (snd x)) (snd p))) (boot m_init b_init lost26) =
    Some (Some [], [[]; []; []; []; []])) by (vm_compute; reflexivity).
  rewrite E in Hy. cbn [option_map fst snd] in Hy. injection Hy as Hh Hr. split.
  - apply Forall_forall. intros x Hx. apply (in_map (fun x => rsps (snd x))) in Hx. rewrite Hr in Hx. cbn in Hx. intuition congruence.
  - intros es2 c2 tr2 He Hn E2. destruct b_init_ok as [B1 B2].
    assert (Q := boot_quiet m_init b_init lost26 es2 c c2 tr tr2 B1 B2 (proj2 (Forall_app _ _ _) (conj H0 He)) Hn E Hh E2).
    eapply Forall_impl; [|exact Q]. intros x Hx. apply Hx.
Qed.
Print Assumptions C26_lost_request_refuted.

(** An unsolicited frame between submission and transmission answers the request,
    which is then transmitted and answered again. *)
Definition dup26 : list cev := up ++ [EReq reqA; EData (RxBytes replyA); ETimer true true; EData (RxBytes replyA)].
Theorem C26_answered_twice_refuted : Forall ev_ok dup26 /\ exists c tr, boot m_init b_init dup26 = Some (c, tr) /\
  submitted tr = [reqA] /\ flat_map (fun x => rsps (snd x)) tr = [ids reqA; ids reqA].
Proof. split; [apply evb_ok; vm_compute; reflexivity|]. do 2 eexists. split; [vm_compute; reflexivity|]. split; vm_compute; reflexivity. Qed.
Print Assumptions C26_answered_twice_refuted.

(** ** C27 *)
Theorem C27_names_a_request : forall m0 b0 es c tr,
  length b0 = 512%nat -> bytes_ok b0 -> Forall ev_ok es -> boot m0 b0 es = Some (c, tr) -> names_submitted [] tr.
Proof. exact boot_names. Qed.
Print Assumptions C27_names_a_request.

Theorem C27_success_is_backed_partial : forall m0 b0 es c tr,
  length b0 = 512%nat -> bytes_ok b0 -> Forall ev_ok es -> boot m0 b0 es = Some (c, tr) -> peer_ok [] None tr ->
  successes_backed [] None tr.
Proof. exact boot_backed. Qed.
Print Assumptions C27_success_is_backed_partial.

(** A request is reported as successful although it was never transmitted. *)
Theorem C27_success_before_transmission_refuted : Forall ev_ok (up ++ [EReq reqA; EData (RxBytes replyA)]) /\
  exists c tr, boot m_init b_init (up ++ [EReq reqA; EData (RxBytes replyA)]) = Some (c, tr) /\
    transmitted tr = [] /\ In (ORsp 1 5 true 0 [1; 2; 3; 4]) (flat_map snd tr).
Proof. split; [apply evb_ok; vm_compute; reflexivity|]. do 2 eexists. split; [vm_compute; reflexivity|]. split; vm_compute; auto 10. Qed.
Print Assumptions C27_success_before_transmission_refuted.

Example C27_case : backed reqA replyA 0 [1; 2; 3; 4].
Proof.
  exists 0, 5, 0, 7, [17; 3; 4; 2; 1; 4; 3]. do 3 (split; [reflexivity|]). right. split; [reflexivity|].
  exists [4; 2; 1; 4; 3]. split; [reflexivity|]. left. split; [cbn; auto|]. exists 4, [2; 1; 4; 3]. repeat split.
Qed.

(** ** C28 *)
Theorem C28_one_outstanding : forall m0 b0 es c tr,
  length b0 = 512%nat -> bytes_ok b0 -> Forall ev_ok es -> boot m0 b0 es = Some (c, tr) -> one_on_wire None tr.
Proof. exact boot_wire. Qed.
Print Assumptions C28_one_outstanding.

Example C28_case : exists c tr, boot m_init b_init run26 = Some (c, tr) /\ length (transmitted tr) = 2%nat.
Proof. do 2 eexists. split; vm_compute; reflexivity. Qed.

(** ** C29 *)
(** Whenever requests are pending or a connection is being (re-)established, a
    timer is armed and its expiry makes progress. *)
Theorem C29_progress_partial : forall m0 b0 es c tr sok cok l,
  length b0 = 512%nat -> bytes_ok b0 -> Forall ev_ok es -> boot m0 b0 es = Some (c, tr) ->
  held (c_store c) = Some l -> (l <> [] \/ connecting (c_st c) = true) ->
  exists c' os, boot m0 b0 (es ++ [ETimer sok cok]) = Some (c', tr ++ [(ETimer sok cok, os)]) /\ progresses os = true.
Proof. exact boot_progress. Qed.
Print Assumptions C29_progress_partial.

Example C29_case : exists c tr l, boot m_init b_init (up ++ [EReq reqA; EReq reqB]) = Some (c, tr) /\
  held (c_store c) = Some l /\ map ids l = [(1, 5); (2, 6)].
Proof. do 3 eexists. split; [vm_compute; reflexivity|]. split; vm_compute; reflexivity. Qed.

(** When the link reports an error to an idle connected client, nothing
    happens any more until a request arrives: no reconnect, no timer. *)
Theorem C29_idle_disconnect_refuted : exists c tr, boot m_init b_init (up ++ [EError]) = Some (c, tr) /\
  c_timer c = None /\ c_fd c = false /\
  forall es2 c2 tr2, Forall ev_ok es2 -> Forall no_req es2 ->
    boot m_init b_init ((up ++ [EError]) ++ es2) = Some (c2, tr ++ tr2) -> Forall (fun x => snd x = []) tr2.
Proof.
  destruct (boot m_init b_init (up ++ [EError])) as [[c tr]|] eqn:E; [|vm_compute in E; discriminate].
  exists c, tr. split; [reflexivity|].
  assert (Hy : option_map (fun p => (c_timer (fst p), c_fd (fst p), c_st (fst p))) (boot m_init b_init (up ++ [EError])) = Some (None, false, CConnected)) by (vm_compute; reflexivity).
  rewrite E in Hy. cbn [option_map fst] in Hy. injection Hy as Ht Hf Hs. split; [exact Ht|]. split; [exact Hf|].
  intros es2 c2 tr2 He Hn E2. destruct b_init_ok as [B1 B2].
  assert (H0 : Forall ev_ok (up ++ [EError])) by (apply evb_ok; reflexivity).
  destruct (boot_list _ _ _ _ _ B1 B2 (proj2 (Forall_app _ _ _) (conj H0 He)) E2) as (d & R & _ & _).
  destruct (run_app _ _ _ _ _ R) as (d1 & t1 & t2 & R1 & R2 & Et).
  destruct (boot_list _ _ _ _ _ B1 B2 H0 E) as (d1' & R1' & HC & HI). rewrite R1' in R1. injection R1 as -> ->.
  apply app_inv_head in Et. subst t2.
  eapply idle_stuck; [exact HI| | |exact Hn|exact R2]; [rewrite <- Hs|rewrite <- Hf]; symmetry; apply HC.
Qed.
Print Assumptions C29_idle_disconnect_refuted.

(** ** C30 *)
(** Whenever the client closes the link: every pending request gets exactly one error,
    in order, nothing else is answered, the reconnect timer is armed and nothing
    is pending. *)
Theorem C30_close_flushes : forall m0 b0 es e c tr c' os,
  length b0 = 512%nat -> bytes_ok b0 -> Forall ev_ok (es ++ [e]) ->
  boot m0 b0 es = Some (c, tr) -> boot m0 b0 (es ++ [e]) = Some (c', tr ++ [(e, os)]) -> In OClose os ->
  exists l rest, held (c_store c) = Some l /\ os = errors (map ids l) ++ OClose :: rest /\
    (rest = [OTimer 500000] \/ rest = [OStop; OTimer 500000]) /\
    held (c_store c') = Some [] /\ c_timer c' = Some 500000.
Proof. exact boot_close. Qed.
Print Assumptions C30_close_flushes.

(** It closes the link when a write fails, and when a read fails while its
    buffer holds at most 260 octets. *)
Theorem C30_failure_closes_partial : forall m0 b0 es e c tr,
  length b0 = 512%nat -> bytes_ok b0 -> Forall ev_ok es ->
  boot m0 b0 es = Some (c, tr) -> enabled c e = true -> fails c e ->
  exists c' os, boot m0 b0 (es ++ [e]) = Some (c', tr ++ [(e, os)]) /\ In OClose os.
Proof. exact boot_fails. Qed.
Print Assumptions C30_failure_closes_partial.

Example C30_case : outs (up ++ [EReq reqA; EReq reqB; ETimer true true; EData RxErr]) =
  Some [[OTimer 3000000; OConnect]; [OStop]; [OTimer 10000]; [];
        [OTx [0; 5; 0; 0; 0; 6; 17; 3; 0; 0; 0; 2]; OStop; OTimer 5000000];
        [ORsp 1 5 false 0 []; ORsp 2 6 false 0 []; OClose; OStop; OTimer 500000]].
Proof. vm_compute. reflexivity. Qed.

(** One oversized reply makes an idle client deaf: it stays connected and
    ignores every later report that the link is readable, including those of failed reads
    and end-of-file. *)
Definition deaf30 : list cev := up ++ [EReq reqA; ETimer true true; EData (RxBytes (repeat 0 512)); ETimer true true].
Theorem C30_deaf_client_refuted : Forall ev_ok deaf30 /\ exists c tr, boot m_init b_init deaf30 = Some (c, tr) /\
  c_st c = CConnected /\ c_fd c = true /\
  forall rs, boot m_init b_init (deaf30 ++ map EData rs) = Some (c, tr ++ map (fun r => (EData r, [])) rs).
Proof.
  split; [apply evb_ok; vm_compute; reflexivity|].
  destruct (boot m_init b_init deaf30) as [[c tr]|] eqn:E; [|vm_compute in E; discriminate].
  exists c, tr. split; [reflexivity|].
  assert (Hy : option_map (fun p => (c_st (fst p), c_fd (fst p), c_len (fst p))) (boot m_init b_init deaf30) = Some (CConnected, true, 512)) by (vm_compute; reflexivity).
  rewrite E in Hy. cbn [option_map fst] in Hy. injection Hy as Hs Hf Hl. split; [exact Hs|]. split; [exact Hf|].
  intros rs. pattern rs. apply rev_ind; clear rs.
  - cbn [map]. rewrite !app_nil_r. exact E.
  - intros r rs IH. rewrite !map_app, !app_assoc. cbn [map].
    rewrite (boot_snoc _ _ _ (EData r) _ _ IH). cbn [enabled]. rewrite Hf, deaf; [reflexivity|lia|exact Hs].
Qed.
Print Assumptions C30_deaf_client_refuted.

(** ** C60 *)
(** As long as the peer does not shut the connection down, no event the environment
    can produce makes the client leave its buffers. *)
Theorem C60_in_bounds_partial : forall m0 b0 es e c tr,
  length b0 = 512%nat -> bytes_ok b0 -> Forall ev_ok (es ++ [e]) -> Forall not_eof (es ++ [e]) ->
  boot m0 b0 es = Some (c, tr) -> enabled c e = true ->
  exists c' os, boot m0 b0 (es ++ [e]) = Some (c', tr ++ [(e, os)]).
Proof. exact boot_defined. Qed.
Print Assumptions C60_in_bounds_partial.

Example C60_case : Forall ev_ok run26 /\ Forall not_eof run26.
Proof. split; [apply evb_ok; vm_compute; reflexivity|]. repeat constructor; discriminate. Qed.

(** A peer that sends an oversized reply, later a correct 259-octet reply, and then
    shuts the connection down (one end-of-file report) while a third request is queued:
    the end-of-file makes the client decode what is left of the oversized reply behind the
    correct one, past the end of the 512-octet buffer. *)
Definition reqC : item := mkItem 3 (mkReq 7 3 17 0 2 0 []).
Definition frame259 : list Z := [0; 6; 0; 0; 0; 253; 17; 3; 250] ++ repeat 0 250.
Definition eof60 : list cev :=
  up ++ [EReq reqA; ETimer true true; EData (RxBytes (frame259 ++ [0; 7; 0; 0; 0; 253; 17; 3; 250] ++ repeat 0 244));
         EReq reqB; EReq reqC; ETimer true true; EData (RxBytes frame259)].
Theorem C60_end_of_file_refuted : Forall ev_ok (eof60 ++ [EData (RxBytes [])]) /\
  (exists c tr, boot m_init b_init eof60 = Some (c, tr) /\ enabled c (EData (RxBytes [])) = true) /\
  boot m_init b_init (eof60 ++ [EData (RxBytes [])]) = None.
Proof.
  split; [apply evb_ok; vm_compute; reflexivity|]. split; [|vm_compute; reflexivity].
  assert (Hy : option_map (fun p => enabled (fst p) (EData (RxBytes []))) (boot m_init b_init eof60) = Some true) by (vm_compute; reflexivity).
  destruct (boot m_init b_init eof60) as [[c tr]|]; [|discriminate].
  exists c, tr. split; [reflexivity|]. cbn [option_map fst] in Hy. now injection Hy.
Qed.
Print Assumptions C60_end_of_file_refuted.

(** ** C61 *)
(** A correct reply to the transmitted request, arriving in one piece, is
    delivered with its data: registers and single writes, 16-bit transaction ids. *)
Theorem C61_reply_delivered_partial : forall m0 b0 es c tr it rest bs a,
  length b0 = 512%nat -> bytes_ok b0 -> Forall ev_ok es ->
  boot m0 b0 es = Some (c, tr) -> held (c_store c) = Some (it :: rest) -> wire_after None tr = Some [] ->
  c_fd c = true -> encode_rsp a = EncOk bs -> replies_to (i_req it) a -> q_tid (i_req it) < 65536 ->
  0 <= q_addr (i_req it) < 256 -> a_func a <> 143 ->
  exists c' os data, boot m0 b0 (es ++ [EData (RxBytes bs)]) =
      Some (c', tr ++ [(EData (RxBytes bs), ORsp (i_client it) (q_tid (i_req it)) true 0 data :: os)]) /\
    rsps os = [] /\ (In (a_func a) [3; 4; 5; 6] -> data = firstn (Z.to_nat (a_nbytes a)) (a_data a)).
Proof. exact boot_deliver. Qed.
Print Assumptions C61_reply_delivered_partial.

Example C61_case : exists c tr l, boot m_init b_init (up ++ [EReq reqA; ETimer true true]) = Some (c, tr) /\
  held (c_store c) = Some l /\ map ids l = [ids reqA] /\ wire_after None tr = Some [] /\ c_fd c = true /\
  encode_rsp (mkRsp 5 3 17 0 0 0 4 [1; 2; 3; 4]) = EncOk replyA.
Proof. do 3 eexists. split; [vm_compute; reflexivity|]. repeat split; vm_compute; reflexivity. Qed.

(** No request with a transaction id of 65536 or more ever succeeds. *)
Theorem C61_large_transaction_id_refuted : forall m0 b0 es c tr,
  length b0 = 512%nat -> bytes_ok b0 -> Forall ev_ok es -> boot m0 b0 es = Some (c, tr) ->
  Forall (fun x => forall c t err data, In (ORsp c t true err data) (snd x) -> 0 <= t < 65536) tr.
Proof. exact boot_success_limits. Qed.
Print Assumptions C61_large_transaction_id_refuted.

(** Clients reading coils or discrete inputs never get any data. *)
Theorem C61_read_bits_refuted : forall m0 b0 es c tr,
  length b0 = 512%nat -> bytes_ok b0 -> Forall ev_ok es -> boot m0 b0 es = Some (c, tr) ->
  Forall (fun it => In (q_func (i_req it)) [1; 2]) (submitted tr) ->
  Forall (fun x => forall c t err data, In (ORsp c t true err data) (snd x) -> data = []) tr.
Proof. exact boot_bits. Qed.
Print Assumptions C61_read_bits_refuted.

Example C61_read_bits_case : Forall ev_ok (up ++ [EReq (mkItem 1 (mkReq 5 1 17 0 8 0 [])); ETimer true true; EData (RxBytes [0; 5; 0; 0; 0; 4; 17; 1; 1; 255])]) /\
  outs (up ++ [EReq (mkItem 1 (mkReq 5 1 17 0 8 0 [])); ETimer true true; EData (RxBytes [0; 5; 0; 0; 0; 4; 17; 1; 1; 255])]) =
  Some [[OTimer 3000000; OConnect]; [OStop]; [OTimer 10000];
        [OTx [0; 5; 0; 0; 0; 6; 17; 1; 0; 0; 0; 8]; OStop; OTimer 5000000]; [ORsp 1 5 false 0 []; OStop; OTimer 10000]].
Proof. split; [apply evb_ok; vm_compute; reflexivity|vm_compute; reflexivity]. Qed.
