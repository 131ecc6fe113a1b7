(** Theorems about a client and a server channel of the secure channel library with each other, C130. *)
From Verif Require Import Base ModbusCodecSpec ModbusClientModel UaCodecModel UaTcpModel UaTcpSpec UaTcpProofs UaTcpFacts UaChanModel UaChanSpec
  ProtoConnModel ProtoConnSpec SecLibModel SecLibSpec SecLibRuns SecLibPair.
Local Open Scope Z_scope.

(** * C130 *)

(** The events of a client that connects, gets the acknowledge packet and then [rsp]. *)
Definition dat (n : nat) (rnd t1 t2 : Z) (tl : nat) (p : list Z) : sev := SvData (RxBytes p) (Some n) rnd t1 t2 tl [].
Definition dialling (n : nat) (rc rnd t1 t2 : Z) (tl : nat) (rsp : list Z) : list sev :=
  [SvOpen true true true rc; SvConnected (Some n) []; dat n rnd t1 t2 tl ack_packet; dat n rnd t1 t2 tl rsp].

(** A valid open response that grants a lifetime above 4.096 seconds makes the client read outside of its buffer: it takes
    the lifetime for the length of the nonce. *)
Theorem C130_undefined bc ic n rc rnd t1 t2 tl i q r tok u1 u2 life : umem_ok bc -> is_u32 i -> is_u32 q -> is_u32 r -> 4096 < life < 2147483648 ->
  (exists xc oc, srun RClient (sch_new bc ic) (firstn 3 (dialling n rc rnd t1 t2 tl [])) = Some (xc, oc)) /\
  srun RClient (sch_new bc ic) (dialling n rc rnd t1 t2 tl (opn_pkt i q r tok u1 u2 life)) = None.
Proof.
  intros [Mc _] Hi Hq Hr Hl. destruct ic as [[[[a b] c] d] e].
  assert (LC : length bc = pktLen) by (assert (Z.of_nat pktLen = 4096) by (vm_compute; reflexivity); lia).
  assert (LA : (length ack_packet <= pktLen)%nat) by (apply le_pkt; vm_compute; discriminate).
  assert (NI : forall x ev es, s_step RClient x ev = None -> srun RClient x (ev :: es) = None).
  { intros x ev es H. cbn [srun]. rewrite H. destruct (s_enabled x ev); reflexivity. }
  assert (CN : forall x ev es x1 o t, s_step RClient x ev = Some (x1, o, t) -> srun RClient x1 es = None -> srun RClient x (ev :: es) = None).
  { intros x ev es x1 o t H1 H2. cbn [srun]. rewrite H1, H2. destruct (s_enabled x ev); reflexivity. }
  split.
  - eexists _, _. unfold dialling. cbn [firstn]. eapply srun_cons; [reflexivity|apply client_dials|]. eapply srun_cons; [reflexivity|apply client_greets|].
    eapply srun_cons; [reflexivity|apply client_ack; exact LC|]. reflexivity.
  - unfold dialling. eapply CN; [apply client_dials|]. eapply CN; [apply client_greets|]. eapply CN; [apply client_ack; exact LC|].
    apply NI. unfold dat. apply (client_hurt n); [apply bw_len; [exact LC|exact LA]|assumption..].
Qed.
Theorem C130_refuted :
  ~ (forall bc ic n rc rnd t1 t2 tl i q r tok u1 u2 life, umem_ok bc -> ini_ok ic -> 4096 <= Z.of_nat n -> is_u32 i -> is_u32 q -> is_u32 r -> is_u32 tok -> is_u32 life ->
       exists xc oc, srun RClient (sch_new bc ic) (dialling n rc rnd t1 t2 tl (opn_pkt i q r tok u1 u2 life)) = Some (xc, oc) /\ s_st xc = SEst).
Proof.
  intros H. assert (U : forall z, 0 <= z < 4294967296 -> is_u32 z) by (intros; assumption).
  destruct (H zbuf zini (Z.to_nat 4096) 0 0 0 0 0%nat 55 1 0 77 0 0 3600000 zbuf_ok zini_ok ltac:(lia)) as (xc & oc & E & _); try (apply U; lia).
  destruct (C130_undefined zbuf zini (Z.to_nat 4096) 0 0 0 0 0%nat 55 1 0 77 0 0 3600000 zbuf_ok) as [_ B]; try (apply U; lia); [lia|]. rewrite E in B. discriminate B.
Qed.

(** With a server channel of the library itself the opening succeeds, whatever the memories hold, whatever rand() and the
    clocks return, the packets being taken and delivered whole: each side is given exactly what the other one wrote, and
    both end up established. *)
Theorem C130_partial bc ic bs is n rc rs rnd t1 t2 tl lok cok : umem_ok bc -> umem_ok bs -> 4096 <= Z.of_nat n -> 0 <= rs -> 0 <= rnd ->
  exists rsp oc os xc xs,
    let ec := dialling n rc rnd t1 t2 tl rsp in
    let es := [SvOpen lok true cok rs; dat n rnd t1 t2 tl hello_packet; dat n rnd t1 t2 tl opn_req] in
    srun RClient (sch_new bc ic) ec = Some (xc, oc) /\ srun RServer (sch_new bs is) es = Some (xs, os) /\
    given ec = wrote os /\ given es = wrote oc /\ s_st xc = SEst /\ s_st xs = SEst /\
    rsp = opn_pkt (rs mod 2147483647) 1 0 (rnd mod 2147483647) t1 t2 0.
Proof.
  intros Mc Ms Hn Hr Hd. destruct (pair_up bc ic bs is n rc rs rnd t1 t2 tl lok cok Mc Ms Hn Hr Hd) as (rsp & oc & os & xc & xs & H1 & H2 & H3 & H4 & H5 & H6 & H7).
  exists rsp, oc, os, xc, xs. cbv zeta. unfold dialling, dat. split; [exact H1|]. split; [exact H2|]. split; [exact H3|]. split; [exact H4|]. split; [exact H5|]. split; [exact H6|exact H7].
Qed.
(** Concretely. *)
Example C130_case : exists rsp oc xc, srun RClient (sch_new zbuf zini) (dialling (Z.to_nat 5000) 1 77 0 0 0 rsp) = Some (xc, oc) /\ s_st xc = SEst /\ le_at 8 rsp = 55.
Proof.
  destruct (C130_partial zbuf zini zbuf zini (Z.to_nat 5000) 1 55 77 0 0 0 true true zbuf_ok zbuf_ok) as (rsp & oc & os & xc & xs & H1 & _ & _ & _ & H5 & _ & H7); [lia..|].
  exists rsp, oc, xc. split; [exact H1|]. split; [exact H5|]. rewrite H7. vm_compute. reflexivity.
Qed.

Print Assumptions C130_undefined.
Print Assumptions C130_refuted.
Print Assumptions C130_partial.
