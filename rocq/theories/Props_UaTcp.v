(** Theorems about the UA TCP transport, C41-C44, C71-C74. *)
From Verif Require Import Base QueueModel PoolModel ModbusCodecModel ModbusCodecSpec ModbusClientModel ModbusClientProofs
  UaCodecModel UaCodecSpec UaCodecProofs UaTcpModel UaTcpSpec UaTcpProofs UaTcpRuns UaTcpFacts UaNet.
Local Open Scope Z_scope.

(** Memory contents used by the examples. *)
Definition zbuf : list Z := repeat 0 (Z.to_nat 4096).
Lemma zbuf_ok : umem_ok zbuf.
Proof.
  split; [unfold zbuf; rewrite repeat_length; lia|]. apply Forall_forall. intros x Hx. apply repeat_spec in Hx as ->. unfold is_byte. lia.
Qed.
Definition all : option nat := Some (Z.to_nat 4096).
Definition take : tev := EvAccept true true true.
(** A hello message without url. *)
Definition hel : list Z := [72; 69; 76; 70; 32; 0; 0; 0] ++ repeat 0 24.
Definition hello_read (u : Z) : tev := EvData u (RxBytes hel) all.
Definition started (u : Z) : list uout := [UArm u 30000000].
Definition acked_out (u : Z) : list uout := [UTx u ack_packet 28; UDisarm u; UArm u 30000000].
(** A packet of the given type with channel id and payload. *)
Definition pkt (k : kind) (ch : Z) (d : list Z) : list Z :=
  kind_octets k ++ [70] ++ le_bytes 4 (12 + Z.of_nat (length d)) ++ le_bytes 4 ch ++ d.

(** * C41 *)

(** Every packet handed to the kernel carries its exact length, and is the acknowledge or the packet of
    the message being sent. *)
Theorem C41_sizes_partial b0 v tr e v' os uid p n : ureach b0 v tr -> tev_ok e -> tsrv_enabled v e = true ->
  tsrv_step v e = Some (v', os) -> In (UTx uid p n) os ->
  sized p /\ (p = ack_packet \/ exists k m w, e = EvMsg k m w /\ um_conn m = uid /\ p = packet_of k m).
Proof.
  intros HR Hev Hen Hs Hi. destruct (tx_facts _ _ _ _ _ _ HR Hev Hen Hs _ _ _ Hi) as [_ [(-> & _)|(k & m & w & -> & Hu & Hm & _ & -> & _)]].
  - split; [apply ack_sized|auto].
  - split; [now apply packet_sized|]. right. eauto 6.
Qed.

Definition opn_rsp (u ch : Z) (d : list Z) : umsg := mkUm u ch 2 (Z.of_nat (length d)) d.

(** What the kernel took need not be all of it; the connection goes on as if it were. *)
Theorem C41_refuted :
  ~ (forall b0 v tr e v' os uid p n, ureach b0 v tr -> tev_ok e -> tsrv_enabled v e = true ->
       tsrv_step v e = Some (v', os) -> In (UTx uid p n) os -> sized (firstn n p) \/ In (UFree uid) os).
Proof.
  intros H.
  destruct (uouts_last zbuf [take; hello_read 1] [started 1; acked_out 1] (EvMsg KOpn (opn_rsp 1 5 [1; 2; 3]) (Some 9%nat))
    [UTx 1 (packet_of KOpn (opn_rsp 1 5 [1; 2; 3])) 9] zbuf_ok) as (v & v' & R & He & Hen & Hs);
    [vm_compute; reflexivity|reflexivity|vm_compute; reflexivity|].
  destruct (H _ _ _ _ _ _ 1 (packet_of KOpn (opn_rsp 1 5 [1; 2; 3])) 9%nat R He Hen Hs) as [(_ & _ & E)|E].
  - left. reflexivity.
  - vm_compute in E. discriminate.
  - cbn in E. intuition discriminate.
Qed.

Example C41_case : exists v v', ureach zbuf v (combine [take; hello_read 1] [started 1; acked_out 1]) /\
  tsrv_step v (EvMsg KOpn (opn_rsp 1 5 [1; 2; 3]) all) =
    Some (v', [UTx 1 [79; 80; 78; 70; 15; 0; 0; 0; 5; 0; 0; 0; 1; 2; 3] 15]) /\
  sized [79; 80; 78; 70; 15; 0; 0; 0; 5; 0; 0; 0; 1; 2; 3].
Proof.
  destruct (uouts_last zbuf [take; hello_read 1] [started 1; acked_out 1] (EvMsg KOpn (opn_rsp 1 5 [1; 2; 3]) all)
    [UTx 1 [79; 80; 78; 70; 15; 0; 0; 0; 5; 0; 0; 0; 1; 2; 3] 15] zbuf_ok) as (v & v' & R & He & Hen & Hs);
    [vm_compute; reflexivity|reflexivity|vm_compute; reflexivity|].
  exists v, v'. split; [exact R|]. split; [exact Hs|]. split; [apply octetsb_ok; reflexivity|]. split; [cbn; lia|reflexivity].
Qed.

(** * C42 *)

(** A message cut into any pieces is recognised exactly when its last piece arrives, with the
    effect and the resulting state of receiving it in one read; also when more octets follow. *)
Theorem C42_segments b0 v tr uid w m segs y : ureach b0 v tr -> ulive uid tr -> uboundary uid tr ->
  tsrv_enabled v (EvData uid (RxBytes []) w) = true ->
  sized m -> Z.of_nat (length m) <= 4096 -> m = concat segs ++ y -> y <> [] -> Z.of_nat (length (concat segs)) <= 1024 ->
  exists v1, tsrv_run v (reads_of uid w segs) = Some (v1, map (fun e => (e, [])) (reads_of uid w segs)) /\
    ureach b0 v1 (tr ++ map (fun e => (e, [])) (reads_of uid w segs)) /\
    tsrv_enabled v1 (EvData uid (RxBytes y) w) = true /\
    forall z, Z.of_nat (length (m ++ z)) <= 4096 ->
      tsrv_step v1 (EvData uid (RxBytes (y ++ z)) w) = tsrv_step v (EvData uid (RxBytes (m ++ z)) w).
Proof. intros HR HL HB Hen. exact (segments b0 v tr uid w HR HL HB Hen m segs y). Qed.

(** A complete message on a connection past the handshake is handed on with all octets behind its header, if its type and
    channel allow, and closes the connection otherwise. *)
Theorem C42_delivered b0 v tr uid w m : ureach b0 v tr -> uacked uid tr -> uboundary uid tr ->
  tsrv_enabled v (EvData uid (RxBytes []) w) = true ->
  sized m -> (12 <= length m)%nat -> Z.of_nat (length m) <= 4072 ->
  exists v' os tail, tsrv_step v (EvData uid (RxBytes m) w) = Some (v', os) /\ length tail = 12%nat /\
    delivery uid (uchan uid tr) m tail os.
Proof.
  intros HR HA HB Hen. exact (delivered b0 v tr uid w HR (acked_live _ _ _ _ HR HA) HB Hen m HA).
Qed.

(** Octets after a complete message in the same read end the connection; nothing is handed on. *)
Theorem C42_trailing b0 v tr uid w m z : ureach b0 v tr -> ulive uid tr -> uboundary uid tr ->
  tsrv_enabled v (EvData uid (RxBytes []) w) = true ->
  sized m -> bytes_ok z -> z <> [] -> Z.of_nat (length (m ++ z)) <= 4096 ->
  exists v', tsrv_step v (EvData uid (RxBytes (m ++ z)) w) = Some (v', closing uid (uchan uid tr)).
Proof. intros HR HL HB Hen. exact (trailing b0 v tr uid w HR HL HB Hen m z). Qed.

(** Beyond the bound: with more than 1024 octets of an incomplete message received, further data ends the connection. *)
Theorem C42_backlog b0 v tr uid r w : ureach b0 v tr -> ulive uid tr -> 1024 < Z.of_nat (length (g_rx (uview_of uid tr))) ->
  tsrv_enabled v (EvData uid r w) = true -> tev_ok (EvData uid r w) ->
  exists v', tsrv_step v (EvData uid r w) = Some (v', closing uid (uchan uid tr)).
Proof. apply backlog. Qed.

Definition hand_run : list tev := [take; hello_read 1; EvMsg KOpn (opn_rsp 1 5 [7]) all].
Definition hand_outs : list (list uout) :=
  [started 1; acked_out 1; [UTx 1 (packet_of KOpn (opn_rsp 1 5 [7])) 13]].
(** A connected client at a boundary, and a message in three pieces. *)
Example C42_case : exists v v1 v2, ureach zbuf v (combine hand_run hand_outs) /\
  uacked 1 (combine hand_run hand_outs) /\ uboundary 1 (combine hand_run hand_outs) /\
  sized (pkt KMsg 5 [9; 8; 7]) /\
  tsrv_run v (reads_of 1 all [firstn 2 (pkt KMsg 5 [9; 8; 7]); firstn 8 (skipn 2 (pkt KMsg 5 [9; 8; 7]))]) =
    Some (v1, [(EvData 1 (RxBytes [77; 83]) all, []); (EvData 1 (RxBytes [71; 70; 15; 0; 0; 0; 5; 0]) all, [])]) /\
  tsrv_step v1 (EvData 1 (RxBytes [0; 0; 9; 8; 7]) all) =
    Some (v2, [UFwd KMsg 1 5 2 15 ([9; 8; 7] ++ [0; 0; 0; 0; 0; 0; 0; 0; 0; 0; 0; 0]); UArm 1 30000000]).
Proof.
  destruct (uouts_last zbuf hand_run hand_outs
    (EvData 1 (RxBytes (pkt KMsg 5 [9; 8; 7])) all)
    [UFwd KMsg 1 5 2 15 ([9; 8; 7] ++ [0; 0; 0; 0; 0; 0; 0; 0; 0; 0; 0; 0]); UArm 1 30000000]
    zbuf_ok) as (v & v' & R & He & Hen & Hs); [vm_compute; reflexivity|reflexivity|vm_compute; reflexivity|].
  assert (Hsz : sized (pkt KMsg 5 [9; 8; 7])) by (split; [apply octetsb_ok; reflexivity|split; [cbn; lia|reflexivity]]).
  assert (HA : uacked 1 (combine hand_run hand_outs)) by reflexivity.
  assert (HB : uboundary 1 (combine hand_run hand_outs)) by reflexivity.
  destruct (C42_segments zbuf v _ 1 all (pkt KMsg 5 [9; 8; 7])
    [firstn 2 (pkt KMsg 5 [9; 8; 7]); firstn 8 (skipn 2 (pkt KMsg 5 [9; 8; 7]))] [0; 0; 9; 8; 7] R
    (acked_live _ _ _ _ R HA) HB Hen Hsz) as (v1 & Hr & _ & _ & Hz); [vm_compute; congruence|reflexivity|congruence|vm_compute; congruence|].
  exists v, v1, v'. split; [exact R|]. split; [exact HA|]. split; [exact HB|]. split; [exact Hsz|]. split; [exact Hr|].
  specialize (Hz []). rewrite !app_nil_r in Hz. rewrite Hz by (vm_compute; congruence). exact Hs.
Qed.

(** * C43 *)

Theorem C43_forward b0 v tr e v' os k uid ch ck len d : ureach b0 v tr -> tev_ok e -> tsrv_enabled v e = true ->
  tsrv_step v e = Some (v', os) -> In (UFwd k uid ch ck len d) os ->
  uacked uid tr /\ ulive uid tr /\ (k <> KOpn -> uchan uid tr = Some ch) /\ exists r w, e = EvData uid r w.
Proof. intros. eapply fwd_facts; eauto. Qed.

Example C43_case : exists v v', ureach zbuf v (combine hand_run hand_outs) /\
  uchan 1 (combine hand_run hand_outs) = Some 5 /\
  tsrv_step v (EvData 1 (RxBytes (pkt KClo 5 [9])) all) =
    Some (v', [UFwd KClo 1 5 2 13 ([9] ++ [0; 0; 0; 0; 0; 0; 0; 0; 0; 0; 0; 0]); UArm 1 30000000]).
Proof.
  destruct (uouts_last zbuf hand_run hand_outs (EvData 1 (RxBytes (pkt KClo 5 [9])) all)
    [UFwd KClo 1 5 2 13 ([9] ++ [0; 0; 0; 0; 0; 0; 0; 0; 0; 0; 0; 0]); UArm 1 30000000]
    zbuf_ok) as (v & v' & R & He & Hen & Hs); [vm_compute; reflexivity|reflexivity|vm_compute; reflexivity|]. eauto.
Qed.

(** * C44 *)

(** Starts and releases of every connection alternate; exactly while it is started its 30 second timer is armed. *)
Theorem C44_lifecycle_partial b0 v tr uid : ureach b0 v tr ->
  (g_starts (uview_of uid tr) = g_frees (uview_of uid tr) \/ ulive uid tr) /\
  (ulive uid tr -> 1 <= uid <= 32 /\ g_armed (uview_of uid tr) = Some 30000000) /\
  (~ ulive uid tr -> g_armed (uview_of uid tr) = None).
Proof. apply conn_counts. Qed.

(** The timer, a read error, and for a connection past the handshake a release request, end a connection. *)
Theorem C44_ends b0 v tr uid w : ureach b0 v tr -> ulive uid tr ->
  (tsrv_enabled v (EvTimer uid) = true /\ exists v', tsrv_step v (EvTimer uid) = Some (v', closing uid (uchan uid tr))) /\
  (tsrv_enabled v (EvData uid RxErr w) = true ->
     exists v', tsrv_step v (EvData uid RxErr w) = Some (v', closing uid (uchan uid tr))) /\
  (uacked uid tr -> exists v', tsrv_step v (EvRelease uid) = Some (v', [UDisarm uid; UFree uid])).
Proof.
  intros HR HL. split; [now apply (timer_total b0)|]. split; [now apply (readerr_total b0)|now apply (release_total b0)].
Qed.

(** A client is served exactly if fewer than 32 ids are taken, by live connections or by
    accepts that found no timer. *)
Theorem C44_accept_partial b0 v tr tok : ureach b0 v tr -> exists v' os, tsrv_step v (EvAccept true true tok) = Some (v', os) /\
  ((utotal ustarts tr - utotal ufrees tr + utotal unotimer tr = 32)%nat /\ os = [] \/
   (utotal ustarts tr - utotal ufrees tr + utotal unotimer tr < 32)%nat /\
     exists uid, 1 <= uid <= 32 /\ ~ ulive uid tr /\ os = if tok then [UArm uid 30000000] else [UThrow]).
Proof. apply accept_total. Qed.

Theorem C44_bounds b0 v tr : ureach b0 v tr ->
  (utotal ufrees tr <= utotal ustarts tr)%nat /\ (utotal ustarts tr - utotal ufrees tr + utotal unotimer tr <= 32)%nat.
Proof. apply total_counts. Qed.

Definition leak_run (n : nat) : list tev := repeat (EvAccept true true false) n.
Definition leak_outs (n : nat) : list (list uout) := repeat [UThrow] n.

(** An id taken by such an accept is never returned: after 32 of them no client is served again, although none is connected. *)
Theorem C44_refuted :
  ~ (forall b0 v tr v' os, ureach b0 v tr -> utotal ustarts tr = utotal ufrees tr ->
       tsrv_step v (EvAccept true true true) = Some (v', os) -> exists uid, os = [UArm uid 30000000]).
Proof.
  intros H.
  destruct (uouts_last zbuf (leak_run 32) (leak_outs 32) (EvAccept true true true) [] zbuf_ok) as (v & v' & R & He & Hen & Hs);
    [reflexivity|reflexivity|vm_compute; reflexivity|].
  destruct (H _ _ _ _ _ R eq_refl Hs) as [u E]. discriminate.
Qed.

(** Errors reported for the link itself do not end a connection; its timer does. *)
Example C44_case : exists v v', ureach zbuf v (combine (hand_run ++ [EvError 1]) (hand_outs ++ [[]])) /\
  ulive 1 (combine (hand_run ++ [EvError 1]) (hand_outs ++ [[]])) /\
  tsrv_step v (EvTimer 1) = Some (v', [URelInd 1 5; UDisarm 1; UFree 1]).
Proof.
  destruct (uouts_last zbuf (hand_run ++ [EvError 1]) (hand_outs ++ [[]]) (EvTimer 1) [URelInd 1 5; UDisarm 1; UFree 1]
    zbuf_ok) as (v & v' & R & He & Hen & Hs); [vm_compute; reflexivity|reflexivity|vm_compute; reflexivity|]. exists v, v'.
  split; [exact R|]. split; [reflexivity|exact Hs].
Qed.

(** * C71 *)

(** An acknowledge goes only to a live connection that has not been acknowledged, in reaction to data from it;
    what is sent afterwards are messages of the secure channel layer. *)
Theorem C71_once_partial b0 v tr e v' os uid p n : ureach b0 v tr -> tev_ok e -> tsrv_enabled v e = true ->
  tsrv_step v e = Some (v', os) -> In (UTx uid p n) os ->
  ulive uid tr /\
  ((p = ack_packet /\ ~ uacked uid tr /\ exists r w, e = EvData uid r w) \/
   (exists k m w, e = EvMsg k m w /\ um_conn m = uid /\ uacked uid tr /\ p = packet_of k m)).
Proof.
  intros HR Hev Hen Hs Hi. destruct (tx_facts _ _ _ _ _ _ HR Hev Hen Hs _ _ _ Hi) as [HL [A|(k & m & w & -> & Hu & Hm & HA & -> & _)]].
  - auto.
  - split; [auto|]. right. eauto 8.
Qed.

(** The message acknowledged need not be a hello. *)
Theorem C71_refuted :
  ~ (forall b0 v tr v' os uid m w p n, ureach b0 v tr -> bytes_ok m -> tsrv_enabled v (EvData uid (RxBytes m) w) = true ->
       uboundary uid tr -> tsrv_step v (EvData uid (RxBytes m) w) = Some (v', os) -> In (UTx uid p n) os ->
       firstn 3 m = [72; 69; 76]).
Proof.
  intros H. set (m := [77; 83; 71; 70; 32; 0; 0; 0] ++ repeat 0 24).
  destruct (uouts_last zbuf [take] [started 1] (EvData 1 (RxBytes m) all) (acked_out 1) zbuf_ok) as (v & v' & R & He & Hen & Hs);
    [reflexivity|reflexivity|vm_compute; reflexivity|].
  assert (X := H _ _ _ _ _ 1 m all ack_packet 28%nat R He Hen eq_refl Hs (or_introl eq_refl)). discriminate X.
Qed.

(** * C72 *)

(** What is handed on begins with all the octets behind the header. *)
Theorem C72_payload_partial b0 v tr uid w m v' os k ch ck len d : ureach b0 v tr -> uacked uid tr -> uboundary uid tr ->
  tsrv_enabled v (EvData uid (RxBytes m) w) = true ->
  sized m -> (12 <= length m)%nat -> Z.of_nat (length m) <= 4072 ->
  tsrv_step v (EvData uid (RxBytes m) w) = Some (v', os) -> In (UFwd k uid ch ck len d) os ->
  has_type m k /\ ch = le_at 8 m /\ len = Z.of_nat (length m) /\ exists tail, length tail = 12%nat /\ d = skipn 12 m ++ tail.
Proof.
  intros HR HA HB Hen Hm H12 Hmax Hs Hi.
  destruct (C42_delivered b0 v tr uid w m HR HA HB Hen Hm H12 Hmax) as (v2 & os2 & tail & E & Ht & D1 & D2 & D3 & D4).
  rewrite E in Hs. apply some2 in Hs as (<- & <-).
  assert (Hc : os2 = closing uid (uchan uid tr) -> False).
  { intros ->. unfold closing in Hi. destruct (uchan uid tr); cbn in Hi; intuition discriminate. }
  assert (Hk : (exists k', has_type m k') \/ forall k', ~ has_type m k').
  { destruct (kind_of m) as [k'|] eqn:Ek.
    - left. exists k'. destruct m as [|a [|b [|c r]]]; try discriminate. now apply kind_of_spec in Ek.
    - right. intros k' Hk'. do 3 (destruct m as [|? m]; [cbn in H12; lia|]). apply (kind_of_spec _ _ _ m) in Hk'. congruence. }
  destruct Hk as [[k' Hk']|Hn]; [|exfalso; auto].
  assert (F : os2 = [UFwd k' uid (le_at 8 m) (chunk_code (nth 3 m 0)) (Z.of_nat (length m)) (skipn 12 m ++ tail); UArm uid 30000000]).
  { assert (Hch : uchan uid tr = Some (le_at 8 m) \/ uchan uid tr <> Some (le_at 8 m)).
    { destruct (uchan uid tr) as [x|]; [|right; congruence]. destruct (Z.eq_dec x (le_at 8 m)); [left|right]; congruence. }
    destruct k'.
    - destruct Hch; [apply D2; congruence|exfalso; apply Hc, (D3 KMsg); congruence].
    - now apply D1.
    - destruct Hch; [apply D2; congruence|exfalso; apply Hc, (D3 KClo); congruence]. }
  subst os2. cbn in Hi. destruct Hi as [Hi|[Hi|[]]]; [|discriminate]. injection Hi as <- <- <- <- <-. eauto 6.
Qed.

(** It does not end there: twelve octets left over in the receive buffer from earlier messages, possibly of
    another client, follow; and the length handed on counts them. *)
Theorem C72_refuted :
  ~ (forall b0 v tr uid w m v' os k ch ck len d, ureach b0 v tr -> uacked uid tr -> uboundary uid tr ->
       tsrv_enabled v (EvData uid (RxBytes m) w) = true -> sized m -> (12 <= length m)%nat -> Z.of_nat (length m) <= 4072 ->
       tsrv_step v (EvData uid (RxBytes m) w) = Some (v', os) -> In (UFwd k uid ch ck len d) os ->
       len = Z.of_nat (length (skipn 12 m))).
Proof.
  intros H.
  destruct (uouts_last zbuf [take; hello_read 1] [started 1; acked_out 1] (EvData 1 (RxBytes (pkt KOpn 0 [1])) all)
    [UFwd KOpn 1 0 2 13 ([1] ++ repeat 0 12); UArm 1 30000000] zbuf_ok) as (v & v' & R & He & Hen & Hs);
    [reflexivity|reflexivity|vm_compute; reflexivity|].
  assert (X : 13 = 1); [|discriminate].
  refine (H _ _ _ 1 all _ _ _ KOpn 0 2 13 ([1] ++ repeat 0 12) R eq_refl eq_refl Hen _ _ _ Hs (or_introl eq_refl)).
  - split; [apply octetsb_ok; reflexivity|split; [cbn; lia|reflexivity]].
  - cbn. lia.
  - cbn. lia.
Qed.

(** A message of eight octets is shorter than its header; the channel id is then taken from left-over octets. *)
Theorem C72_short_refuted :
  ~ (forall b0 v tr uid w m v' os k ch ck len d, ureach b0 v tr -> uacked uid tr -> uboundary uid tr -> tsrv_enabled v (EvData uid (RxBytes m) w) = true ->
       sized m -> tsrv_step v (EvData uid (RxBytes m) w) = Some (v', os) -> In (UFwd k uid ch ck len d) os -> (12 <= length m)%nat).
Proof.
  intros H. set (m := [77; 83; 71; 70; 8; 0; 0; 0]).
  destruct (uouts_last zbuf (hand_run ++ [EvData 1 (RxBytes (pkt KMsg 5 [9])) all])
    (hand_outs ++ [[UFwd KMsg 1 5 2 13 ([9] ++ [0; 0; 0; 0; 0; 0; 0; 0; 0; 0; 0; 0]); UArm 1 30000000]])
    (EvData 1 (RxBytes m) all) [UFwd KMsg 1 5 2 8 [9; 0; 0; 0; 0; 0; 0; 0]; UArm 1 30000000] zbuf_ok) as (v & v' & R & He & Hen & Hs);
    [reflexivity|reflexivity|vm_compute; reflexivity|].
  assert (X : (12 <= length m)%nat); [|cbn in X; lia].
  refine (H _ _ _ 1 all _ _ _ KMsg 5 2 8 [9; 0; 0; 0; 0; 0; 0; 0] R eq_refl eq_refl Hen _ Hs (or_introl eq_refl)).
  split; [apply octetsb_ok; reflexivity|split; [cbn; lia|reflexivity]].
Qed.

(** * C73 *)

(** Messages other than open-channel responses go out only on the connection their channel is associated with. *)
Theorem C73_sent_partial b0 v tr v' os uid p n k m w : ureach b0 v tr -> umsg_ok m ->
  tsrv_step v (EvMsg k m w) = Some (v', os) -> In (UTx uid p n) os ->
  uid = um_conn m /\ p = packet_of k m /\ (k <> KOpn -> uchan uid tr = Some (um_chan m)).
Proof.
  intros HR Hev Hs Hi. destruct (tx_facts b0 v tr (EvMsg k m w) v' os HR Hev eq_refl Hs _ _ _ Hi)
    as [HL [(_ & _ & r & w' & X)|(k2 & m2 & w2 & E & Hu & Hm & HA & -> & _ & Hch)]].
  - discriminate.
  - injection E as <- <- <-. auto.
Qed.

Definition reuse_run : list tev :=
  [take; hello_read 1; EvData 1 (RxBytes (pkt KOpn 0 [1])) all; EvTimer 1] ++ repeat take 31 ++ [take; hello_read 1].
Definition reuse_outs : list (list uout) :=
  [started 1; acked_out 1; [UFwd KOpn 1 0 2 13 ([1] ++ repeat 0 12); UArm 1 30000000]; [UDisarm 1; UFree 1]] ++
  map (fun i => started (Z.of_nat i)) (seq 2 31) ++ [started 1; acked_out 1].
(** An open-channel response for a client that has gone is sent to the client that has its connection id now, which
    has asked for nothing; the channel becomes associated with that client. *)
Theorem C73_refuted :
  ~ (forall b0 v tr v' os uid p n k m w, ureach b0 v tr -> umsg_ok m -> tsrv_step v (EvMsg k m w) = Some (v', os) ->
       In (UTx uid p n) os -> uasked uid tr = true).
Proof.
  intros H. set (m := opn_rsp 1 5 [7]).
  destruct (uouts_last zbuf reuse_run reuse_outs (EvMsg KOpn m all) [UTx 1 (packet_of KOpn m) 13] zbuf_ok) as (v & v' & R & He & Hen & Hs);
    [reflexivity|reflexivity|vm_compute; reflexivity|].
  assert (X := H _ _ _ _ _ 1 _ 13%nat _ _ _ R He Hs (or_introl eq_refl)). discriminate X.
Qed.

(** * C74 *)

(** Up to 4072 octets, data on a connection past the handshake never leaves the buffers. *)
Theorem C74_bounded_partial b0 v tr uid r w : ureach b0 v tr -> uacked uid tr -> tev_ok (EvData uid r w) ->
  tsrv_enabled v (EvData uid r w) = true ->
  Z.of_nat (length (g_rx (uview_of uid tr)) + match r with RxBytes bs => length bs | _ => 0 end) <= 4072 ->
  exists v' os, tsrv_step v (EvData uid r w) = Some (v', os).
Proof. apply data_defined. Qed.

(** Every longer packet that is to be forwarded is copied beyond the end of the message it is forwarded in. *)
Theorem C74_overflow b0 v tr uid m w : ureach b0 v tr -> uacked uid tr -> uboundary uid tr ->
  tsrv_enabled v (EvData uid (RxBytes []) w) = true -> sized m -> 4072 < Z.of_nat (length m) <= 4096 ->
  (has_type m KOpn \/ exists k, has_type m k /\ uchan uid tr = Some (le_at 8 m)) ->
  tsrv_step v (EvData uid (RxBytes m) w) = None.
Proof. apply overflow. Qed.

Definition big_pkt : list Z := kind_octets KOpn ++ [70] ++ le_bytes 4 4073 ++ repeat 0 (Z.to_nat 4065).
Lemma big_sized : sized big_pkt /\ length big_pkt = Z.to_nat 4073.
Proof.
  assert (HL : length big_pkt = Z.to_nat 4073).
  { unfold big_pkt. rewrite !app_length, repeat_length, le_bytes_length. cbn [length kind_octets]. lia. }
  split; [|exact HL]. split; [|split; [lia|]].
  - unfold big_pkt, bytes_ok. rewrite !Forall_app. split; [apply octetsb_ok; reflexivity|]. split; [apply octetsb_ok; reflexivity|].
    split; [apply le_bytes_ok|]. apply Forall_forall. intros x Hx. apply repeat_spec in Hx as ->. unfold is_byte. lia.
  - rewrite HL. reflexivity.
Qed.
Theorem C74_refuted :
  ~ (forall b0 v tr uid m w, ureach b0 v tr -> uacked uid tr -> uboundary uid tr ->
       tsrv_enabled v (EvData uid (RxBytes []) w) = true -> sized m -> Z.of_nat (length m) <= 4096 ->
       tsrv_step v (EvData uid (RxBytes m) w) <> None).
Proof.
  intros H.
  destruct (uouts_last zbuf [take; hello_read 1] [started 1; acked_out 1] (EvData 1 (RxBytes []) all) [] zbuf_ok) as (v & v' & R & He & Hen & Hs);
    [reflexivity|reflexivity|vm_compute; reflexivity|].
  destruct big_sized as [B1 B2].
  apply (H _ _ _ 1 big_pkt all R eq_refl eq_refl Hen B1); [rewrite B2; lia|].
  apply (C74_overflow _ _ _ 1 big_pkt all R eq_refl eq_refl Hen B1); [rewrite B2; lia|]. left. reflexivity.
Qed.

(** What leaves the buffers, exactly, however the octets arrive: of the octets received since the last message at most 4096 count; they are left
    if there were at most 1024 before, they are a packet that announces its own size, it is longer than 4072 octets and is to be forwarded. *)
Theorem C74_exact b0 v tr uid bs w m : ureach b0 v tr -> uacked uid tr -> bytes_ok bs -> tsrv_enabled v (EvData uid (RxBytes bs) w) = true ->
  m = firstn (Z.to_nat 4096) (g_rx (uview_of uid tr) ++ bs) ->
  (tsrv_step v (EvData uid (RxBytes bs) w) = None <->
   (length (g_rx (uview_of uid tr)) <= 1024)%nat /\ sized m /\ 4072 < Z.of_nat (length m) /\
   (has_type m KOpn \/ exists k, has_type m k /\ uchan uid tr = Some (le_at 8 m))).
Proof. apply acked_read. Qed.
(** The packet of 4073 octets in two segments. *)
Example C74_exact_case : exists v tr, ureach zbuf v tr /\ uacked 1 tr /\ length (g_rx (uview_of 1 tr)) = Z.to_nat 1000 /\
  tsrv_enabled v (EvData 1 (RxBytes (skipn (Z.to_nat 1000) big_pkt)) all) = true /\
  tsrv_step v (EvData 1 (RxBytes (skipn (Z.to_nat 1000) big_pkt)) all) = None /\
  tsrv_step v (EvData 1 (RxBytes (skipn (Z.to_nat 1001) big_pkt)) all) <> None.
Proof.
  destruct big_sized as [B1 B2]. pose proof B1 as (B & _).
  destruct (uouts_last zbuf [take; hello_read 1; EvData 1 (RxBytes (firstn (Z.to_nat 1000) big_pkt)) all] [started 1; acked_out 1; []]
    (EvData 1 (RxBytes []) all) [] zbuf_ok) as (v & v' & R & He & Hen & Hs); [vm_compute; reflexivity|reflexivity|vm_compute; reflexivity|].
  set (tr := combine _ _) in R.
  assert (Eg : g_rx (uview_of 1 tr) = firstn (Z.to_nat 1000) big_pkt) by (vm_compute; reflexivity).
  assert (Hm : forall n, bytes_ok (skipn n big_pkt)) by (intros n; unfold bytes_ok in *; rewrite <- (firstn_skipn n big_pkt) in B; apply Forall_app in B; apply B).
  exists v, tr. split; [exact R|]. split; [vm_compute; reflexivity|]. rewrite Eg. split; [vm_compute; reflexivity|]. split; [exact Hen|]. split.
  - apply (C74_exact zbuf v tr 1 _ all _ R ltac:(vm_compute; reflexivity) (Hm _) Hen eq_refl). rewrite Eg, firstn_skipn.
    split; [vm_compute; lia|]. rewrite firstn_all2 by (rewrite B2; lia). split; [exact B1|]. split; [rewrite B2; lia|]. left. reflexivity.
  - intros X. apply (C74_exact zbuf v tr 1 _ all _ R ltac:(vm_compute; reflexivity) (Hm _) Hen eq_refl) in X as (_ & (_ & _ & X) & _). rewrite Eg in X. vm_compute in X. discriminate X.
Qed.

Print Assumptions C41_sizes_partial.
Print Assumptions C41_refuted.
Print Assumptions C42_segments.
Print Assumptions C42_delivered.
Print Assumptions C42_trailing.
Print Assumptions C42_backlog.
Print Assumptions C43_forward.
Print Assumptions C44_lifecycle_partial.
Print Assumptions C44_ends.
Print Assumptions C44_accept_partial.
Print Assumptions C44_bounds.
Print Assumptions C44_refuted.
Print Assumptions C71_once_partial.
Print Assumptions C71_refuted.
Print Assumptions C72_payload_partial.
Print Assumptions C72_refuted.
Print Assumptions C72_short_refuted.
Print Assumptions C73_sent_partial.
Print Assumptions C73_refuted.
Print Assumptions C74_bounded_partial.
Print Assumptions C74_overflow.
Print Assumptions C74_exact.
Print Assumptions C74_refuted.
