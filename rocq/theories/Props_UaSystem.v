(** Theorems about the assembled OPC UA server: C104-C109. *)
From Verif Require Import Base ModbusCodecSpec ModbusClientModel UaCodecModel UaCodecSpec UaCodecProofs UaTcpModel UaTcpSpec UaTcpFacts UaChanModel UaChanSpec UaChanFacts
  UaServiceModel UaServiceSpec UaSystemModel UaSystemSpec UaSystemProofs UaSystemFacts UaSystemRuns UaHello UaNet UaChanProofs Props_UaTcp Props_UaChan Props_UaService.
Local Open Scope Z_scope.

(** Histories for the examples: what a handler finds, deliveries, packets, clients that come, ask for a channel and go. *)
Definition oz : oracle := mkO all jz 5 0 0.
Definition go (n : nat) : list yev := repeat (YMsg oz []) n.
Definition net (e : tev) : yev := YNet e [].
Definition opn_pkt (seq req : Z) : list Z := pkt KOpn 0 (repeat 0 12 ++ le_bytes 4 seq ++ le_bytes 4 req ++ repeat 0 100).
Definition msg_pkt (ch tok seq req : Z) (q : request) : list Z := pkt KMsg ch (le_bytes 4 tok ++ le_bytes 4 seq ++ le_bytes 4 req ++ q_octets q).
Definition rd (u : Z) (p : list Z) : yev := net (EvData u (RxBytes p) all).
Definition hi (u : Z) : list yev := [net take; net (hello_read u)].
Definition join (u : Z) : list yev := hi u ++ [rd u (opn_pkt 41 1)] ++ go 2.
Definition bye (u : Z) : yev := net (EvData u RxErr all).
Definition upto (n : nat) : list Z := map (fun i => Z.of_nat i + 1) (seq 0 n).
Lemma upto_in n u : 1 <= u <= Z.of_nat n -> In u (upto n).
Proof. intros H. apply in_map_iff. exists (Z.to_nat (u - 1)). split; [lia|]. apply in_seq. lia. Qed.
Lemma oz_ok : oracle_ok oz.
Proof. apply oracleb_ok. vm_compute. reflexivity. Qed.
Definition outs (r : yrec) : list uout * list cout * list sout := match r with RT _ os => (os, [], []) | RC _ os => ([], os, []) | RS _ os => ([], [], os) end.
Definition no_live (tr : ytrace) : bool := forallb (fun u => negb (g_starts (uview_of u (tproj tr)) =? S (g_frees (uview_of u (tproj tr))))%nat) (upto 32).
Lemma no_live_ok b0 ini y tr : yreach b0 ini y tr -> no_live tr = true -> forall u, ~ ulive u (tproj tr).
Proof.
  intros HR H u Hl. destruct (y_reach_inv _ _ _ _ HR) as [HT _ _ _ _ _ _]. pose proof (UaTcpFacts.live_range _ _ _ _ HT Hl) as Hu.
  unfold no_live in H. rewrite forallb_forall in H. specialize (H u (upto_in 32 u ltac:(lia))). unfold ulive in Hl. rewrite Hl in H.
  rewrite Nat.eqb_refl in H. discriminate H.
Qed.
Ltac obs := first [exact zbuf_ok|exact ini0_ok|vm_compute; reflexivity].

(** * C104 *)

(** Nothing clients send makes the server's behaviour undefined: false.  One client that asks to activate session 0 is enough. *)
Theorem C104_refuted : ~ (forall b0 ini y tr e, yreach b0 ini y tr -> yev_ok e -> y_enabled y e = true -> y_step y e <> None).
Proof.
  intros H.
  destruct (yobs_reach zbuf ini0 (join 1 ++ [rd 1 (msg_pkt 1 5 42 7 (q_act 0 12))] ++ go 1)
    (fun y _ => (y_enabled y (YMsg oz []), match y_step y (YMsg oz []) with None => true | Some _ => false end)) (true, true)) as (y & tr & R & E); [obs|obs|obs|].
  apply pair_equal_spec in E as [E1 E2]. apply (H zbuf ini0 y tr (YMsg oz []) R oz_ok E1). destruct (y_step y (YMsg oz [])); [discriminate E2|reflexivity].
Qed.
(** The deliveries with undefined behaviour, exactly: an open or close request that the decoder runs out of or aborts on, a message longer
    than 4064 octets, a service request that the decoder fails on, and one that names a session outside the table. *)
Theorem C104_deliver b0 ini y tr m q o keep : yreach b0 ini y tr -> y_q y = m :: q -> oracle_ok o ->
  (y_step y (YMsg o keep) = None <-> msg_fault tr o m).
Proof. apply deliver_defined. Qed.
Example C104_deliver_case : exists y tr, yreach zbuf ini0 y tr /\ y_step y (YMsg oz []) = None /\
  exists m q, y_q y = m :: q /\ msg_fault tr oz m.
Proof.
  destruct (yobs_reach zbuf ini0 (join 1 ++ [rd 1 (msg_pkt 1 5 42 7 (q_act 0 12))] ++ go 1)
    (fun y _ => (y_enabled y (YMsg oz []), match y_step y (YMsg oz []) with None => true | Some _ => false end)) (true, true)) as (y & tr & R & E); [obs|obs|obs|].
  apply pair_equal_spec in E as [E1 E2]. assert (E3 : y_step y (YMsg oz []) = None) by (destruct (y_step y (YMsg oz [])); [discriminate E2|reflexivity]).
  exists y, tr. split; [exact R|]. split; [exact E3|]. cbn [y_enabled] in E1. destruct (y_q y) as [|m q] eqn:Eq; [discriminate|].
  exists m, q. split; [reflexivity|]. now apply (deliver_defined _ _ _ _ _ _ _ [] R Eq oz_ok).
Qed.
(** Of what comes over sockets and timers, only data: a first packet of a client that is at least a header, or more than a buffer. *)
Theorem C104_net_partial b0 ini y tr e keep : yreach b0 ini y tr -> yev_ok (YNet e keep) -> y_enabled y (YNet e keep) = true ->
  y_step y (YNet e keep) = None ->
  exists uid bs w, e = EvData uid (RxBytes bs) w /\
    let n := Z.of_nat (length (g_rx (uview_of uid (tproj tr))) + length bs) in
    (ulive uid (tproj tr) /\ ~ uacked uid (tproj tr) /\ 8 <= n) \/ (uacked uid (tproj tr) /\ 4072 < n).
Proof. apply net_undefined. Qed.
(** A hello that announces a url of 5000 octets. *)
Example C104_net_partial_case : exists y tr, yreach zbuf ini0 y tr /\
  let e := net (EvData 1 (RxBytes ([72; 69; 76; 70; 32; 0; 0; 0] ++ repeat 0 20 ++ [136; 19; 0; 0])) all) in
  y_enabled y e = true /\ y_step y e = None.
Proof.
  destruct (yobs_reach zbuf ini0 [net take]
    (fun y _ => let e := net (EvData 1 (RxBytes ([72; 69; 76; 70; 32; 0; 0; 0] ++ repeat 0 20 ++ [136; 19; 0; 0])) all) in
      (y_enabled y e, match y_step y e with None => true | Some _ => false end)) (true, true)) as (y & tr & R & E); [obs|obs|obs|].
  exists y, tr. split; [exact R|]. cbv zeta in E |- *. apply pair_equal_spec in E as [E1 E2]. split; [exact E1|]. destruct (y_step y _); [discriminate E2|reflexivity].
Qed.

(** The first frame of a client, when it arrives in one piece, exactly: it announces its own size, and a url of more than 4064 octets. *)
Theorem C104_hello b0 ini y tr uid bs w keep : yreach b0 ini y tr -> ulive uid (tproj tr) -> ~ uacked uid (tproj tr) -> uboundary uid (tproj tr) ->
  bytes_ok bs -> 32 <= Z.of_nat (length bs) <= 4096 -> y_enabled y (YNet (EvData uid (RxBytes bs) w) keep) = true ->
  (y_step y (YNet (EvData uid (RxBytes bs) w) keep) = None <-> le_at 4 bs = Z.of_nat (length bs) /\ 4064 < le_at 28 bs < 2147483648).
Proof.
  intros HR HL HA HB Hbs Hn Hen. destruct (hello_conn _ _ _ _ _ HR HL HB) as (c & Hc).
  rewrite (hello_exact _ _ _ _ _ c _ _ _ HR HL HA HB Hc Hbs) by (auto; lia). rewrite url_own by lia. unfold url_len.
  pose proof (le_at_bound 28 bs Hbs) as U. unfold is_u32 in U. split.
  - intros ((_ & _ & S) & H). split; [exact S|]. destruct (Z.ltb_spec (le_at 28 bs) 2147483648); lia.
  - intros (S & H). split; [split; [exact Hbs|split; [lia|exact S]]|]. destruct (Z.ltb_spec (le_at 28 bs) 2147483648); lia.
Qed.
Example C104_hello_case : exists y tr, yreach zbuf ini0 y tr /\ ulive 1 (tproj tr) /\ ~ uacked 1 (tproj tr) /\ uboundary 1 (tproj tr) /\
  y_enabled y (rd 1 ([72; 69; 76; 70; 32; 0; 0; 0] ++ repeat 0 20 ++ [224; 15; 0; 0])) = true /\
  y_step y (rd 1 ([72; 69; 76; 70; 32; 0; 0; 0] ++ repeat 0 20 ++ [224; 15; 0; 0])) <> None /\
  y_step y (rd 1 ([72; 69; 76; 70; 32; 0; 0; 0] ++ repeat 0 20 ++ [225; 15; 0; 0])) = None.
Proof.
  destruct (yobs_reach zbuf ini0 [net take] (fun y tr => (y_enabled y (rd 1 ([72; 69; 76; 70; 32; 0; 0; 0] ++ repeat 0 20 ++ [224; 15; 0; 0])),
    y_enabled y (rd 1 ([72; 69; 76; 70; 32; 0; 0; 0] ++ repeat 0 20 ++ [225; 15; 0; 0])),
    (g_starts (uview_of 1 (tproj tr)), g_frees (uview_of 1 (tproj tr)), g_acked (uview_of 1 (tproj tr)), g_rx (uview_of 1 (tproj tr))))) (true, true, (1%nat, 0%nat, false, []))) as (y & tr & R & E); [obs|obs|obs|].
  apply pair_equal_spec in E as [E1 E]. apply pair_equal_spec in E1 as [E1 E2]. apply pair_equal_spec in E as [E E6]. apply pair_equal_spec in E as [E E5]. apply pair_equal_spec in E as [E3 E4].
  exists y, tr. split; [exact R|]. assert (HL : ulive 1 (tproj tr)) by (unfold ulive; now rewrite E3, E4). assert (HA : ~ uacked 1 (tproj tr)) by (unfold uacked; now rewrite E5).
  split; [exact HL|]. split; [exact HA|]. split; [exact E6|]. split; [exact E1|].
  assert (B : forall a, is_byte a -> bytes_ok ([72; 69; 76; 70; 32; 0; 0; 0] ++ repeat 0 20 ++ [a; 15; 0; 0])).
  { intros a Ha. cbn [app repeat]. repeat (apply Forall_cons; [first [exact Ha|unfold is_byte; lia]|]). apply Forall_nil. }
  split.
  - intros X. apply (C104_hello zbuf ini0 y tr 1 _ _ [] R HL HA E6 (B 224 ltac:(unfold is_byte; lia)) ltac:(vm_compute; split; discriminate) E1) in X as (_ & X). vm_compute in X. destruct X as [X _]. discriminate X.
  - apply (C104_hello zbuf ini0 y tr 1 _ _ [] R HL HA E6 (B 225 ltac:(unfold is_byte; lia)) ltac:(vm_compute; split; discriminate) E2). vm_compute. repeat split; reflexivity.
Qed.
(** Data past the handshake, exactly, in any number of pieces: of the octets received since the last message, [m], at most 4096 count. *)
Theorem C104_data b0 ini y tr uid bs w keep m : yreach b0 ini y tr -> uacked uid (tproj tr) -> bytes_ok bs -> y_enabled y (YNet (EvData uid (RxBytes bs) w) keep) = true ->
  m = firstn (Z.to_nat 4096) (g_rx (uview_of uid (tproj tr)) ++ bs) ->
  (y_step y (YNet (EvData uid (RxBytes bs) w) keep) = None <->
   (length (g_rx (uview_of uid (tproj tr))) <= 1024)%nat /\ sized m /\ 4072 < Z.of_nat (length m) /\
   (has_type m KOpn \/ exists k, has_type m k /\ uchan uid (tproj tr) = Some (le_at 8 m))).
Proof.
  intros HR HA Hbs Hen Hm. apply y_reach_inv in HR. destruct HR as [HT _ _ _ _ _ _]. destruct (net_ok _ _ _ Hen) as (B & _ & _).
  rewrite <- (acked_read _ _ _ uid bs w m HT HA Hbs B Hm). cbn [y_step]. unfold y_tsrv.
  destruct (tsrv_step (y_t y) (EvData uid (RxBytes bs) w)) as [[v os]|]; split; intros H; try reflexivity; discriminate H.
Qed.
(** A packet of 4073 octets in two segments. *)
Example C104_data_case : exists y tr, yreach zbuf ini0 y tr /\ uacked 1 (tproj tr) /\ length (g_rx (uview_of 1 (tproj tr))) = Z.to_nat 1000 /\
  y_enabled y (rd 1 (skipn (Z.to_nat 1000) big_pkt)) = true /\ y_step y (rd 1 (skipn (Z.to_nat 1000) big_pkt)) = None.
Proof.
  destruct big_sized as [B1 B2].
  destruct (yobs_reach zbuf ini0 (hi 1 ++ [rd 1 (firstn (Z.to_nat 1000) big_pkt)]) (fun y tr => (y_enabled y (rd 1 (skipn (Z.to_nat 1000) big_pkt)),
    g_acked (uview_of 1 (tproj tr)), g_rx (uview_of 1 (tproj tr)))) (true, true, firstn (Z.to_nat 1000) big_pkt)) as (y & tr & R & E); [obs|obs|obs|].
  apply pair_equal_spec in E as [E E3]. apply pair_equal_spec in E as [E1 E2].
  exists y, tr. split; [exact R|]. split; [exact E2|]. rewrite E3. split; [vm_compute; reflexivity|]. split; [exact E1|].
  apply (C104_data zbuf ini0 y tr 1 _ all [] _ R E2 (skipn_ok _ _ (proj1 B1)) E1 eq_refl). rewrite E3, firstn_skipn. split; [vm_compute; lia|].
  rewrite firstn_all2 by (rewrite B2; lia). split; [exact B1|]. split; [rewrite B2; lia|]. left. reflexivity.
Qed.
(** Data before the handshake, in any number of pieces.  The client's octets are read from 32 octets further on for each exception that they have raised.
    Fewer than 8, or more than 1024 waiting, or a size field that is not theirs: the server goes on.  If a whole hello is there: it goes on unless
    the size field is right and the url, as announced, ends outside the buffer. *)
Theorem C104_handshake b0 ini y tr uid bs w keep m t : yreach b0 ini y tr -> ulive uid (tproj tr) -> ~ uacked uid (tproj tr) ->
  bytes_ok bs -> y_enabled y (YNet (EvData uid (RxBytes bs) w) keep) = true ->
  m = firstn (Z.to_nat 4096) (g_rx (uview_of uid (tproj tr)) ++ bs) -> t = (32 * uthrows uid (tproj tr))%nat ->
  ((1024 < length (g_rx (uview_of uid (tproj tr))))%nat \/ (length m < 8)%nat \/ ((t + 8 <= length m)%nat /\ le_at (t + 4) m <> Z.of_nat (length m)) ->
   y_step y (YNet (EvData uid (RxBytes bs) w) keep) <> None) /\
  ((t + 32 <= length m)%nat ->
   (y_step y (YNet (EvData uid (RxBytes bs) w) keep) = None <->
    (length (g_rx (uview_of uid (tproj tr))) <= 1024)%nat /\ le_at (t + 4) m = Z.of_nat (length m) /\ 4064 - Z.of_nat t < le_at (t + 28) m < 2147483648)).
Proof.
  intros HR HL HA Hbs Hen Hm Ht. apply y_reach_inv in HR. destruct HR as [HT _ _ _ _ _ _]. destruct (net_ok _ _ _ Hen) as (B & _ & _).
  assert (Iff : y_step y (YNet (EvData uid (RxBytes bs) w) keep) = None <-> tsrv_step (y_t y) (EvData uid (RxBytes bs) w) = None).
  { cbn [y_step]. unfold y_tsrv. destruct (tsrv_step (y_t y) (EvData uid (RxBytes bs) w)) as [[v os]|]; split; intros H; try reflexivity; discriminate H. }
  rewrite Iff. exact (waiting_read _ _ _ uid bs w m t HT HL HA Ht Hbs B Hm).
Qed.
(** A hello of 32 octets with a url length of -2, then a second one in two pieces: the 64 octets count as a hello if its size field says so, and then
    a url of 4033 octets is too long. *)
Definition hel_at (n a : Z) : list Z := [72; 69; 76; 70; n; 0; 0; 0] ++ repeat 0 20 ++ [a; 15; 0; 0].
Example C104_handshake_case : exists y tr, yreach zbuf ini0 y tr /\ ulive 1 (tproj tr) /\ ~ uacked 1 (tproj tr) /\ uthrows 1 (tproj tr) = 1%nat /\
  length (g_rx (uview_of 1 (tproj tr))) = 42%nat /\
  y_enabled y (rd 1 (skipn 10 (hel_at 64 193))) = true /\
  y_step y (rd 1 (skipn 10 (hel_at 64 193))) = None /\ y_step y (rd 1 (skipn 10 (hel_at 64 192))) <> None.
Proof.
  set (h0 := [72; 69; 76; 70; 32; 0; 0; 0] ++ repeat 0 20 ++ [254; 255; 255; 255]).
  destruct (yobs_reach zbuf ini0 [net take; rd 1 h0; rd 1 (firstn 10 (hel_at 64 0))] (fun y tr => (y_enabled y (rd 1 (skipn 10 (hel_at 64 193))),
    y_enabled y (rd 1 (skipn 10 (hel_at 64 192))), uthrows 1 (tproj tr),
    (g_starts (uview_of 1 (tproj tr)), g_frees (uview_of 1 (tproj tr)), g_acked (uview_of 1 (tproj tr)), g_rx (uview_of 1 (tproj tr)))))
    (true, true, 1%nat, (1%nat, 0%nat, false, h0 ++ firstn 10 (hel_at 64 0)))) as (y & tr & R & E); [obs|obs|obs|].
  apply pair_equal_spec in E as [E1 E]. apply pair_equal_spec in E1 as [E1 Et]. apply pair_equal_spec in E1 as [E1 E2].
  apply pair_equal_spec in E as [E E6]. apply pair_equal_spec in E as [E E5]. apply pair_equal_spec in E as [E3 E4].
  exists y, tr. split; [exact R|]. assert (HL : ulive 1 (tproj tr)) by (unfold ulive; now rewrite E3, E4). assert (HA : ~ uacked 1 (tproj tr)) by (unfold uacked; now rewrite E5).
  split; [exact HL|]. split; [exact HA|]. split; [exact Et|]. rewrite E6. split; [reflexivity|]. split; [exact E1|]. split.
  - apply (C104_handshake zbuf ini0 y tr 1 (skipn 10 (hel_at 64 193)) all [] _ _ R HL HA ltac:(apply octetsb_ok; vm_compute; reflexivity) E1 eq_refl eq_refl); rewrite E6, Et; [vm_compute; lia|].
    split; [vm_compute; lia|]. vm_compute. repeat split; reflexivity.
  - intros X. apply (C104_handshake zbuf ini0 y tr 1 (skipn 10 (hel_at 64 192)) all [] _ _ R HL HA ltac:(apply octetsb_ok; vm_compute; reflexivity) E2 eq_refl eq_refl) in X; rewrite E6, Et in *; [|vm_compute; lia].
    destruct X as (_ & _ & X & _). vm_compute in X. discriminate X.
Qed.
(** A first frame of fewer than 29 octets has no url length of its own; what the buffer held before decides: with the same frame
    the server goes on with one memory and leaves its buffer with another. *)
Theorem C104_short bs w keep : sized bs -> Z.of_nat (length bs) <= 28 -> exists b0 y tr b0' y' tr',
  yreach b0 ini0 y tr /\ yreach b0' ini0 y' tr' /\ tr = tr' /\
  y_enabled y (YNet (EvData 1 (RxBytes bs) w) keep) = true /\ y_enabled y' (YNet (EvData 1 (RxBytes bs) w) keep) = true /\
  y_step y (YNet (EvData 1 (RxBytes bs) w) keep) <> None /\ y_step y' (YNet (EvData 1 (RxBytes bs) w) keep) = None.
Proof.
  intros HS Hl. pose proof HS as (Hbs & H8 & _).
  set (bad := repeat 255 31 ++ [127] ++ repeat 0 (Z.to_nat 4064)).
  assert (MB : umem_ok bad).
  { split; [vm_compute; reflexivity|]. apply octetsb_ok. vm_compute. reflexivity. }
  set (f := fun (y : usys) (tr : ytrace) => (tr, g_starts (uview_of 1 (tproj tr)), g_frees (uview_of 1 (tproj tr)), g_acked (uview_of 1 (tproj tr)), g_rx (uview_of 1 (tproj tr)),
    option_map (fun c => (k_pkt (t_rx c), t_link c)) (conn_of (y_t y) 1))).
  assert (G : forall m, umem_ok m -> yobs f (ystart m ini0 [net take]) = Some ([RT take [UArm 1 30000000]], 1%nat, 0%nat, false, [], Some (m, Some true)) ->
    exists y, yreach m ini0 y [RT take [UArm 1 30000000]] /\ y_enabled y (YNet (EvData 1 (RxBytes bs) w) keep) = true /\
    (y_step y (YNet (EvData 1 (RxBytes bs) w) keep) = None <-> 4064 < url_len (bs ++ skipn (length bs) m))).
  { intros m Hm E. destruct (yobs_reach m ini0 [net take] f _ Hm ini0_ok E) as (y & tr & R & F). unfold f in F. clear E.
    apply pair_equal_spec in F as [F F6]. apply pair_equal_spec in F as [F F5]. apply pair_equal_spec in F as [F F4]. apply pair_equal_spec in F as [F F3]. apply pair_equal_spec in F as [F1 F2].
    destruct (conn_of (y_t y) 1) as [c|] eqn:Hc; [|discriminate F6]. cbn [option_map] in F6. injection F6 as M1 M2.
    assert (En : y_enabled y (YNet (EvData 1 (RxBytes bs) w) keep) = true) by (cbn [y_enabled tsrv_enabled]; rewrite Hc, M2; reflexivity).
    exists y. rewrite <- F1. split; [exact R|]. split; [exact En|].
    assert (HL : ulive 1 (tproj tr)) by (unfold ulive; now rewrite F2, F3). assert (HA : ~ uacked 1 (tproj tr)) by (unfold uacked; now rewrite F4).
    rewrite (hello_exact m ini0 y tr 1 c bs w keep R HL HA F5 Hc Hbs ltac:(lia) En). rewrite M1. unfold url_after. tauto. }
  assert (U : forall m, Z.of_nat (length m) = 4096 -> url_len (bs ++ skipn (length bs) m) = url_len m).
  { intros m Hm. unfold url_len. replace (le_at 28 (bs ++ skipn (length bs) m)) with (le_at 28 m); [reflexivity|]. unfold le_at. rewrite skipn_app, (skipn_all2 bs) by lia.
    cbn [List.app]. rewrite <- UaCodecProofs.skipn_plus. do 3 f_equal. lia. }
  destruct (G zbuf zbuf_ok ltac:(vm_compute; reflexivity)) as (y & R & En & X). destruct (G bad MB ltac:(vm_compute; reflexivity)) as (y' & R' & En' & X').
  exists zbuf, y, [RT take [UArm 1 30000000]], bad, y', [RT take [UArm 1 30000000]]. split; [exact R|]. split; [exact R'|]. split; [reflexivity|]. split; [exact En|]. split; [exact En'|]. split.
  - rewrite X, (U zbuf) by (vm_compute; reflexivity). vm_compute. discriminate.
  - apply X'. rewrite U by (vm_compute; reflexivity). vm_compute. reflexivity.
Qed.
Example C104_short_case : sized [72; 69; 76; 70; 8; 0; 0; 0] /\ Z.of_nat (length [72; 69; 76; 70; 8; 0; 0; 0]) <= 28.
Proof. split; [split; [|split]|]; [apply octetsb_ok; reflexivity|cbn; lia|reflexivity|vm_compute; discriminate]. Qed.

(** * C105 *)

(** The answers written to clients are, in order, accepted requests with some left out: same connection, channel and request id;
    so each request is answered at most once, and requests are not reordered. *)
Theorem C105_answers b0 ini y tr : yreach b0 ini y tr -> sub (answers tr) (requests tr).
Proof.
  intros HR. destruct (reach_path _ _ _ _ HR) as (y0 & R0 & Q0 & P). pose proof (answers_path _ _ _ _ _ _ R0 P) as H. rewrite Q0 in H. cbn in H.
  exact (sub_left _ _ _ H).
Qed.
(** And the accepted requests are, in order, packets that the connections received, with some left out. *)
Theorem C105_requests b0 ini y tr : yreach b0 ini y tr -> sub (map fst (requests tr)) (forwards tr).
Proof.
  intros HR. destruct (reach_path _ _ _ _ HR) as (y0 & R0 & Q0 & P). pose proof (requests_path _ _ _ P) as H. rewrite Q0 in H. cbn in H.
  exact (sub_left _ _ _ H).
Qed.
(** Two clients with two requests each, one of which (the read without session) is not answered. *)
Example C105_case : exists y tr, yreach zbuf ini0 y tr /\ requests tr = [(1, 1, 7); (2, 2, 8); (1, 1, 9); (2, 2, 7)] /\
  answers tr = [(1, 1, 7); (2, 2, 8); (2, 2, 7)].
Proof.
  destruct (yobs_reach zbuf ini0 (join 1 ++ join 2 ++
    [rd 1 (msg_pkt 1 5 42 7 (q_end 11)); rd 2 (msg_pkt 2 5 42 8 (q_cre 11 3)); rd 1 (msg_pkt 1 5 43 9 (q_rd 0 1 [])); rd 2 (msg_pkt 2 5 43 7 (q_end 1))] ++ go 14)
    (fun y tr => (requests tr, answers tr)) ([(1, 1, 7); (2, 2, 8); (1, 1, 9); (2, 2, 7)], [(1, 1, 7); (2, 2, 8); (2, 2, 7)])) as (y & tr & R & E); [obs|obs|obs|].
  apply pair_equal_spec in E as [E1 E2]. eauto.
Qed.

(** * C106 *)

(** A client that connects while no other is connected and nothing is in progress can open a channel: false.  Each client that
    asks for a channel and leaves before the answer costs the server one of its 32 channels. *)
Definition ghost1 (u : Z) : list yev := hi u ++ [rd u (opn_pkt 41 1); bye u] ++ go 2.
Definition ghosts : list yev := flat_map ghost1 (upto 32).
Theorem C106_refuted :
  ~ (forall b0 ini y tr u a b c e os y2, yreach b0 ini y tr -> (forall v, ~ ulive v (tproj tr)) -> y_q y = [] ->
       ypath y [RT take a; RT (hello_read u) b; RT (EvData u (RxBytes (opn_pkt 41 1)) all) c; RC e os] y2 -> os <> []).
Proof.
  intros H.
  destruct (yobs_split zbuf ini0 ghosts (hi 1 ++ [rd 1 (opn_pkt 41 1)] ++ go 1)
    (fun y tr y2 tr2 => (no_live tr, match y_q y with [] => true | _ => false end,
       match tr2 with [RT e1 _; RT e2 _; RT e3 _; RC _ []] => (e1, e2, e3) | _ => (take, take, take) end))
    (true, true, (take, hello_read 1, EvData 1 (RxBytes (opn_pkt 41 1)) all))) as (y & tr & tr2 & y2 & R & P & E); [obs|obs|obs|].
  apply pair_equal_spec in E as [E E3]. apply pair_equal_spec in E as [E1 E2].
  destruct tr2 as [|[e1 o1| |] [|[e2 o2| |] [|[e3 o3| |] [|[|e4 [|? ?]|] [|? ?]]]]]; try discriminate E3.
  injection E3 as -> -> ->. apply (H zbuf ini0 y tr 1 o1 o2 o3 e4 [] y2 R (no_live_ok _ _ _ _ R E1)); [now destruct (y_q y)|exact P|reflexivity].
Qed.
(** Such a channel never comes back, whatever happens afterwards. *)
Theorem C106_orphan b0 ini y tr tr2 y2 ch : yreach b0 ini y tr -> orphan ch y tr -> ypath y tr2 y2 -> orphan ch y2 (tr ++ tr2).
Proof. apply orphan_forever. Qed.
(** Once all are lost, no client is ever given a channel again. *)
Theorem C106_deaf b0 ini y tr tr2 y2 o keep m q y3 r : yreach b0 ini y tr -> (forall ch, 1 <= ch <= 32 -> orphan ch y tr) -> ypath y tr2 y2 ->
  oracle_ok o -> y_q y2 = IFwd KOpn m :: q -> y_step y2 (YMsg o keep) = Some (y3, r) -> y_q y3 = q /\ exists e, r = RC e [].
Proof. apply all_orphans. Qed.
Definition lostb (y : usys) (tr : ytrace) : bool :=
  forallb (fun u => match uchan u (tproj tr) with None => true | _ => false end) (upto 32) &&
  forallb (fun c => (w_opens (cview_of c (cproj tr)) =? S (w_frees (cview_of c (cproj tr))))%nat) (upto 32) && match y_q y with [] => true | _ => false end.
Lemma lostb_ok b0 ini y tr : yreach b0 ini y tr -> lostb y tr = true -> forall ch, 1 <= ch <= 32 -> orphan ch y tr.
Proof.
  intros HR H ch Hc. unfold lostb in H. apply andb_prop in H as [H Q]. apply andb_prop in H as [A B]. rewrite forallb_forall in A, B.
  destruct (y_q y) as [|m q] eqn:Eq; [|discriminate]. split; [apply Nat.eqb_eq, B, upto_in; lia|]. split.
  - intros [(u & Hu)|Hx]; [|rewrite Eq in Hx; inversion Hx]. destruct (y_reach_inv _ _ _ _ HR) as [HT _ _ _ _ _ _].
    destruct (chan_acked _ _ _ _ _ HT Hu) as [Hr _]. specialize (A u (upto_in 32 u ltac:(lia))). rewrite Hu in A. discriminate.
  - rewrite Eq. intros X. inversion X.
Qed.
Example C106_deaf_case : exists y tr tr2 y2 m, yreach zbuf ini0 y tr /\ (forall ch, 1 <= ch <= 32 -> orphan ch y tr) /\ ypath y tr2 y2 /\
  y_q y2 = [IFwd KOpn m].
Proof.
  destruct (yobs_split zbuf ini0 ghosts (hi 1 ++ [rd 1 (opn_pkt 41 1)])
    (fun y tr y2 tr2 => (lostb y tr, match y_q y2 with [IFwd KOpn _] => true | _ => false end)) (true, true)) as (y & tr & tr2 & y2 & R & P & E); [obs|obs|obs|].
  apply pair_equal_spec in E as [E1 E2]. destruct (y_q y2) as [|[[| |] m| | | | | |] [|? ?]] eqn:Eq; try discriminate E2.
  exists y, tr, tr2, y2, m. split; [exact R|]. split; [now apply (lostb_ok _ _ _ _ R)|]. auto.
Qed.
(** What it takes to lose a channel: otherwise every open channel belongs to a connection or is being announced to one; so
    without clients and with nothing in progress no channel is open. *)
Theorem C106_partial b0 ini y tr ch : ycareful b0 ini y tr -> copen ch (cproj tr) -> owned ch y tr.
Proof. apply careful_owned. Qed.
Theorem C106_quiet b0 ini y tr : ycareful b0 ini y tr -> (forall u, ~ ulive u (tproj tr)) -> y_q y = [] -> copened (cproj tr) = 0%nat.
Proof.
  intros HR Hn Hq. pose proof (careful_reach _ _ _ _ HR) as HR1. destruct (y_reach_inv _ _ _ _ HR1) as [HT HC _ _ _ _ _].
  eapply none_open; [exact HC|]. intros ch _ Ho. destruct (careful_owned _ _ _ _ _ HR Ho) as [(u & Hu)|Hx].
  - destruct (chan_acked _ _ _ _ _ HT Hu) as [_ Ha]. apply (Hn u). eapply acked_live; eauto.
  - rewrite Hq in Hx. inversion Hx.
Qed.
(** Two clients with channels; one leaves, the other goes on; then all leave. *)
Example C106_partial_case : exists y tr, ycareful zbuf ini0 y tr /\ copen 2 (cproj tr) /\ ~ copen 1 (cproj tr) /\ uchan 2 (tproj tr) = Some 2.
Proof.
  destruct (cobs_careful zbuf ini0 (join 1 ++ join 2 ++ [bye 1] ++ go 1)
    (fun y tr => (map (fun c => (w_opens (cview_of c (cproj tr)), w_frees (cview_of c (cproj tr)))) [1; 2], uchan 2 (tproj tr))) ([(1, 1); (1, 0)]%nat, Some 2)) as (y & tr & R & E);
    [obs|obs|obs|].
  apply pair_equal_spec in E as [E1 E2]. cbn [map] in E1. injection E1 as A B C D. exists y, tr. split; [exact R|]. unfold copen. rewrite A, B, C, D. auto.
Qed.
Example C106_quiet_case : exists y tr, ycareful zbuf ini0 y tr /\ (forall u, ~ ulive u (tproj tr)) /\ y_q y = [] /\ ctotal copens (cproj tr) = 2%nat.
Proof.
  destruct (cobs_careful zbuf ini0 (join 1 ++ join 2 ++ [bye 1] ++ go 1 ++ [bye 2] ++ go 1)
    (fun y tr => (no_live tr, match y_q y with [] => true | _ => false end, ctotal copens (cproj tr))) (true, true, 2%nat)) as (y & tr & R & E); [obs|obs|obs|].
  apply pair_equal_spec in E as [E E3]. apply pair_equal_spec in E as [E1 E2]. exists y, tr. split; [exact R|].
  split; [exact (no_live_ok _ _ _ _ (careful_reach _ _ _ _ R) E1)|]. split; [destruct (y_q y); [reflexivity|discriminate E2]|exact E3].
Qed.

(** * C107 *)

(** A client that connects while no other is connected and nothing is in progress can create a session: false.  Sessions outlive
    the connections and channels of their clients; 32 requests exhaust them. *)
Definition creates : list yev := flat_map (fun i => rd 1 (msg_pkt 1 5 (41 + i) (1 + i) (q_cre 11 3)) :: go 4) (upto 32).
Theorem C107_refuted :
  ~ (forall b0 ini y tr tr2 y2 m j now q r y3, yreach b0 ini y tr -> (forall v, ~ ulive v (tproj tr)) -> y_q y = [] -> ypath y tr2 y2 ->
       parse m j = PReq (QCre q) -> y_step y2 (YMsg oz []) = Some (y3, RS (SvInd m j now) r) -> r <> []).
Proof.
  intros H.
  destruct (yobs_split zbuf ini0 (join 1 ++ creates ++ [bye 1] ++ go 1) (join 2 ++ [rd 2 (msg_pkt 2 5 42 7 (q_cre 11 3))] ++ go 1)
    (fun y tr y2 tr2 => (no_live tr, match y_q y with [] => true | _ => false end,
       match y_step y2 (YMsg oz []) with Some (_, RS (SvInd m j _) []) => match parse m j with PReq (QCre _) => true | _ => false end | _ => false end))
    (true, true, true)) as (y & tr & tr2 & y2 & R & P & E); [obs|obs|obs|].
  apply pair_equal_spec in E as [E E3]. apply pair_equal_spec in E as [E1 E2].
  destruct (y_step y2 (YMsg oz [])) as [[y3 [| |[| |m j now|] [|? ?]]]|] eqn:Es; try discriminate E3.
  destruct (parse m j) as [[| | | |]| | |] eqn:Ep; try discriminate E3.
  eapply (H zbuf ini0 y tr tr2 y2 m j now _ [] y3 R (no_live_ok _ _ _ _ R E1)); eauto. destruct (y_q y); [reflexivity|discriminate E2].
Qed.
(** A session ends only when a request to close it that names it is served. *)
Theorem C107_partial b0 ini y tr e y' r sid : yreach b0 ini y tr -> yev_ok e -> y_enabled y e = true -> y_step y e = Some (y', r) ->
  live sid (sproj tr) ->
  live sid (sproj (tr ++ [r])) \/
  exists o keep m q qq os, e = YMsg o keep /\ y_q y = IInd m :: q /\ r = RS (SvInd m (o_j o) (o_t1 o)) os /\
    parse m (o_j o) = PReq (QClo qq) /\ named (QClo qq) = Some sid.
Proof. intros HR. apply session_lives with (b0 := b0) (ini := ini). now apply y_reach_inv. Qed.
(** A session that lives although its client has gone and its channel is closed. *)
Example C107_partial_case : exists y tr, yreach zbuf ini0 y tr /\ (forall u, ~ ulive u (tproj tr)) /\ copened (cproj tr) = 0%nat /\ y_q y = [] /\ live 1 (sproj tr).
Proof.
  destruct (yobs_reach zbuf ini0 (join 1 ++ [rd 1 (msg_pkt 1 5 42 7 (q_cre 11 3))] ++ go 4 ++ [bye 1] ++ go 1)
    (fun y tr => (no_live tr, match y_q y with [] => true | _ => false end, (copened (cproj tr), liveb 1 (sproj tr)))) (true, true, (0%nat, true))) as (y & tr & R & E); [obs|obs|obs|].
  apply pair_equal_spec in E as [E E3]. apply pair_equal_spec in E as [E1 E2]. apply pair_equal_spec in E3 as [E3 E4]. exists y, tr. split; [exact R|].
  split; [exact (no_live_ok _ _ _ _ R E1)|]. split; [exact E3|]. split; [destruct (y_q y); [reflexivity|discriminate E2]|exact E4].
Qed.

(** * C108 *)

(** Messages do not breed: left alone, the server empties its queue with at most six deliveries per message in it, unless it comes
    upon a message whose handling is undefined (C104). *)
Theorem C108_quiescence b0 ini y tr l : yreach b0 ini y tr -> Forall oracle_ok l -> (6 * length (y_q y) <= length l)%nat ->
  (exists y2 tr2, ydrain y l = Some (y2, tr2) /\ ypath y tr2 y2 /\ y_q y2 = [] /\ (length tr2 <= 6 * length (y_q y))%nat) \/
  (exists y2 tr2 o m q, ypath y tr2 y2 /\ y_q y2 = m :: q /\ msg_fault (tr ++ tr2) o m /\ y_step y2 (YMsg o []) = None).
Proof.
  intros HR Hl Hw. pose proof (weight_bound (y_q y)) as W.
  destruct (drains l b0 ini y tr HR Hl ltac:(lia)) as [(y2 & tr2 & D & L)|(y2 & tr2 & o & P & O & N & U)].
  - left. exists y2, tr2. destruct (drain_path _ _ _ _ Hl D) as [P Q]. repeat split; auto. lia.
  - right. destruct (y_q y2) as [|m q] eqn:E; [congruence|]. exists y2, tr2, o, m, q. split; [exact P|]. split; [exact E|]. split; [|exact U].
    apply (deliver_defined _ _ _ _ _ _ _ [] (path_reach _ _ _ _ _ _ HR P) E O). exact U.
Qed.
(** Two messages in the queue, eight deliveries. *)
Example C108_case : exists y tr y2 tr2, yreach zbuf ini0 y tr /\ length (y_q y) = 2%nat /\ ydrain y (repeat oz 12) = Some (y2, tr2) /\ length tr2 = 8%nat.
Proof.
  destruct (yobs_reach zbuf ini0 (join 1 ++ join 2 ++ [rd 1 (msg_pkt 1 5 42 7 (q_end 11)); rd 2 (msg_pkt 2 5 42 8 (q_cre 11 3))])
    (fun y tr => (length (y_q y), match ydrain y (repeat oz 12) with Some (_, tr2) => length tr2 | None => 0%nat end)) (2, 8)%nat) as (y & tr & R & E); [obs|obs|obs|].
  apply pair_equal_spec in E as [E1 E2]. destruct (ydrain y (repeat oz 12)) as [[y2 tr2]|] eqn:D; [|discriminate E2]. exists y, tr, y2, tr2. auto.
Qed.

(** * C109 *)

(** A client is only given answers to its own requests: false.  It may be given the channel that a client before it on the same
    connection asked for, *)
Theorem C109_open_refuted :
  ~ (forall b0 ini y tr e y' e1 os uid p n, yreach b0 ini y tr -> yev_ok e -> y_enabled y e = true -> y_step y e = Some (y', RT e1 os) ->
       In (UTx uid (79 :: 80 :: 78 :: p) n) os -> uasked uid (tproj tr) = true).
Proof.
  intros H.
  destruct (yobs_reach zbuf ini0 (flat_map hi (upto 32) ++ [rd 32 (opn_pkt 41 1); bye 32] ++ hi 32 ++ go 1)
    (fun y tr => (y_enabled y (YMsg oz []), match y_step y (YMsg oz []) with Some (_, RT _ [UTx 32 (79 :: 80 :: 78 :: _) _]) => true | _ => false end, uasked 32 (tproj tr)))
    (true, true, false)) as (y & tr & R & E); [obs|obs|obs|].
  apply pair_equal_spec in E as [E E3]. apply pair_equal_spec in E as [E1 E2].
  destruct (y_step y (YMsg oz [])) as [[y1 r]|] eqn:Es; [|discriminate E2].
  destruct r as [e os| |]; try discriminate E2.
  assert (X : exists p n, os = [UTx 32 (79 :: 80 :: 78 :: p) n]).
  { destruct os as [|[u p n| | | | | |] [|? ?]]; try discriminate E2;
      repeat match goal with H : context [match ?x with _ => _ end] |- _ => is_var x; destruct x; try discriminate H end; eauto. }
  destruct X as (p & n & ->). assert (Y := H zbuf ini0 y tr (YMsg oz []) y1 e _ 32 p n R oz_ok E1 Es (or_introl eq_refl)). congruence.
Qed.
(** and the answer to that client's request. *)
Theorem C109_answer_refuted :
  ~ (forall b0 ini y tr e y' e1 os uid p n, yreach b0 ini y tr -> yev_ok e -> y_enabled y e = true -> y_step y e = Some (y', RT e1 os) ->
       In (UTx uid (77 :: 83 :: 71 :: p) n) os -> uspoke uid (tproj tr) = true).
Proof.
  intros H.
  destruct (yobs_reach zbuf ini0 (flat_map join (upto 32) ++ [rd 32 (msg_pkt 32 5 42 7 (q_end 11))] ++ go 1 ++ [bye 32] ++ hi 32 ++ [rd 32 (opn_pkt 50 1)] ++ go 5)
    (fun y tr => (y_enabled y (YMsg oz []), match y_step y (YMsg oz []) with Some (_, RT _ [UTx 32 (77 :: 83 :: 71 :: _) _]) => true | _ => false end, uspoke 32 (tproj tr)))
    (true, true, false)) as (y & tr & R & E); [obs|obs|obs|].
  apply pair_equal_spec in E as [E E3]. apply pair_equal_spec in E as [E1 E2].
  destruct (y_step y (YMsg oz [])) as [[y1 r]|] eqn:Es; [|discriminate E2].
  destruct r as [e os| |]; try discriminate E2.
  assert (X : exists p n, os = [UTx 32 (77 :: 83 :: 71 :: p) n]).
  { destruct os as [|[u p n| | | | | |] [|? ?]]; try discriminate E2;
      repeat match goal with H : context [match ?x with _ => _ end] |- _ => is_var x; destruct x; try discriminate H end; eauto. }
  destruct X as (p & n & ->). assert (Y := H zbuf ini0 y tr (YMsg oz []) y1 e _ 32 p n R oz_ok E1 Es (or_introl eq_refl)). congruence.
Qed.
(** From a moment on at which nothing of connection [uid] is in the queue, such as the arrival of a client long after the one before
    it left, the answers written to the connection are, in order, requests that came over it since, with some left out. *)
Definition on (uid : Z) {A} (k : Z * A) : bool := fst k =? uid.
Theorem C109_partial b0 ini y tr tr2 y2 uid : yreach b0 ini y tr -> existsb (concerns uid) (y_q y) = false -> ypath y tr2 y2 ->
  sub (filter (on uid) (map fst (answers tr2))) (filter (on uid) (forwards tr2)).
Proof.
  intros HR Hq P. pose proof (sub_left _ _ _ (answers_path _ _ _ _ _ _ HR P)) as A. pose proof (sub_left _ _ _ (requests_path _ _ _ P)) as B.
  apply (sub_map fst), (sub_filter (on uid)) in A. apply (sub_filter (on uid)) in B. rewrite map_app, filter_app in A. rewrite filter_app in B.
  assert (Z : filter (on uid) (map fst (pending (y_q y))) = [] /\ filter (on uid) (flat_map fwd_key (y_q y)) = []).
  { clear - Hq. unfold pending. rewrite !map_app, !filter_app. induction (y_q y) as [|m q IH]; [auto|]. cbn [existsb] in Hq. apply orb_false_iff in Hq as [Hm Hq].
    destruct (IH Hq) as [I1 I2]. apply app_eq_nil in I1 as [J1 I1]. apply app_eq_nil in I1 as [J2 J3].
    assert (F : forall (f : imsg -> list key), filter (on uid) (map fst (flat_map f q)) = [] -> filter (on uid) (map fst (f m)) = [] ->
      filter (on uid) (map fst (flat_map f (m :: q))) = []).
    { intros f X Y. unfold key in *. change (flat_map f (m :: q)) with (f m ++ flat_map f q). rewrite map_app, filter_app. rewrite Y. exact X. }
    split.
    - unfold key in *. rewrite F, F, F; auto; clear - Hm; destruct m as [[| |] x|c ch|[| |] x|c|x|x|h]; cbn [send_key tx_key ind_key concerns map filter fst] in *; auto;
        unfold on; cbn [fst]; now rewrite Hm.
    - cbn [flat_map]. rewrite filter_app, I2, app_nil_r. clear - Hm. destruct m as [[| |] x|c ch|[| |] x|c|x|x|h]; cbn [fwd_key concerns filter] in *; auto.
      unfold on; cbn [fst]; now rewrite Hm. }
  destruct Z as [Z1 Z2]. unfold key in *. rewrite Z1 in A. rewrite Z2 in B. cbn [app] in A, B. eapply sub_trans; eassumption.
Qed.
(** The second client of connection 32, after the queue has emptied. *)
Example C109_partial_case : exists y tr y2 tr2, yreach zbuf ini0 y tr /\ existsb (concerns 32) (y_q y) = false /\ ypath y tr2 y2 /\
  ucount (is_ufree 32) (flat_map (fun r => fst (fst (outs r))) tr) = 1%nat /\
  filter (on 32) (map fst (answers tr2)) = [(32, 32)].
Proof.
  destruct (yobs_split zbuf ini0 (flat_map join (upto 32) ++ [rd 32 (msg_pkt 32 5 42 7 (q_end 11)); bye 32] ++ go 4) (hi 32 ++ [rd 32 (opn_pkt 50 1)] ++ go 2 ++ [rd 32 (msg_pkt 32 5 51 9 (q_end 11))] ++ go 4)
    (fun y tr y2 tr2 => (existsb (concerns 32) (y_q y), ucount (is_ufree 32) (flat_map (fun r => fst (fst (outs r))) tr), filter (on 32) (map fst (answers tr2))))
    (false, 1%nat, [(32, 32)])) as (y & tr & tr2 & y2 & R & P & E); [obs|obs|obs|].
  apply pair_equal_spec in E as [E E3]. apply pair_equal_spec in E as [E1 E2]. exists y, tr, y2, tr2. auto.
Qed.

Print Assumptions C104_refuted.
Print Assumptions C104_deliver.
Print Assumptions C104_net_partial.
Print Assumptions C104_hello.
Print Assumptions C104_data.
Print Assumptions C104_handshake.
Print Assumptions C104_short.
Print Assumptions C105_answers.
Print Assumptions C105_requests.
Print Assumptions C106_refuted.
Print Assumptions C106_orphan.
Print Assumptions C106_deaf.
Print Assumptions C106_partial.
Print Assumptions C106_quiet.
Print Assumptions C107_refuted.
Print Assumptions C107_partial.
Print Assumptions C108_quiescence.
Print Assumptions C109_open_refuted.
Print Assumptions C109_answer_refuted.
Print Assumptions C109_partial.
