(** Theorems about the connection library, C55, C93-C98. *)
From Verif Require Import Base ModbusCodecModel ModbusCodecSpec ModbusClientModel UaCodecModel UaCodecSpec UaTcpModel UaTcpSpec UaTcpProofs UaTcpFacts
  ProtoConnModel ProtoConnSpec ProtoConnProofs ProtoConnFacts ProtoHello.
Local Open Scope Z_scope.

(** What the examples use: memory contents, the answers of a peer, and complete handshakes. *)
Definition pbuf : list Z := repeat 0 (Z.to_nat 4096).
Lemma pbuf_ok : umem_ok pbuf.
Proof.
  split; [unfold pbuf; rewrite repeat_length; lia|]. apply Forall_forall. intros x Hx. apply repeat_spec in Hx as ->. unfold is_byte. lia.
Qed.
Definition full : option nat := Some (Z.to_nat 4096).
Definition dial : pcall := KConnect true true true.
Definition peer_ack : list Z := [65; 67; 75; 70; 28; 0; 0; 0] ++ repeat 0 20.
Definition peer_hello : list Z := [72; 69; 76; 70; 32; 0; 0; 0] ++ repeat 0 24.
Definition read_of (bs : list Z) : pev := PvData (RxBytes bs) full [].
Definition cl_run : list pev := [PvCall dial; PvConnected full []; read_of peer_ack].
Definition dialed : list pout := [PUser dial; PLink; PTimer; PDial; PArm 3000000].
Definition greeted (p : list Z) : list pout := [PTx p (length p); PDisarm; PArm 1000000].
Definition cl_outs : list (list pout) :=
  [dialed; greeted hello_packet; [PDisarm; PNote NConnected; PArm 10000000]].
Definition sv_run : list pev := [PvCall (KAccept true); read_of peer_hello].
Definition sv_outs : list (list pout) :=
  [[PUser (KAccept true); PLink; PTimer; PArm 1000000]; [PTx ack_packet 28; PDisarm; PNote NConnected; PArm 10000000]].
Definition note_msg : list Z := [77; 83; 71; 70; 12; 0; 0; 0; 1; 2; 3; 4].

(** * C55 *)

(** For a user who neither closes from inside the connected notification nor closes and then starts anew from inside a closed or error
    notification (starting anew there without closing is allowed, and ignored: C157): the notifications are in order, an ended attempt has given back its timer before anything else
    happens, and as many timers (and links, unless the reactor ran out of timers) are held as attempts are under way. *)
Theorem C55_order_partial role b0 c tr : preach role b0 c tr -> well_mannered tr ->
  exists ph, phases Idle (pouts tr) = Some ph /\ ph <> Ending /\
    pcount is_ptimer (pouts tr) = (pcount is_pfreed (pouts tr) + match ph with Idle => 0 | _ => 1 end)%nat /\
    (has_timers (pouts tr) -> pcount is_plink (pouts tr) = pcount is_ptimer (pouts tr)).
Proof.
  intros R W. destruct (reach_J _ _ _ _ R W) as (ph & E & HJ). exists ph. split; [exact E|]. split; [eauto using J_phase|]. split.
  - apply phases_count in E. cbn [busy] in E. unfold busy in E. lia.
  - eauto using reach_links.
Qed.

Definition talk_run : list pev := cl_run ++ [read_of note_msg; PvCall KClose].
Definition talk_outs : list (list pout) := cl_outs ++ [[PNote (NData note_msg)]; [PUser KClose; PShut; PDisarm; PFreed]].
Example C55_case : exists c, preach RClient pbuf c (combine talk_run talk_outs) /\ well_mannered (combine talk_run talk_outs) /\
  has_timers (pouts (combine talk_run talk_outs)).
Proof.
  destruct (prun_from RClient pbuf talk_run talk_outs pbuf_ok) as [c R]; [vm_compute; reflexivity|vm_compute; reflexivity|].
  exists c. split; [exact R|]. split; [apply well_mannb; reflexivity|]. intros l k. cbn. intuition discriminate.
Qed.

(** close() from outside a notification ends an established connection at once: the link is closed, the timer stopped, both are
    given back and no notification follows.  At any other time it does nothing: an attempt under way goes on. *)
Theorem C55_close role b0 c tr ph : preach role b0 c tr -> well_mannered tr -> phases Idle (pouts tr) = Some ph ->
  exists c', p_step role (PvCall KClose) c = Some (c', PUser KClose :: match ph with Up => [PShut; PDisarm; PFreed] | _ => [] end, false) /\
    (ph <> Up -> c' = c) /\ (ph = Up -> p_link c' = None /\ p_timer c' = None).
Proof.
  intros R W E. destruct (reach_J _ _ _ _ R W) as (ph' & E' & HJ). rewrite E in E'. injection E' as <-.
  unfold J in HJ. destruct c as [st ti li rx]. cbn [p_st p_timer p_link] in HJ. destruct st; destruct HJ as (-> & Ht & Hl).
  1-3: (eexists; split; [reflexivity|]; split; [reflexivity|discriminate]).
  destruct li as [fd|]; [|congruence]. destruct ti as [t|]; [|discriminate]. eexists. split; [reflexivity|]. split; [congruence|]. intros _. split; reflexivity.
Qed.

(** A user who closes and reconnects from inside a notification gets the new attempt torn down without a word. *)
Definition again_run : list pev := cl_run ++ [PvTimer [KClose; dial]].
Definition again_outs : list (list pout) :=
  cl_outs ++ [[PShut; PNote NClosed; PUser KClose; PShut; PDisarm; PFreed] ++ dialed ++ [PDisarm; PFreed]].
Theorem C55_refuted :
  ~ (forall role b0 c tr, preach role b0 c tr -> exists ph, phases Idle (pouts tr) = Some ph).
Proof.
  intros H. destruct (prun_from RClient pbuf again_run again_outs pbuf_ok) as [c R]; [vm_compute; reflexivity|vm_compute; reflexivity|].
  destruct (H _ _ _ _ R) as [ph E]. vm_compute in E. discriminate E.
Qed.

(** * C93 *)

(** Unless Link::connect failed at once, an attempt that has not ended has a timer running: of ten seconds once connected, before that of three seconds
    or one; when it expires the user is notified once and everything is given back. *)
Theorem C93_ends_partial role b0 c tr ph : preach role b0 c tr -> well_mannered tr -> all_dial tr ->
  phases Idle (pouts tr) = Some ph -> ph <> Idle ->
  exists us c', running tr = Some us /\ (match ph with Up => us = 10000000 | _ => us = 3000000 \/ us = 1000000 end) /\ p_enabled c (PvTimer []) = true /\
    p_step role (PvTimer []) c = Some (c', [PShut; PNote (match ph with Up => NClosed | _ => NError end); PDisarm; PFreed], false).
Proof.
  intros R W Dl E Hn. destruct (reach_inv _ _ _ _ R W) as (ph' & E' & HJ & _ & HA). rewrite E in E'. injection E' as <-. specialize (HA Dl).
  assert (Hs : p_st c <> PsInit) by (unfold J in HJ; destruct (p_st c); intuition congruence).
  destruct (timer_end role c ph (running tr) HJ Hs) as (c' & n & St & ->).
  assert (Ht : exists us, p_timer c = Some (Some us) /\ match ph with Up => us = 10000000 | _ => us = 3000000 \/ us = 1000000 end).
  { unfold A in HA. unfold J in HJ. destruct (p_st c); [congruence|..]; destruct HJ as (-> & _);
      (eexists; split; [exact HA|unfold connectTimeout, receiveTimeout, establishTimeout; lia]). }
  destruct Ht as (us & Ht & Hb). exists us, c'.
  assert (running tr = Some us) by (unfold J in HJ; destruct (p_st c); [congruence|..]; destruct HJ as (_ & HJ & _); congruence).
  repeat split; auto. cbn [p_enabled]. now rewrite Ht.
Qed.

Example C93_case : exists c, preach RClient pbuf c (combine cl_run cl_outs) /\ well_mannered (combine cl_run cl_outs) /\
  all_dial (combine cl_run cl_outs) /\ phases Idle (pouts (combine cl_run cl_outs)) = Some Up.
Proof.
  destruct (prun_from RClient pbuf cl_run cl_outs pbuf_ok) as [c R]; [vm_compute; reflexivity|vm_compute; reflexivity|].
  exists c. split; [exact R|]. split; [apply well_mannb; reflexivity|]. split; [apply all_dialb; reflexivity|reflexivity].
Qed.

(** When Link::connect fails at once the attempt never ends: no call and no event changes anything any more. *)
Theorem C93_stuck role b0 c tr e c' os t lok tok : preach role b0 c tr -> well_mannered tr ->
  phases Idle (pouts tr) = Some Idle -> e = PvCall (KConnect lok tok false) -> lok = true -> tok = true ->
  p_step role e c = Some (c', os, t) ->
  t = true /\ forall es c2 oss, prun role c' es = Some (c2, oss) ->
    c2 = c' /\ forall o, In o (concat oss) -> match o with PUser _ => True | PSent ok => ok = false | _ => False end.
Proof.
  intros R W E -> -> -> St. destruct (reach_J _ _ _ _ R W) as (ph & E' & HJ). rewrite E in E'. injection E' as <-.
  assert (Hs : p_st c = PsInit) by (unfold J in HJ; destruct (p_st c); intuition congruence).
  destruct c as [st ti li rx]. cbn in Hs. subst st. cbn [p_step] in St. vm_compute in St. injection St as <- <- <-. split; [reflexivity|].
  set (c0 := mkP _ _ _ _). assert (S : stuck c0) by (repeat split).
  clearbody c0. induction es as [|e es IH]; intros c2 oss H; cbn [prun] in H.
  - inversion H; subst. split; [reflexivity|]. intros o [].
  - destruct (p_enabled c0 e) eqn:En; [|discriminate H]. destruct (p_step role e c0) as [[[c1 os] t]|] eqn:St; [|discriminate H].
    destruct (stuck_step _ _ _ _ _ _ S En St) as [-> Ho]. destruct (prun role c0 es) as [[c3 o3]|] eqn:Er; [|discriminate H].
    inversion H; subst; clear H. destruct (IH _ _ eq_refl) as [-> Ho3]. split; [reflexivity|]. intros o. cbn [concat]. intros B. apply in_app_or in B as [B|B]; [exact (Ho o B)|exact (Ho3 o B)].
Qed.
Theorem C93_refuted :
  ~ (forall role b0 c tr, preach role b0 c tr -> well_mannered tr -> phases Idle (pouts tr) = Some Trying ->
       exists es c' oss n, prun role c es = Some (c', oss) /\ In (PNote n) (concat oss)).
Proof.
  intros H. destruct (prun_from RClient pbuf [PvCall (KConnect true true false)] [[PUser (KConnect true true false); PLink; PTimer; PThrow]] pbuf_ok) as [c R];
    [vm_compute; reflexivity|vm_compute; reflexivity|].
  destruct (H _ _ _ _ R) as (es & c' & oss & n & Er & B); [apply well_mannb; reflexivity|reflexivity|].
  apply (preach_snoc _ _ _ []) in R as (c0 & t & R0 & _ & _ & St).
  destruct (C93_stuck _ _ _ _ _ _ _ _ _ _ R0 (Forall_nil _) eq_refl eq_refl eq_refl eq_refl St) as [_ G]. destruct (G _ _ _ Er) as [_ G2].
  apply (G2 _ B).
Qed.

(** * C94 *)

(** While the connection is being set up by the kernel, a link failure is reported at once. *)
Theorem C94_reported_partial role b0 c tr c' os us t : preach role b0 c tr -> well_mannered tr -> all_dial tr ->
  phases Idle (pouts tr) = Some Trying -> running tr = Some 3000000 ->
  p_step role (PvError us) c = Some (c', os, t) -> exists r, os = PNote NError :: r.
Proof.
  intros R W Dl E Hr St. destruct (reach_inv _ _ _ _ R W) as (ph' & E' & HJ & _ & HA). rewrite E in E'. injection E' as <-.
  pose proof (J_dial _ _ HJ (HA Dl) Hr) as Hs. cbn [p_step] in St. rewrite Hs in St.
  unfold p_note in St. apply pseq_inv in St as [[H ->]|(c1 & o1 & o2 & H1 & H2 & ->)].
  - apply pseq_inv in H as [[H _]|(c1 & o1 & o2 & H1 & H2 & ->)]; [discriminate H|]. inversion H1; subst. cbn. eauto.
  - apply pseq_inv in H1 as [[H1 _]|(c2 & o3 & o4 & H3 & H4 & ->)]; [discriminate H1|]. inversion H3; subst. cbn. eauto.
Qed.
Example C94_case : exists c, preach RClient pbuf c [(PvCall dial, dialed)] /\ well_mannered [(PvCall dial, dialed)] /\
  all_dial [(PvCall dial, dialed)] /\ phases Idle (pouts [(PvCall dial, dialed)]) = Some Trying /\
  running [(PvCall dial, dialed)] = Some 3000000 /\ pview (p_step RClient (PvError []) c) = Some [PNote NError; PDisarm; PFreed].
Proof.
  destruct (prun_last RClient pbuf [PvCall dial] [dialed] (PvError []) (Some [PNote NError; PDisarm; PFreed]) pbuf_ok) as (c & R & _ & St);
    [vm_compute; reflexivity|vm_compute; reflexivity|].
  exists c. split; [exact R|]. split; [apply well_mannb; reflexivity|]. split; [apply all_dialb; reflexivity|]. repeat split. exact St.
Qed.

(** Once connected, neither a link failure nor the end of the stream is reported. *)
Theorem C94_silent role b0 c tr us w : preach role b0 c tr -> well_mannered tr -> phases Idle (pouts tr) = Some Up ->
  (exists c', p_step role (PvError us) c = Some (c', [], false)) /\
  (unread tr = [] -> p_enabled c (PvData (RxBytes []) w us) = true ->
   exists c', p_step role (PvData (RxBytes []) w us) c = Some (c', [], false)).
Proof.
  intros R W E. destruct (reach_inv _ _ _ _ R W) as (ph' & E' & HJ & HX & _). rewrite E in E'. injection E' as <-.
  pose proof (J_up _ _ HJ) as Hs. split; [cbn [p_step]; rewrite Hs; eexists; reflexivity|]. intros Hu En. cbn [p_step]. rewrite Hs.
  destruct HX as [Xl _ Xr _ _]. destruct (Xr (or_intror Hs)) as (Hh & _ & _). rewrite Hu, firstn_nil in Hh. cbn in Hh.
  unfold p_receive, u_receive. cbn [t_rx t_link]. rewrite Hh. cbn [p_enabled] in En. destruct (p_link c) as [[]|]; try discriminate En.
  change (1024 <? Z.of_nat 0) with false. rewrite firstn_nil. cbn [length Nat.add]. change (Z.of_nat 0 <? 8) with true. eexists. reflexivity.
Qed.
Theorem C94_refuted :
  ~ (forall role b0 c tr c' os us t, preach role b0 c tr -> well_mannered tr -> phases Idle (pouts tr) = Some Up ->
       p_step role (PvError us) c = Some (c', os, t) -> In (PNote NError) os \/ In (PNote NClosed) os).
Proof.
  intros H. destruct C93_case as (c & R & W & _ & E). destruct (C94_silent _ _ _ _ [] full R W E) as [(c' & St) _].
  destruct (H _ _ _ _ _ _ _ _ R W E St) as [[]|[]].
Qed.

(** * C95 *)

(** While a connection stays established nothing starts its timer again: the ten seconds run from the moment it was
    established, whatever arrives or is sent. *)
Theorem C95_lifetime role b0 c tr e os : preach role b0 c (tr ++ [(e, os)]) -> well_mannered (tr ++ [(e, os)]) ->
  phases Idle (pouts tr) = Some Up -> phases Idle (pouts (tr ++ [(e, os)])) = Some Up -> forall us, ~ In (PArm us) os.
Proof.
  intros R W E E2. pose proof (reach_J _ _ _ _ R W) as (ph2 & E2' & HJ2). rewrite E2 in E2'. injection E2' as <-.
  apply preach_snoc in R as (c0 & t & R & _ & _ & St). apply Forall_app in W as [W _].
  destruct (reach_J _ _ _ _ R W) as (ph & E' & HJ). rewrite E in E'. injection E' as <-. exact (up_arms _ _ _ _ _ _ _ _ HJ HJ2 St).
Qed.
Definition fed_run : list pev := cl_run ++ [read_of note_msg; PvTimer []].
Definition fed_outs : list (list pout) := cl_outs ++ [[PNote (NData note_msg)]; [PShut; PNote NClosed; PDisarm; PFreed]].
Example C95_case : exists c c', preach RClient pbuf c (combine (cl_run ++ [read_of note_msg]) (cl_outs ++ [[PNote (NData note_msg)]])) /\
  running (combine (cl_run ++ [read_of note_msg]) (cl_outs ++ [[PNote (NData note_msg)]])) = Some 10000000 /\
  preach RClient pbuf c' (combine fed_run fed_outs).
Proof.
  destruct (prun_from RClient pbuf (cl_run ++ [read_of note_msg]) (cl_outs ++ [[PNote (NData note_msg)]]) pbuf_ok) as [c R]; [vm_compute; reflexivity|vm_compute; reflexivity|].
  destruct (prun_from RClient pbuf fed_run fed_outs pbuf_ok) as [c' R']; [vm_compute; reflexivity|vm_compute; reflexivity|].
  exists c, c'. split; [exact R|]. split; [reflexivity|exact R'].
Qed.
(** So a message does not extend the life of a connection. *)
Theorem C95_refuted :
  ~ (forall role b0 c tr e os m, preach role b0 c (tr ++ [(e, os)]) -> well_mannered (tr ++ [(e, os)]) ->
       In (PNote (NData m)) os -> phases Idle (pouts (tr ++ [(e, os)])) = Some Up -> exists us, In (PArm us) os).
Proof.
  intros H. destruct C95_case as (c & _ & R & _ & _).
  destruct (H RClient pbuf c (combine cl_run cl_outs) (read_of note_msg) [PNote (NData note_msg)] note_msg R) as [us [B|[]]];
    [apply well_mannb; reflexivity|now left|reflexivity|discriminate B].
Qed.

(** * C96 *)

(** When the kernel has connected the link, the class sends its greeting (hello or reverse hello) and waits for the
    answer for one second. *)
Theorem C96_greeting role b0 c tr c' os n us t : preach role b0 c tr -> well_mannered tr -> all_dial tr ->
  phases Idle (pouts tr) = Some Trying -> running tr = Some 3000000 -> p_enabled c (PvConnected (Some n) us) = true ->
  p_step role (PvConnected (Some n) us) c = Some (c', os, t) ->
  os = [PTx (greeting_packet role) (Nat.min n (length (greeting_packet role))); PDisarm; PArm 1000000].
Proof.
  intros R W Dl E Hr En St. destruct (reach_inv _ _ _ _ R W) as (ph' & E' & HJ & _ & HA). rewrite E in E'. injection E' as <-.
  pose proof (J_dial _ _ HJ (HA Dl) Hr) as Hs. cbn [p_step] in St. rewrite Hs in St. unfold p_send_enc in St. rewrite greeting_eq in St.
  unfold J in HJ. rewrite Hs in HJ. destruct HJ as (_ & Ht & _). cbn [p_enabled] in En.
  destruct c as [st ti li rx]. cbn [p_st p_timer p_link] in *. subst. destruct li as [[]|]; try discriminate En.
  unfold p_send in St. cbn [p_link] in St. remember (greeting_packet role) as g. clear Heqg. remember (Nat.min n (length g)) as k. clear Heqk.
  cbv in St. injection St as _ <- _. reflexivity.
Qed.
Lemma greeting_sized role : sized (greeting_packet role) /\ length (greeting_packet role) = match role with RClient => 32%nat | RServer => 16%nat end.
Proof. destruct role; (split; [split; [apply octetsb_ok; reflexivity|split; [cbn; lia|reflexivity]]|reflexivity]). Qed.

(** Connected is announced only when the octets received since the greeting (since accept) are one complete frame of
    the awaited type, and the server class sends its acknowledge first.  (If no exception was thrown before.) *)
Theorem C96_connected_partial role b0 c tr e os : preach role b0 c (tr ++ [(e, os)]) -> well_mannered (tr ++ [(e, os)]) ->
  threw tr = false -> In (PNote NConnected) os ->
  exists bs w us m, e = PvData (RxBytes bs) w us /\ m = firstn pktLen (unread tr ++ bs) /\ sized m /\ firstn 3 m = awaited role /\
    match role with
    | RClient => exists r, os = PDisarm :: PNote NConnected :: r
    | RServer => exists n r, os = PTx ack_packet n :: PDisarm :: PNote NConnected :: r
    end.
Proof.
  intros R W Th B. destruct (step_Q _ _ _ _ _ _ R W) as [_ q]. destruct (q B) as (bs & wr & us & -> & Hm & Hs & Hc).
  destruct (Hm Th) as [S1 S2]. exists bs, wr, us, (firstn pktLen (unread tr ++ bs)). repeat (split; [first [reflexivity|assumption]|]). destruct role; auto.
Qed.
Example C96_case : exists c, preach RServer pbuf c (combine sv_run sv_outs) /\ well_mannered (combine sv_run sv_outs) /\
  threw (combine sv_run sv_outs) = false.
Proof.
  destruct (prun_from RServer pbuf sv_run sv_outs pbuf_ok) as [c R]; [vm_compute; reflexivity|vm_compute; reflexivity|].
  exists c. split; [exact R|]. split; [apply well_mannb; reflexivity|reflexivity].
Qed.

(** After an exception from a hello with a bad url length, the server class reads the next frame at the wrong place and
    takes one that does not carry its length. *)
Definition bad_hello : list Z := [72; 69; 76; 70; 32; 0; 0; 0] ++ repeat 0 20 ++ [251; 255; 255; 255].
Definition odd_hello : list Z := [72; 69; 76; 70; 64; 0; 0; 0] ++ repeat 0 24.
Theorem C96_refuted :
  ~ (forall role b0 c tr e os, preach role b0 c (tr ++ [(e, os)]) -> well_mannered (tr ++ [(e, os)]) -> In (PNote NConnected) os ->
       exists bs w us, e = PvData (RxBytes bs) w us /\ sized (unread tr ++ bs)).
Proof.
  intros H.
  destruct (prun_from RServer pbuf [PvCall (KAccept true); read_of bad_hello; read_of odd_hello]
    [[PUser (KAccept true); PLink; PTimer; PArm 1000000]; [PThrow]; [PTx ack_packet 28; PDisarm; PNote NConnected; PArm 10000000]] pbuf_ok) as [c R];
    [vm_compute; reflexivity|vm_compute; reflexivity|].
  destruct (H RServer pbuf c [(PvCall (KAccept true), [PUser (KAccept true); PLink; PTimer; PArm 1000000]); (read_of bad_hello, [PThrow])]
    (read_of odd_hello) [PTx ack_packet 28; PDisarm; PNote NConnected; PArm 10000000] R) as (bs & w & us & E & _ & _ & S).
  - apply well_mannb. reflexivity.
  - cbn. auto.
  - injection E as <- _ _. vm_compute in S. discriminate S.
Qed.

(** * C97 *)

(** What a data notification announces is one complete frame, made of exactly the octets received since the last one. *)
Theorem C97_data role b0 c tr e os m : preach role b0 c (tr ++ [(e, os)]) -> well_mannered (tr ++ [(e, os)]) -> In (PNote (NData m)) os ->
  exists bs w us, e = PvData (RxBytes bs) w us /\ m = firstn pktLen (unread tr ++ bs) /\ sized m.
Proof. intros R W B. destruct (step_Q _ _ _ _ _ _ R W) as [q _]. exact (q _ B). Qed.

(** A frame of up to 4096 octets is announced whole, once, and with nothing before, however it is cut into pieces, if at
    most 1024 octets of it arrive before the last piece. *)
Theorem C97_segments role b0 c tr m segs y w : preach role b0 c tr -> well_mannered tr -> phases Idle (pouts tr) = Some Up ->
  unread tr = [] -> p_enabled c (PvData (RxBytes []) w []) = true -> sized m -> y <> [] -> m = concat segs ++ y ->
  (length (concat segs) <= 1024)%nat -> Z.of_nat (length m) <= 4096 ->
  exists c', prun role c (map (fun s => PvData (RxBytes s) w []) (segs ++ [y])) = Some (c', map (fun _ => []) segs ++ [[PNote (NData m)]]).
Proof.
  intros R W E Hu En Hs Hy Hm Hc Hlm. destruct (reach_inv _ _ _ _ R W) as (ph' & E' & HJ & HX & _). rewrite E in E'. injection E' as <-.
  pose proof (J_up _ _ HJ) as Hst. destruct HX as [Xl Xb Xr Xc _]. destruct (Xr (or_intror Hst)) as (Hh & _ & _). rewrite Hu, firstn_nil in Hh. cbn in Hh.
  assert (Hl : p_link c = Some true) by (cbn in En; destruct (p_link c) as [[]|]; congruence). pose proof (Xc Hst) as Ht.
  pose proof (seg_run role c Hst Hl Xl Hh Ht m y w segs Hs Hy [] Hm Hc) as E1. rewrite holding_nil in E1 by assumption. cbn [app] in E1.
  destruct (seg_last role c Hst Hl Xl Hh Ht m (concat segs) y w Hs Hm Hc Hlm) as (c' & E2). exists c'.
  assert (App : forall es1 es2 c c1 o1, prun role c es1 = Some (c1, o1) ->
     prun role c (es1 ++ es2) = match prun role c1 es2 with Some (c2, o2) => Some (c2, o1 ++ o2) | None => None end).
  { clear. induction es1 as [|e es1 IH]; intros es2 c c1 o1 H; cbn [prun app] in *.
    - inversion H; subst. destruct (prun role c1 es2) as [[? ?]|]; reflexivity.
    - destruct (p_enabled c e); [|discriminate H]. destruct (p_step role e c) as [[[c2 os] t]|]; [|discriminate H].
      destruct (prun role c2 es1) as [[c3 o3]|] eqn:E; [|discriminate H]. inversion H; subst. rewrite (IH es2 _ _ _ E). destruct (prun role c1 es2) as [[? ?]|]; reflexivity. }
  rewrite map_app. rewrite (App _ _ _ _ _ E1). cbn [map prun]. rewrite (seg_enabled c Hl (concat segs) y w), E2. reflexivity.
Qed.
Example C97_case : exists c, preach RClient pbuf c (combine cl_run cl_outs) /\ well_mannered (combine cl_run cl_outs) /\
  unread (combine cl_run cl_outs) = [] /\ sized note_msg /\ exists c', prun RClient c (map read_of [[77]; [83; 71; 70; 12; 0]; [0; 0; 1; 2; 3; 4]]) = Some (c', [[]; []; [PNote (NData note_msg)]]).
Proof.
  destruct (prun_last RClient pbuf cl_run cl_outs (read_of []) (Some []) pbuf_ok) as (c & R & En & _); [vm_compute; reflexivity|vm_compute; reflexivity|].
  exists c. split; [exact R|]. assert (W : well_mannered (combine cl_run cl_outs)) by (apply well_mannb; reflexivity).
  assert (S : sized note_msg) by (split; [apply octetsb_ok; reflexivity|split; [cbn; lia|reflexivity]]).
  split; [exact W|]. split; [reflexivity|]. split; [exact S|].
  apply (C97_segments RClient pbuf c _ note_msg [[77]; [83; 71; 70; 12; 0]] [0; 0; 1; 2; 3; 4] full R W eq_refl eq_refl En S); [discriminate|reflexivity|cbn; lia|cbn; lia].
Qed.

(** More than 1024 octets without a complete frame end the connection with the next read, whatever it brings. *)
Theorem C97_backlog role b0 c tr r w : preach role b0 c tr -> well_mannered tr -> phases Idle (pouts tr) = Some Up ->
  (1024 < length (unread tr))%nat -> p_enabled c (PvData r w []) = true ->
  exists c', p_step role (PvData r w []) c = Some (c', [PShut; PNote NError; PDisarm; PFreed], false).
Proof.
  intros R W E Hu En. destruct (reach_inv _ _ _ _ R W) as (ph' & E' & HJ & HX & _). rewrite E in E'. injection E' as <-.
  pose proof (J_up _ _ HJ) as Hst. destruct HX as [Xl Xb Xr Xc _]. destruct (Xr (or_intror Hst)) as (Hh & _ & _).
  assert (Hb : (1024 <? Z.of_nat (k_head (p_rx c))) = true) by (rewrite Hh, firstn_length; pose proof pktLen_Z; lia).
  unfold J in HJ. rewrite Hst in HJ. destruct HJ as (_ & Ht & _). cbn [p_enabled] in En.
  cbn [p_step]. rewrite Hst. unfold p_receive, u_receive. cbn [t_rx t_link]. rewrite Hb.
  destruct c as [st ti li rx]. cbn [p_st p_timer p_link p_rx t_rx] in *. subst. destruct li as [[]|]; try discriminate En. eexists. reflexivity.
Qed.
Definition long_msg : list Z := [77; 83; 71; 70; 208; 7; 0; 0] ++ repeat 0 (Z.to_nat 1992).
Definition first_half : list Z := firstn (Z.to_nat 1100) long_msg.
Definition second_half : list Z := skipn (Z.to_nat 1100) long_msg.
Lemma first_half_length : Z.of_nat (length first_half) = 1100.
Proof. vm_compute. reflexivity. Qed.
Lemma backlog_case : exists c, preach RClient pbuf c (combine (cl_run ++ [read_of first_half]) (cl_outs ++ [[]])) /\
  p_enabled c (read_of second_half) = true.
Proof.
  destruct (prun_last RClient pbuf (cl_run ++ [read_of first_half]) (cl_outs ++ [[]]) (read_of second_half) (Some [PShut; PNote NError; PDisarm; PFreed]) pbuf_ok)
    as (c & R & En & _); [vm_compute; reflexivity|vm_compute; reflexivity|eauto].
Qed.
Theorem C97_refuted :
  ~ (forall role b0 c tr m x y w, preach role b0 c tr -> well_mannered tr -> phases Idle (pouts tr) = Some Up -> unread tr = x ->
       p_enabled c (PvData (RxBytes y) w []) = true -> sized m -> m = x ++ y -> Z.of_nat (length m) <= 4096 ->
       exists c', p_step role (PvData (RxBytes y) w []) c = Some (c', [PNote (NData m)], false)).
Proof.
  intros H. destruct backlog_case as (c & R & En).
  assert (W : well_mannered (combine (cl_run ++ [read_of first_half]) (cl_outs ++ [[]]))) by (apply well_mannb; reflexivity).
  assert (Hu : unread (combine (cl_run ++ [read_of first_half]) (cl_outs ++ [[]])) = first_half) by reflexivity.
  destruct (H _ _ _ _ long_msg first_half second_half full R W eq_refl Hu En) as (c' & St).
  - split; [apply octetsb_ok; vm_compute; reflexivity|]. split; [unfold long_msg; rewrite app_length; cbn; lia|vm_compute; reflexivity].
  - symmetry. apply firstn_skipn.
  - unfold Z.le. vm_compute. discriminate.
  - destruct (C97_backlog _ _ _ _ (RxBytes second_half) full R W eq_refl) as (c2 & St2);
      [rewrite Hu; pose proof first_half_length; lia|exact En|]. unfold read_of in *. rewrite St2 in St. discriminate St.
Qed.

(** * C98 *)

(** The client class, and the server class except for octets that arrive during its handshake: every event and call is handled, if
    the user calls send only between connect and the closing notification and does not close from inside a notification.  (If no
    exception was thrown before.) *)
Theorem C98_defined_partial role b0 c tr ph e : preach role b0 c tr -> well_mannered tr -> phases Idle (pouts tr) = Some ph ->
  threw tr = false -> pev_ok e -> p_enabled c e = true -> no_close e ->
  (forall p w, e = PvCall (KSend p w) -> ph <> Idle) -> (role = RClient \/ ph <> Trying \/ forall bs w us, e <> PvData (RxBytes bs) w us) ->
  exists c' os t, p_step role e c = Some (c', os, t).
Proof.
  intros R W E Th Ok En N S Rl. destruct (reach_inv _ _ _ _ R W) as (ph' & E' & HJ & HX & _). rewrite E in E'. injection E' as <-.
  eapply step_defined; eauto.
Qed.
Example C98_case : exists c, preach RClient pbuf c (combine cl_run cl_outs) /\ threw (combine cl_run cl_outs) = false /\
  p_enabled c (read_of note_msg) = true /\ no_close (read_of note_msg).
Proof.
  destruct (prun_last RClient pbuf cl_run cl_outs (read_of note_msg) (Some [PNote (NData note_msg)]) pbuf_ok) as (c & R & En & _); [vm_compute; reflexivity|vm_compute; reflexivity|].
  exists c. repeat split; auto. intros [].
Qed.

(** close() from inside the connected notification: the class goes on to start the timer it has given back. *)
Theorem C98_close_refuted :
  ~ (forall role b0 c tr e, preach role b0 c tr -> well_mannered tr -> pev_ok e -> p_enabled c e = true ->
       (forall p w, e <> PvCall (KSend p w)) -> p_step role e c <> None).
Proof.
  intros H.
  destruct (prun_last RClient pbuf [PvCall dial; PvConnected full []] [dialed; greeted hello_packet] (PvData (RxBytes peer_ack) full [KClose]) None pbuf_ok)
    as (c & R & En & St); [vm_compute; reflexivity|vm_compute; reflexivity|].
  apply (H _ _ _ _ _ R) in En; [|apply well_mannb; reflexivity|apply octetsb_ok; reflexivity|discriminate].
  destruct (p_step _ _ c); [discriminate St|congruence].
Qed.
(** send() on an idle connection: there is no link. *)
Theorem C98_send_refuted : forall role b0 p w, p_step role (PvCall (KSend p w)) (conn0 b0) = None.
Proof. reflexivity. Qed.
(** A hello whose url length is larger than the packet makes the server class read beyond its buffer. *)
Definition huge_hello : list Z := [72; 69; 76; 70; 32; 0; 0; 0] ++ repeat 0 20 ++ [0; 32; 0; 0].
Theorem C98_hello_refuted :
  ~ (forall b0 c tr e, preach RServer b0 c tr -> well_mannered tr -> pev_ok e -> p_enabled c e = true -> no_close e ->
       (forall k, e <> PvCall k) -> p_step RServer e c <> None).
Proof.
  intros H.
  destruct (prun_last RServer pbuf [PvCall (KAccept true)] [[PUser (KAccept true); PLink; PTimer; PArm 1000000]] (read_of huge_hello) None pbuf_ok)
    as (c & R & En & St); [vm_compute; reflexivity|vm_compute; reflexivity|].
  apply (H _ _ _ _ R) in En; [|apply well_mannb; reflexivity|apply octetsb_ok; reflexivity|intros []|discriminate].
  destruct (p_step _ _ c); [discriminate St|congruence].
Qed.
(** Octets that arrive during the server class's handshake ([m]: all octets of it so far, as far as the buffer holds them), exactly:
    nothing but a whole hello can go wrong; a whole hello of 32 octets or more is read beyond the buffer if it announces a url
    of more than 4064 octets, and throws an exception if it announces a length below -1. *)
Theorem C98_hello b0 c tr bs w us m : preach RServer b0 c tr -> well_mannered tr -> all_dial tr -> phases Idle (pouts tr) = Some Trying ->
  running tr = Some 1000000 -> threw tr = false -> bytes_ok bs -> p_enabled c (PvData (RxBytes bs) w us) = true -> ~ In KClose us ->
  m = firstn (Z.to_nat 4096) (unread tr ++ bs) ->
  let whole := (length (unread tr) <= 1024)%nat /\ (8 <= length m)%nat /\ le_at 4 m = Z.of_nat (length m) /\ firstn 3 m = [72; 69; 76] in
  let r := p_step RServer (PvData (RxBytes bs) w us) c in
  (~ whole -> exists c' os, r = Some (c', os, false)) /\
  ((32 <= length m)%nat ->
     (r = None <-> whole /\ 4064 < le_at 28 m < 2147483648) /\
     ((exists c' os, r = Some (c', os, true)) <-> whole /\ 2147483648 <= le_at 28 m < 4294967295)).
Proof. exact (hello_exact b0 c tr bs w us m). Qed.
(** In two reads: the first 12 octets, then the rest, with a url of 4064, 4065 and -2 octets. *)
Definition hello_head : list Z := [72; 69; 76; 70; 32; 0; 0; 0; 0; 0; 0; 0].
Definition hello_rest (l : list Z) : list Z := repeat 0 16 ++ l.
Example C98_hello_case : exists c tr, preach RServer pbuf c tr /\ well_mannered tr /\ all_dial tr /\ phases Idle (pouts tr) = Some Trying /\
  running tr = Some 1000000 /\ threw tr = false /\ unread tr = hello_head /\
  (exists c' os, p_step RServer (read_of (hello_rest [224; 15; 0; 0])) c = Some (c', os, false)) /\
  p_step RServer (read_of (hello_rest [225; 15; 0; 0])) c = None /\
  (exists c' os, p_step RServer (read_of (hello_rest [254; 255; 255; 255])) c = Some (c', os, true)).
Proof.
  set (tr := combine [PvCall (KAccept true); read_of hello_head] [[PUser (KAccept true); PLink; PTimer; PArm 1000000]; []]).
  destruct (prun_last RServer pbuf [PvCall (KAccept true); read_of hello_head] [[PUser (KAccept true); PLink; PTimer; PArm 1000000]; []] (read_of huge_hello) (Some [PShut; PNote NError; PDisarm; PFreed]) pbuf_ok)
    as (c & R & En & _); [vm_compute; reflexivity|vm_compute; reflexivity|].
  fold tr in R. assert (W : well_mannered tr) by (apply well_mannb; reflexivity).
  assert (D : all_dial tr).
  { unfold all_dial, tr. cbn [combine]. repeat constructor; intros l t H; cbn in H; intuition discriminate. }
  exists c, tr. split; [exact R|]. split; [exact W|]. split; [exact D|]. split; [reflexivity|]. split; [reflexivity|]. split; [reflexivity|]. split; [reflexivity|].
  assert (H : forall l, bytes_ok l -> length l = 4%nat -> let r := p_step RServer (read_of (hello_rest l)) c in
    (r = None <-> 4064 < le_val l < 2147483648) /\ ((exists c' os, r = Some (c', os, true)) <-> 2147483648 <= le_val l < 4294967295)).
  { intros l Hl L. do 4 (destruct l as [|? l]; [discriminate L|]). destruct l; [|discriminate L].
    destruct (C98_hello pbuf c tr (hello_rest [z; z0; z1; z2]) full [] (hello_head ++ hello_rest [z; z0; z1; z2]) R W D eq_refl eq_refl eq_refl) as (_ & H); [|exact En|intros []| |].
    - unfold bytes_ok. apply Forall_app. split; [apply octetsb_ok; reflexivity|exact Hl].
    - symmetry. apply firstn_all2. cbn [app length hello_head hello_rest repeat]. lia.
    - specialize (H ltac:(cbn [app length hello_head hello_rest repeat]; lia)). destruct H as [H1 H2].
      replace (le_at 28 (hello_head ++ hello_rest [z; z0; z1; z2])) with (le_val [z; z0; z1; z2]) in H1, H2 by reflexivity.
      assert (WH : (length (unread tr) <= 1024)%nat /\ (8 <= length (hello_head ++ hello_rest [z; z0; z1; z2]))%nat /\
        le_at 4 (hello_head ++ hello_rest [z; z0; z1; z2]) = Z.of_nat (length (hello_head ++ hello_rest [z; z0; z1; z2])) /\ firstn 3 (hello_head ++ hello_rest [z; z0; z1; z2]) = [72; 69; 76]).
      { change (unread tr) with hello_head. split; [cbn [length hello_head]; lia|]. split; [cbn [app length hello_head hello_rest repeat]; lia|]. split; reflexivity. }
      cbv zeta. unfold read_of in *. tauto. }
  destruct (H [224; 15; 0; 0]) as [A1 A2]; [apply octetsb_ok; reflexivity|reflexivity|].
  destruct (H [225; 15; 0; 0]) as [B1 B2]; [apply octetsb_ok; reflexivity|reflexivity|].
  destruct (H [254; 255; 255; 255]) as [C1 C2]; [apply octetsb_ok; reflexivity|reflexivity|].
  cbn [le_val] in *. cbv zeta in *. split; [|split].
  - destruct (p_step RServer (read_of (hello_rest [224; 15; 0; 0])) c) as [[[c' os] []]|]; [|eauto|].
    + destruct A2 as [A2 _]. specialize (A2 ltac:(eauto)). lia.
    + destruct A1 as [A1 _]. specialize (A1 eq_refl). lia.
  - apply B1. lia.
  - apply C2. lia.
Qed.

Print Assumptions C55_order_partial.
Print Assumptions C55_close.
Print Assumptions C55_refuted.
Print Assumptions C93_ends_partial.
Print Assumptions C93_stuck.
Print Assumptions C93_refuted.
Print Assumptions C94_reported_partial.
Print Assumptions C94_silent.
Print Assumptions C94_refuted.
Print Assumptions C95_lifetime.
Print Assumptions C95_refuted.
Print Assumptions C96_greeting.
Print Assumptions C96_connected_partial.
Print Assumptions C96_refuted.
Print Assumptions C97_data.
Print Assumptions C97_segments.
Print Assumptions C97_backlog.
Print Assumptions C97_refuted.
Print Assumptions C98_defined_partial.
Print Assumptions C98_close_refuted.
Print Assumptions C98_send_refuted.
Print Assumptions C98_hello_refuted.
Print Assumptions C98_hello.
